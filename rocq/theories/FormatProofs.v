(** * Rows computed from struct types, and what they say (for C51) *)
From Coq Require Import List ZArith Lia Bool String.
From Coq Require Import Init.Byte.
From Coq Require Import ZifyBool.
From Verif Require Import PyBase Utf8 CTypes S_shared Model Spec SpecDict SpecFormat.
From Verif Require Import BaseProofs LayoutProofs RepProofs DictProofs Utf8Proofs.
Import ListNotations.
Local Open Scope list_scope.
Local Open Scope Z_scope.

(** ** Rows of a type *)

Definition shift_dim (o : Z) (d : dim) : dim :=
  D (d_slots d) (d_dist d) (match d_used d with Some (c, k) => Some (o + c, k) | None => None end).
Definition shift (o : Z) (r : row) : row := R (r_path r) (o + r_off r) (r_kind r) (map (shift_dim o) (r_dims r)).
Definition under (n : string) (r : row) : row := R (F n :: r_path r) (r_off r) (r_kind r) (r_dims r).
Definition each (d : dim) (r : row) : row := R (E :: r_path r) (r_off r) (r_kind r) (d :: r_dims r).
Definition set_used (u : option (Z * fkind)) (r : row) : row :=
  match u, r_dims r with
  | Some u, d :: ds => R (r_path r) (r_off r) (r_kind r) (D (d_slots d) (d_dist d) (Some u) :: ds)
  | _, _ => r
  end.
Definition used_of (all : list (string * (Z * ctype))) (lims : list (string * string)) (n : string) : option (Z * fkind) :=
  match assoc n lims with
  | Some lim => match assoc lim all with Some (o, TInt sg sz) => Some (o, Num sg sz) | _ => None end
  | None => None
  end.
(** Only arrays of other things than characters have used slots. *)
Definition field_used (all : list (string * (Z * ctype))) (lims : list (string * string)) (n : string) (ft : ctype)
  : option (Z * fkind) :=
  match ft with TArr TChar _ => None | TArr _ _ => used_of all lims n | _ => None end.

Fixpoint rows_of (t : ctype) : list row :=
  match t with
  | TInt sg sz => [R [] 0 (Num sg sz) []]
  | TFloat => [R [] 0 F32 []]
  | TChar => [R [] 0 Chr []]
  | TArr TChar n => [R [] 0 (Text n) []]
  | TArr e n => map (each (D n (sizeof e) None)) (rows_of e)
  | TStruct _ fs lims =>
      let all := layout_from 0 fs in
      (fix go (fs : list (string * ctype)) (off : Z) {struct fs} : list row :=
         match fs with
         | [] => []
         | (n, ft) :: r =>
             let o := align_up off (alignof ft) in
             map (fun x => set_used (field_used all lims n ft) (under n (shift o x))) (rows_of ft) ++ go r (o + sizeof ft)
         end) fs 0
  end.

Definition field_row (u : option (Z * fkind)) (n : string) (o : Z) (x : row) : row := set_used u (under n (shift o x)).

Lemma rows_of_struct name fs lims :
  rows_of (TStruct name fs lims) =
  flat_map (fun l => map (field_row (field_used (layout_from 0 fs) lims (fst l) (snd (snd l))) (fst l) (fst (snd l))) (rows_of (snd (snd l)))) (layout_from 0 fs).
Proof.
  cbn [rows_of]. generalize (layout_from 0 fs) at 1 2 as all. intros all. generalize 0 as off.
  induction fs as [|[n ft] fs IH]; intros off; [reflexivity|]. cbn [layout_from flat_map fst snd]. rewrite <- IH. reflexivity.
Qed.

Lemma rows_of_array e n : is_char e = false -> rows_of (TArr e n) = map (each (D n (sizeof e) None)) (rows_of e).
Proof. destruct e; intros H; try discriminate H; reflexivity. Qed.

Lemma in_rows_struct name fs lims r : In r (rows_of (TStruct name fs lims)) <->
  exists n o ft x, In (n, (o, ft)) (layout (TStruct name fs lims)) /\ In x (rows_of ft) /\ r = field_row (field_used (layout_from 0 fs) lims n ft) n o x.
Proof.
  rewrite rows_of_struct, in_flat_map. change (layout (TStruct name fs lims)) with (layout_from 0 fs). split.
  - intros ([n [o ft]] & Hl & Hr). cbn [fst snd] in Hr. apply in_map_iff in Hr as (x & <- & Hx). exists n, o, ft, x. auto.
  - intros (n & o & ft & x & Hl & Hx & ->). exists (n, (o, ft)). split; [exact Hl|]. cbn [fst snd]. apply in_map, Hx.
Qed.

Lemma set_used_path u r : r_path (set_used u r) = r_path r.
Proof. unfold set_used. destruct u, (r_dims r); reflexivity. Qed.
Lemma set_used_off u r : r_off (set_used u r) = r_off r.
Proof. unfold set_used. destruct u, (r_dims r); reflexivity. Qed.
Lemma set_used_kind u r : r_kind (set_used u r) = r_kind r.
Proof. unfold set_used. destruct u, (r_dims r); reflexivity. Qed.
Lemma set_used_slots u r ix : in_slots (r_dims (set_used u r)) ix <-> in_slots (r_dims r) ix.
Proof. unfold set_used. destruct u, (r_dims r) eqn:Ed; cbn [r_dims]; rewrite ?Ed; try reflexivity; destruct ix; reflexivity. Qed.
Lemma set_used_distance u r ix : distance (r_dims (set_used u r)) ix = distance (r_dims r) ix.
Proof. unfold set_used. destruct u, (r_dims r) eqn:Ed; cbn [r_dims]; rewrite ?Ed; try reflexivity; destruct ix; reflexivity. Qed.
Lemma shift_slots o ds : forall ix, in_slots (map (shift_dim o) ds) ix <-> in_slots ds ix.
Proof. induction ds as [|d ds IH]; intros [|i ix]; cbn [map in_slots]; try reflexivity. rewrite IH. reflexivity. Qed.
Lemma shift_distance o ds : forall ix, distance (map (shift_dim o) ds) ix = distance ds ix.
Proof. induction ds as [|d ds IH]; intros [|i ix]; cbn [map distance]; try reflexivity. rewrite IH. reflexivity. Qed.

Lemma field_row_path u n o x : r_path (field_row u n o x) = F n :: r_path x.
Proof. unfold field_row. rewrite set_used_path. reflexivity. Qed.
Lemma field_row_kind u n o x : r_kind (field_row u n o x) = r_kind x.
Proof. unfold field_row. rewrite set_used_kind. reflexivity. Qed.
Lemma field_row_slots u n o x ix : in_slots (r_dims (field_row u n o x)) ix <-> in_slots (r_dims x) ix.
Proof. unfold field_row. rewrite set_used_slots. apply shift_slots. Qed.
Lemma field_row_position u n o x ix : position (field_row u n o x) ix = o + position x ix.
Proof.
  unfold position, field_row. rewrite set_used_off, set_used_distance. cbn [under shift r_off r_dims]. rewrite shift_distance. lia.
Qed.

(** ** Every scalar lies within its struct *)

Definition ksize (k : fkind) : Z := match k with Num _ sz => sz | F32 => 4 | Chr => 1 | Text n => n end.

Lemma rows_within t : wf_type t = true -> forall r ix, In r (rows_of t) -> in_slots (r_dims r) ix ->
  0 <= position r ix /\ position r ix + ksize (r_kind r) <= sizeof t.
Proof.
  induction t as [sg sz| | |e n IH|name fs lims IH] using ctype_rect'; intros Hw r ix Hr Hx.
  - destruct Hr as [<-|[]]. destruct ix; [|destruct Hx]. unfold position. cbn. lia.
  - destruct Hr as [<-|[]]. destruct ix; [|destruct Hx]. unfold position. cbn. lia.
  - destruct Hr as [<-|[]]. destruct ix; [|destruct Hx]. unfold position. cbn. lia.
  - destruct (is_char e) eqn:Ec.
    + destruct e; try discriminate Ec. destruct Hr as [<-|[]]. destruct ix; [|destruct Hx]. unfold position. cbn [r_off r_dims distance r_kind ksize sizeof]. lia.
    + rewrite rows_of_array in Hr by exact Ec. apply in_map_iff in Hr as (x & <- & Hr).
      cbn [each r_dims] in Hx. destruct ix as [|i ix]; [destruct Hx|]. destruct Hx as [Hi Hx]. cbn [d_slots] in Hi.
      cbn [wf_type] in Hw. apply andb_prop in Hw as [Hn Hw].
      specialize (IH Hw x ix Hr Hx). unfold position in *. cbn [each r_off r_dims distance d_dist r_kind].
      pose proof (sizeof_nonneg e Hw). assert (sizeof (TArr e n) = sizeof e * n) as -> by reflexivity. nia.
  - apply in_rows_struct in Hr as (m & o & ft & x & Hl & Hx' & ->).
    rewrite field_row_slots in Hx. rewrite field_row_kind, field_row_position.
    pose proof (wf_struct _ _ _ Hw) as [Hnd Hwf].
    assert (In (m, ft) fs) as Hf by (rewrite <- (layout_types 0 fs); apply in_map_iff; exists (m, (o, ft)); auto).
    rewrite Forall_forall in IH. specialize (IH (m, ft) Hf (Hwf _ _ Hf) x ix Hx' Hx). cbn [snd] in IH.
    pose proof (field_in_struct _ _ _ _ Hw Hl) as B. lia.
Qed.

(** ** Scalars of a part of the bytes *)

Lemma unsigned_sub o n b m : forall off, 0 <= o -> 0 <= off -> off + Z.of_nat m <= n ->
  unsigned_at (sub_bytes o n b) off m = unsigned_at b (o + off) m.
Proof.
  induction m as [|m IH]; intros off Ho H H'; [reflexivity|]. cbn [unsigned_at].
  rewrite at8_sub, IH by lia. rewrite Z.add_assoc. reflexivity.
Qed.
Lemma number_sub sg sz o n b off : 0 <= o -> 0 <= off -> 0 <= sz -> off + sz <= n ->
  number_at sg sz (sub_bytes o n b) off = number_at sg sz b (o + off).
Proof. intros. unfold number_at. rewrite unsigned_sub by lia. reflexivity. Qed.
Lemma field_bytes_sub b off n : field_bytes b off n = sub_bytes off n b.
Proof. reflexivity. Qed.
Lemma nth_sub o n b off : 0 <= o -> 0 <= off < n -> nth (Z.to_nat off) (sub_bytes o n b) x00 = nth (Z.to_nat (o + off)) b x00.
Proof.
  intros Ho H. pose proof (at8_sub b o n off Ho H) as A. unfold at8 in A.
  assert (forall x y, bval x = bval y -> x = y) as I; [|apply I, A].
  intros x y Hxy. unfold bval in Hxy. apply N2Z.inj in Hxy. apply (f_equal Byte.of_N) in Hxy. rewrite !Byte.of_to_N in Hxy. injection Hxy as ->. reflexivity.
Qed.

Lemma holds_sub k o n b off v : 0 <= o -> 0 <= off -> 0 <= ksize k -> off + ksize k <= n ->
  holds k (sub_bytes o n b) off v <-> holds k b (o + off) v.
Proof.
  intros Ho H Hk Hn. destruct k as [sg sz| | |m]; cbn [holds ksize] in *.
  - rewrite number_sub by lia. reflexivity.
  - rewrite unsigned_sub by (change (Z.of_nat 4) with 4; lia). reflexivity.
  - rewrite nth_sub by lia. reflexivity.
  - rewrite !field_bytes_sub, sub_bytes_sub by lia. reflexivity.
Qed.
Lemma prints_sub k o n b off v : 0 <= o -> 0 <= off -> 0 <= ksize k -> off + ksize k <= n ->
  prints k (sub_bytes o n b) off v <-> prints k b (o + off) v.
Proof.
  intros Ho H Hk Hn. destruct k as [sg sz| | |m]; cbn [prints ksize] in *.
  - rewrite number_sub by lia. reflexivity.
  - rewrite unsigned_sub by (change (Z.of_nat 4) with 4; lia). reflexivity.
  - rewrite nth_sub by lia. reflexivity.
  - rewrite !field_bytes_sub, sub_bytes_sub by lia. reflexivity.
Qed.

Lemma ksize_nonneg t : wf_type t = true -> forall r, In r (rows_of t) -> 0 <= ksize (r_kind r).
Proof.
  induction t as [sg sz| | |e n IH|name fs lims IH] using ctype_rect'; intros Hw r Hr.
  - destruct Hr as [<-|[]]. cbn [r_kind ksize]. cbn [wf_type] in Hw. lia.
  - destruct Hr as [<-|[]]. cbn. lia.
  - destruct Hr as [<-|[]]. cbn. lia.
  - destruct (is_char e) eqn:Ec.
    + destruct e; try discriminate Ec. destruct Hr as [<-|[]]. cbn [r_kind ksize]. cbn [wf_type] in Hw. lia.
    + rewrite rows_of_array in Hr by exact Ec. apply in_map_iff in Hr as (x & <- & Hr). cbn [wf_type] in Hw. apply andb_prop in Hw as [_ Hw]. apply (IH Hw x Hr).
  - apply in_rows_struct in Hr as (m & o & ft & x & Hl & Hx' & ->). rewrite field_row_kind.
    pose proof (wf_struct _ _ _ Hw) as [Hnd Hwf].
    assert (In (m, ft) fs) as Hf by (rewrite <- (layout_types 0 fs); apply in_map_iff; exists (m, (o, ft)); auto).
    rewrite Forall_forall in IH. apply (IH (m, ft) Hf (Hwf _ _ Hf) x Hx').
Qed.

Lemma le_unsigned b m : forall off, 0 <= off -> le_uint (sub_bytes off (Z.of_nat m) b) = unsigned_at b off m.
Proof.
  induction m as [|m IH]; intros off H; [apply le_uint_sub_0|].
  replace (Z.of_nat (S m)) with (1 + Z.of_nat m) by lia. rewrite sub_bytes_step, IH by lia. reflexivity.
Qed.
Lemma whole b n : zlen b = n -> sub_bytes 0 n b = b.
Proof. intros H. unfold sub_bytes. rewrite zdrop_0, ztake_all by lia. reflexivity. Qed.
Lemma le_number sg sz b : 0 <= sz -> zlen b = sz -> int_value sg sz b = number_at sg sz b 0.
Proof.
  intros Hs H. unfold int_value, number_at. rewrite <- le_unsigned by lia. rewrite Z2Nat.id, whole by lia.
  destruct sg; [|reflexivity]. unfold to_signed. cbn [andb]. destruct (Z.ltb_spec (le_uint b) (2 ^ (8 * sz - 1))), (Z.leb_spec (2 ^ (8 * sz - 1)) (le_uint b)); reflexivity || lia.
Qed.

(** ** Attributes *)

Lemma chunks_nth sz : 0 <= sz -> forall k b i, (i < k)%nat -> zlen b = sz * Z.of_nat k ->
  nth_error (chunks k sz b) i = Some (sub_bytes (Z.of_nat i * sz) sz b).
Proof.
  intros Hs. induction k as [|k IH]; intros b i Hi Hb; [lia|]. cbn [chunks]. destruct i as [|i].
  - cbn [nth_error]. unfold sub_bytes. change (Z.of_nat 0 * sz) with 0. rewrite zdrop_0 by lia. reflexivity.
  - cbn [nth_error]. rewrite IH; [|lia|rewrite zlen_zdrop; nia]. unfold sub_bytes. rewrite zdrop_zdrop by nia.
    f_equal. f_equal. f_equal. lia.
Qed.

Lemma scalar_row (y : pyval) k b p ix v : (forall y, holds k b 0 y <-> y = v) -> py_scalar v ->
  py_path v p ix = Some y <->
  exists r, In r [R [] 0 k []] /\ r_path r = p /\ in_slots (r_dims r) ix /\ holds (r_kind r) b (position r ix) y.
Proof.
  intros H S. split.
  - intros P. destruct p as [|[n|] p].
    + destruct ix; [|discriminate P]. injection P as <-. exists (R [] 0 k []). split; [left; reflexivity|]. split; [reflexivity|].
      split; [exact I|]. cbn. apply H. reflexivity.
    + destruct v; try discriminate P. destruct S.
    + destruct ix as [|i ix]; [discriminate P|]. destruct v; try discriminate P. destruct S.
  - intros (r & [<-|[]] & <- & Hx & Hh). cbn [r_path r_dims r_kind] in *. destruct ix; [|destruct Hx]. cbn in Hh. apply H in Hh as ->. reflexivity.
Qed.

Lemma c_string_unique s s' b : c_string s b -> c_string s' b -> s = s'.
Proof. intros H H'. apply c_string_until_nul in H, H'. congruence. Qed.

Theorem attributes t : wf_type t = true -> forall b, zlen b = sizeof t -> forall p ix y, py_scalar y ->
  (py_path (fetch t b) p ix = Some y <->
   exists r, In r (rows_of t) /\ r_path r = p /\ in_slots (r_dims r) ix /\ holds (r_kind r) b (position r ix) y).
Proof.
  induction t as [sg sz| | |e n IH|name fs lims IH] using ctype_rect'; intros Hw b Hb p ix y Hy.
  - apply scalar_row; [|exact I]. intros y'. cbn [holds fetch]. cbn [wf_type sizeof] in *. rewrite le_number by lia. reflexivity.
  - apply scalar_row; [|exact I]. intros y'. cbn [holds fetch]. cbn [sizeof] in Hb. rewrite <- le_unsigned by lia. change (Z.of_nat 4) with 4. rewrite whole by exact Hb. reflexivity.
  - apply scalar_row; [|exact I]. intros y'. cbn [holds fetch]. cbn [sizeof] in Hb.
    destruct b as [|c [|c' b]]; unfold zlen in Hb; cbn [List.length] in Hb; try lia. reflexivity.
  - destruct (is_char e) eqn:Ec.
    + destruct e; try discriminate Ec. apply scalar_row; [|exact I]. intros y'. cbn [holds fetch]. cbn [sizeof] in Hb.
      rewrite field_bytes_sub, whole by lia. split.
      * intros (s & -> & Hs). rewrite (c_string_until_nul _ _ Hs). reflexivity.
      * intros ->. eexists. split; [reflexivity|apply until_nul_c_string].
    + assert (fetch (TArr e n) b = PObj (mkObj (TArr e n) b)) as -> by (destruct e; try discriminate Ec; reflexivity).
      rewrite rows_of_array by exact Ec. cbn [wf_type] in Hw. apply andb_prop in Hw as [Hn Hw]. cbn [sizeof] in Hb.
      pose proof (sizeof_nonneg e Hw) as Hs.
      assert (forall i, 0 <= i < n -> nth_error (array_items (mkObj (TArr e n) b)) (Z.to_nat i) = Some (fetch e (sub_bytes (i * sizeof e) (sizeof e) b))) as Hit.
      { intros i Hi. unfold array_items. cbn [o_type o_buf]. rewrite nth_error_map, chunks_nth by (try rewrite Z2Nat.id; lia). cbn [option_map]. rewrite Z2Nat.id by lia. reflexivity. }
      assert (forall i, n <= i -> nth_error (array_items (mkObj (TArr e n) b)) (Z.to_nat i) = None) as Hout.
      { intros i Hi. apply nth_error_None. unfold array_items. cbn [o_type o_buf]. rewrite map_length.
        pose proof (zlen_chunks (Z.to_nat n) (sizeof e) b) as L. unfold zlen in L. lia. }
      split.
      * intros P. destruct p as [|[m|] p].
        -- destruct ix; [|discriminate P]. injection P as <-. destruct Hy.
        -- cbn [py_path] in P. unfold getattr in P. cbn [o_type] in P. discriminate P.
        -- destruct ix as [|i ix]; [discriminate P|]. cbn [py_path] in P. destruct (Z.leb_spec 0 i) as [Hi|]; [|discriminate P].
           destruct (Z_lt_ge_dec i n) as [Hi'|Hi']; [|rewrite Hout in P by lia; discriminate P].
           rewrite Hit in P by lia. apply IH in P; [|exact Hw|apply zlen_sub_bytes; nia|exact Hy].
           destruct P as (r & Hr & <- & Hx & Hh). exists (each (D n (sizeof e) None) r). split; [apply in_map, Hr|]. split; [reflexivity|].
           split; [cbn [each r_dims in_slots d_slots]; split; [lia|exact Hx]|]. cbn [each r_kind]. unfold position in *. cbn [each r_off r_dims distance d_dist].
           pose proof (rows_within e Hw r ix Hr Hx) as Bd. pose proof (ksize_nonneg e Hw r Hr). unfold position in Bd.
           apply holds_sub in Hh; [|nia|lia|lia|lia]. replace (r_off r + (i * sizeof e + distance (r_dims r) ix)) with (i * sizeof e + (r_off r + distance (r_dims r) ix)) by lia. exact Hh.
      * intros (r' & Hr & <- & Hx & Hh). apply in_map_iff in Hr as (r & <- & Hr). cbn [each r_dims] in Hx. destruct ix as [|i ix]; [destruct Hx|].
        destruct Hx as [Hi Hx]. cbn [d_slots] in Hi. cbn [each r_path py_path]. replace (0 <=? i) with true by lia. rewrite Hit by lia.
        apply IH; [exact Hw|apply zlen_sub_bytes; nia|exact Hy|]. exists r. split; [exact Hr|]. split; [reflexivity|]. split; [exact Hx|].
        pose proof (rows_within e Hw r ix Hr Hx) as Bd. pose proof (ksize_nonneg e Hw r Hr).
        apply holds_sub; [nia|lia|lia|lia|]. unfold position in *. cbn [each r_off r_dims distance d_dist r_kind] in Hh.
        replace (i * sizeof e + (r_off r + distance (r_dims r) ix)) with (r_off r + (i * sizeof e + distance (r_dims r) ix)) by lia. exact Hh.
  - pose proof (wf_struct _ _ _ Hw) as [Hnd Hwf]. rewrite Forall_forall in IH. cbn [fetch]. split.
    + intros P. destruct p as [|[m|] p].
      * destruct ix; [|discriminate P]. injection P as <-. destruct Hy.
      * cbn [py_path] in P. unfold getattr in P. cbn [o_type o_buf] in P.
        destruct (field_at (TStruct name fs lims) m) as [[o ft]|] eqn:Ef; [|discriminate P].
        pose proof (field_at_layout _ _ _ _ Ef) as Hl. pose proof (field_in_struct _ _ _ _ Hw Hl) as B.
        assert (In (m, ft) fs) as Hf by (rewrite <- (layout_types 0 fs); apply in_map_iff; exists (m, (o, ft)); auto).
        pose proof (sizeof_nonneg ft (Hwf _ _ Hf)).
        apply (IH (m, ft) Hf) in P; cbn [snd] in *; [|eapply Hwf, Hf|apply zlen_sub_bytes; lia|exact Hy].
        destruct P as (r & Hr & <- & Hx & Hh). exists (field_row (field_used (layout_from 0 fs) lims m ft) m o r).
        split; [apply in_rows_struct; exists m, o, ft, r; auto|]. split; [apply field_row_path|]. split; [apply field_row_slots, Hx|].
        rewrite field_row_kind, field_row_position.
        pose proof (rows_within ft (Hwf _ _ Hf) r ix Hr Hx) as Bd. pose proof (ksize_nonneg ft (Hwf _ _ Hf) r Hr).
        apply holds_sub in Hh; [exact Hh|lia|lia|lia|lia].
      * destruct ix as [|i ix]; [discriminate P|]. cbn [py_path] in P. destruct (0 <=? i); [|discriminate P].
        unfold array_items in P. cbn [o_type] in P. destruct (Z.to_nat i); discriminate P.
    + intros (r' & Hr & <- & Hx & Hh). apply in_rows_struct in Hr as (m & o & ft & r & Hl & Hr & ->).
      rewrite field_row_slots in Hx. rewrite field_row_kind, field_row_position in Hh. rewrite field_row_path. cbn [py_path].
      pose proof (field_in_struct _ _ _ _ Hw Hl) as B.
      assert (In (m, ft) fs) as Hf by (rewrite <- (layout_types 0 fs); apply in_map_iff; exists (m, (o, ft)); auto).
      pose proof (sizeof_nonneg ft (Hwf _ _ Hf)).
      rewrite (getattr_field _ b m o ft (field_at_in (TStruct name fs lims) m o ft Hnd Hl)).
      pose proof (rows_within ft (Hwf _ _ Hf) r ix Hr Hx) as Bd. pose proof (ksize_nonneg ft (Hwf _ _ Hf) r Hr).
      apply (IH (m, ft) Hf); cbn [snd]; [eapply Hwf, Hf|apply zlen_sub_bytes; lia|exact Hy|].
      exists r. split; [exact Hr|]. split; [reflexivity|]. split; [exact Hx|]. apply holds_sub; [lia|lia|lia|lia|exact Hh].
Qed.

(** ** Dictionaries *)

Fixpoint uses_in (sz base : Z) (ds : list dim) : Prop :=
  match ds with
  | [] => True
  | d :: ds =>
      match d_used d with Some (c, k) => 0 <= ksize k /\ 0 <= base + c /\ base + c + ksize k <= sz | None => True end /\
      forall i, 0 <= i < d_slots d -> uses_in sz (base + i * d_dist d) ds
  end.

Lemma uses_shift sz o ds : forall base, uses_in sz base (map (shift_dim o) ds) <-> uses_in sz (base + o) ds.
Proof.
  induction ds as [|d ds IH]; intros base; [reflexivity|]. cbn [map uses_in shift_dim d_used d_slots d_dist].
  assert ((forall i, 0 <= i < d_slots d -> uses_in sz (base + i * d_dist d) (map (shift_dim o) ds)) <->
          (forall i, 0 <= i < d_slots d -> uses_in sz (base + o + i * d_dist d) ds)) as ->.
  { split; intros H i Hi; specialize (H i Hi); rewrite IH in *; replace (base + i * d_dist d + o) with (base + o + i * d_dist d) in * by lia; exact H. }
  destruct (d_used d) as [[c k]|]; [|reflexivity]. rewrite Z.add_assoc. reflexivity.
Qed.
Lemma uses_mono sz SZ o ds : 0 <= o -> o + sz <= SZ -> forall base, uses_in sz base ds -> uses_in SZ (o + base) ds.
Proof.
  intros Ho HS. induction ds as [|d ds IH]; intros base H; [exact I|]. destruct H as [H1 H2]. split.
  - destruct (d_used d) as [[c k]|]; [lia|exact I].
  - intros i Hi. specialize (H2 i Hi). apply IH in H2. rewrite Z.add_assoc in H2. exact H2.
Qed.

Lemma layout_in_nodup fs n o ft : NoDup (map fst fs) -> In (n, (o, ft)) (layout_from 0 fs) -> assoc n (layout_from 0 fs) = Some (o, ft).
Proof. intros Hn H. apply assoc_in; [rewrite layout_names; exact Hn|exact H]. Qed.

Lemma rows_uses t : wf_type t = true -> forall r, In r (rows_of t) -> uses_in (sizeof t) 0 (r_dims r).
Proof.
  induction t as [sg sz| | |e n IH|name fs lims IH] using ctype_rect'; intros Hw r Hr.
  - destruct Hr as [<-|[]]. exact I.
  - destruct Hr as [<-|[]]. exact I.
  - destruct Hr as [<-|[]]. exact I.
  - destruct (is_char e) eqn:Ec.
    + destruct e; try discriminate Ec. destruct Hr as [<-|[]]. exact I.
    + rewrite rows_of_array in Hr by exact Ec. apply in_map_iff in Hr as (x & <- & Hr).
      cbn [wf_type] in Hw. apply andb_prop in Hw as [Hn Hw]. pose proof (sizeof_nonneg e Hw).
      cbn [each r_dims uses_in d_used d_slots d_dist]. split; [exact I|]. intros i Hi.
      assert (sizeof (TArr e n) = sizeof e * n) as -> by reflexivity.
      replace (0 + i * sizeof e) with (i * sizeof e + 0) by lia. apply (uses_mono (sizeof e)); [nia|nia|]. apply IH; assumption.
  - apply in_rows_struct in Hr as (m & o & ft & x & Hl & Hx & ->).
    pose proof (wf_struct _ _ _ Hw) as [Hnd Hwf].
    assert (In (m, ft) fs) as Hf by (rewrite <- (layout_types 0 fs); apply in_map_iff; exists (m, (o, ft)); auto).
    pose proof (field_in_struct _ _ _ _ Hw Hl) as B. pose proof (sizeof_nonneg ft (Hwf _ _ Hf)).
    rewrite Forall_forall in IH. pose proof (IH (m, ft) Hf (Hwf _ _ Hf) x Hx) as U. cbn [snd] in U.
    assert (uses_in (sizeof (TStruct name fs lims)) 0 (map (shift_dim o) (r_dims x))) as U'.
    { apply uses_shift. rewrite Z.add_comm. apply (uses_mono (sizeof ft)); [lia|lia|exact U]. }
    unfold field_row, set_used. cbn [under shift r_dims].
    destruct (field_used (layout_from 0 fs) lims m ft) as [[c k]|] eqn:Eu; [|exact U'].
    destruct (map (shift_dim o) (r_dims x)) as [|d ds] eqn:Ed; [cbn [under shift r_dims]; rewrite Ed; exact I|].
    cbn [r_dims uses_in d_used d_slots d_dist] in *. split; [|apply U'].
    assert (used_of (layout_from 0 fs) lims m = Some (c, k)) as Eu' by (destruct ft as [| | |e ?|]; try discriminate Eu; destruct e; try discriminate Eu; exact Eu).
    unfold used_of in Eu'. destruct (assoc m lims) as [lim|]; [|discriminate Eu'].
    destruct (assoc lim (layout_from 0 fs)) as [[c' ct]|] eqn:El; [|discriminate Eu']. destruct ct as [sg sz| | | |]; try discriminate Eu'.
    injection Eu' as -> <-. apply assoc_some_in in El. pose proof (field_in_struct _ _ _ _ Hw El) as Bc.
    assert (In (lim, TInt sg sz) fs) as Hf' by (rewrite <- (layout_types 0 fs); apply in_map_iff; exists (lim, (c, TInt sg sz)); auto).
    pose proof (Hwf _ _ Hf') as Ws. cbn [wf_type sizeof ksize] in *. lia.
Qed.

Lemma listed_slots b base d i : 0 <= i < slots_listed b base d -> 0 <= i < d_slots d.
Proof.
  unfold slots_listed. destruct (d_used d) as [[c [sg sz| | |]]|]; try tauto. unfold listed. destruct (0 <=? _) eqn:E; lia.
Qed.
Lemma in_listed_slots b ds : forall base ix, in_listed b base ds ix -> in_slots ds ix.
Proof.
  induction ds as [|d ds IH]; intros base [|i ix]; cbn [in_listed in_slots]; try tauto. intros [Hi H].
  split; [eapply listed_slots, Hi|eapply IH, H].
Qed.

Lemma in_listed_shift b o ds : forall base ix, in_listed b base (map (shift_dim o) ds) ix <-> in_listed b (base + o) ds ix.
Proof.
  induction ds as [|d ds IH]; intros base [|i ix]; cbn [map in_listed]; try reflexivity.
  rewrite IH. replace (base + i * d_dist (shift_dim o d) + o) with (base + o + i * d_dist d) by (cbn [shift_dim d_dist]; lia).
  assert (slots_listed b base (shift_dim o d) = slots_listed b (base + o) d) as ->; [|reflexivity].
  unfold slots_listed. cbn [shift_dim d_used d_slots]. destruct (d_used d) as [[c k]|]; [|reflexivity]. rewrite Z.add_assoc. reflexivity.
Qed.
Lemma in_listed_sub b o n ds : 0 <= o -> forall base ix, uses_in n base ds ->
  in_listed (sub_bytes o n b) base ds ix <-> in_listed b (o + base) ds ix.
Proof.
  intros Ho. induction ds as [|d ds IH]; intros base [|i ix] U; cbn [in_listed]; try reflexivity. destruct U as [U1 U2].
  assert (slots_listed (sub_bytes o n b) base d = slots_listed b (o + base) d) as ->.
  { unfold slots_listed. destruct (d_used d) as [[c [sg sz| | |]]|]; try reflexivity. cbn [ksize] in U1. rewrite number_sub by lia. rewrite Z.add_assoc. reflexivity. }
  split; intros [Hi H]; (split; [exact Hi|]); (specialize (IH (base + i * d_dist d) ix (U2 i (listed_slots _ _ _ _ Hi)))); rewrite Z.add_assoc in IH; apply IH, H.
Qed.

(** Nested structs are not named "future". *)
Fixpoint fut_ok (t : ctype) : bool :=
  match t with
  | TArr e _ => fut_ok e
  | TStruct _ fs _ => forallb (fun f => negb (is_struct (snd f) && str_contains "future" (fst f)) && fut_ok (snd f)) fs
  | _ => true
  end.

Definition field_json (lims : list (string * string)) (vs : list (string * cval)) (n : string) (ft : ctype) (w : cval) : json :=
  match ft, w with
  | TArr e cap, VArr l =>
      JList (map (dict_of e) (match count_for lims vs n with Some k => ztake (listed k cap) l | None => l end))
  | _, _ => dict_of ft w
  end.

Lemma assoc_dict_fields (lims : list (string * string)) (vs0 : list (string * cval)) (P : Z -> ctype -> cval -> Prop) ls vs n j :
  Forall2 (fun (l : string * (Z * ctype)) (nv : string * cval) => fst l = fst nv /\ P (fst (snd l)) (snd (snd l)) (snd nv)) ls vs -> NoDup (map fst ls) ->
  assoc n (dict_fields lims vs0 (map (fun x => (fst x, snd (snd x))) ls) vs) = Some j <->
  exists o ft w, In (n, (o, ft)) ls /\ P o ft w /\ assoc n vs = Some w /\ placeholder (n, ft) = false /\ j = field_json lims vs0 n ft w.
Proof.
  intros H. induction H as [|[m [o ft]] [m' w] ls vs [E Hp] H IH]; intros Nd; cbn [map fst snd dict_fields] in *.
  - split; [discriminate|]. intros (o & ft & w & [] & _).
  - subst m'. inversion Nd as [|? ? Nin Nd']; subst. specialize (IH Nd').
    assert (forall o' ft', In (m, (o', ft')) ls -> False) as Hno by (intros o' ft' Hin; apply Nin; apply in_map_iff; exists (m, (o', ft')); auto).
    destruct (placeholder (m, ft)) eqn:Pl; cbn [app].
    + rewrite IH. split.
      * intros (o' & ft' & w' & Hin & A & B & C & D). exists o', ft', w'. split; [right; exact Hin|]. split; [exact A|]. split; [|auto].
        cbn [assoc]. destruct (String.eqb_spec n m) as [->|]; [destruct (Hno _ _ Hin)|exact B].
      * intros (o' & ft' & w' & [Hin|Hin] & A & B & C & D).
        -- injection Hin as -> -> ->. rewrite Pl in C. discriminate C.
        -- cbn [assoc] in B. destruct (String.eqb_spec n m) as [->|]; [destruct (Hno _ _ Hin)|]. exists o', ft', w'. auto.
    + cbn [assoc]. destruct (String.eqb_spec n m) as [->|Hne].
      * split.
        -- intros Ej. injection Ej as <-. exists o, ft, w. split; [left; reflexivity|]. auto.
        -- intros (o' & ft' & w' & [Hin|Hin] & A & B & C & D); [|destruct (Hno _ _ Hin)].
           injection Hin as <- <-. injection B as <-. subst j. reflexivity.
      * rewrite IH. split.
        -- intros (o' & ft' & w' & Hin & A & B & C & D). exists o', ft', w'. split; [right; exact Hin|]. auto.
        -- intros (o' & ft' & w' & [Hin|Hin] & A & B & C & D); [injection Hin as -> _ _; congruence|]. exists o', ft', w'. auto.
Qed.

Lemma reserved_field u n o x : reserved (field_row u n o x) <-> has_future n \/ reserved x.
Proof.
  unfold reserved. rewrite field_row_path. split.
  - intros (m & [Hm|Hm] & Hf); [injection Hm as ->; auto|]. right. exists m. auto.
  - intros [H|(m & Hm & H)]; [exists n|exists m]; (split; [|assumption]); [left; reflexivity|right; exact Hm].
Qed.
Lemma reserved_each d x : reserved (each d x) <-> reserved x.
Proof.
  unfold reserved. cbn [each r_path]. split; intros (m & Hm & H); exists m; (split; [|exact H]).
  - destruct Hm as [Hm|Hm]; [discriminate Hm|exact Hm].
  - right. exact Hm.
Qed.

Lemma count_used name fs lims vs b n :
  wf_type (TStruct name fs lims) = true -> dictable (TStruct name fs lims) = true -> rep (TStruct name fs lims) (VStruct vs) b ->
  match count_for lims vs n, used_of (layout_from 0 fs) lims n with
  | Some k, Some (c, Num sg sz) => number_at sg sz b c = k
  | None, None => True
  | _, _ => False
  end.
Proof.
  intros Hw Hd Hr. unfold count_for, used_of. destruct (assoc n lims) as [lim|] eqn:El; [|exact I].
  cbn [dictable] in Hd. apply andb_prop in Hd as [_ Hd]. rewrite forallb_forall in Hd.
  specialize (Hd _ (assoc_some_in _ _ _ El)). cbn [snd] in Hd.
  destruct (assoc lim fs) as [ft|] eqn:Ef; [|discriminate Hd]. destruct ft as [sg sz| | | |]; try discriminate Hd.
  pose proof (wf_struct _ _ _ Hw) as [Hnd Hwf]. pose proof (rep_size _ _ _ Hw Hr) as Lb.
  apply rep_struct in Hr. destruct Hr as (vs' & E & Hf). injection E as <-.
  destruct (assoc_types_rep _ _ _ _ _ _ _ _ Hf Hnd Ef) as [k Hk]. rewrite Hk.
  pose proof (rep_fields_at _ fs Hwf vs [] b Hf) as Hat. cbn [app] in Hat. change (zlen (@nil byte)) with 0 in Hat.
  destruct (Forall2_in_r _ _ _ _ Hat (assoc_some_in _ _ _ Hk)) as ([n' [o ft]] & Hl & En & Hrep). cbn [fst snd] in En, Hrep. subst n'.
  assert (In (lim, ft) fs) as Hf' by (rewrite <- (layout_types 0 fs); apply in_map_iff; exists (lim, (o, ft)); auto).
  rewrite (assoc_in _ _ _ Hnd Hf') in Ef. injection Ef as ->.
  rewrite (layout_in_nodup _ _ _ _ Hnd Hl). pose proof (field_in_struct _ _ _ _ Hw Hl) as B. pose proof (Hwf _ _ Hf') as Ws.
  destruct Hrep as (z & Ez & R1 & R2 & R3). injection Ez as <-. pose proof (rep_int_value sg sz k _ Ws R1 R2 R3) as V.
  cbn [wf_type] in Ws. rewrite le_number in V by lia. cbn [sizeof] in V, B. rewrite number_sub in V by lia. rewrite Z.add_0_r in V. exact V.
Qed.

Lemma json_scalar_row (x : json) k b p ix v : (forall x, prints k b 0 x <-> x = v) -> json_scalar v ->
  json_path v p ix = Some x <->
  exists r, In r [R [] 0 k []] /\ r_path r = p /\ ~ reserved r /\ in_listed b 0 (r_dims r) ix /\ prints (r_kind r) b (position r ix) x.
Proof.
  intros H S. split.
  - intros P. destruct p as [|[n|] p].
    + destruct ix; [|discriminate P]. injection P as <-. exists (R [] 0 k []). split; [left; reflexivity|]. split; [reflexivity|].
      split; [intros (m & [] & _)|]. split; [exact I|]. cbn. apply H. reflexivity.
    + destruct v; try discriminate P. destruct S.
    + destruct ix as [|i ix]; [discriminate P|]. destruct v; try discriminate P. destruct S.
  - intros (r & [<-|[]] & <- & _ & Hx & Hh). cbn [r_path r_dims r_kind] in *. destruct ix; [|destruct Hx]. cbn in Hh. apply H in Hh as ->. reflexivity.
Qed.

Lemma nth_take {A} n (l : list A) i : 0 <= i -> nth_error (ztake n l) (Z.to_nat i) = if i <? n then nth_error l (Z.to_nat i) else None.
Proof.
  intros Hi. unfold ztake. destruct (Z.ltb_spec i n) as [H|H].
  - rewrite <- (firstn_skipn (Z.to_nat n) l) at 2. destruct (Nat.lt_ge_cases (Z.to_nat i) (List.length (firstn (Z.to_nat n) l))) as [L|L].
    + rewrite nth_error_app1 by exact L. reflexivity.
    + rewrite (proj2 (nth_error_None _ _) L). rewrite firstn_length in L. rewrite (firstn_skipn (Z.to_nat n) l).
      symmetry. apply nth_error_None. lia.
  - apply nth_error_None. rewrite firstn_length. lia.
Qed.

Definition says (t : ctype) (v : cval) (b : list byte) : Prop := forall p ix x, json_scalar x ->
  (json_path (dict_of t v) p ix = Some x <->
   exists r, In r (rows_of t) /\ r_path r = p /\ ~ reserved r /\ in_listed b 0 (r_dims r) ix /\ prints (r_kind r) b (position r ix) x).

Definition array_like (t : ctype) : bool := match t with TArr TChar _ => false | TArr _ _ => true | _ => false end.

Lemma elements e n vs b : is_char e = false -> array_like e = false -> wf_type (TArr e n) = true ->
  (forall v b, rep e v b -> says e v b) -> rep (TArr e n) (VArr vs) b ->
  forall (o : Z) (B : list byte) u m p ix x, 0 <= o -> b = sub_bytes o (sizeof (TArr e n)) B -> o + sizeof (TArr e n) <= zlen B -> json_scalar x ->
  slots_listed B 0 (D n (sizeof e) u) = m ->
  (json_path (JList (map (dict_of e) (ztake m vs))) p ix = Some x <->
   exists y, In y (rows_of e) /\ E :: r_path y = p /\ ~ reserved y /\
     match ix with i :: ix => 0 <= i < m /\ in_listed B (i * sizeof e) (map (shift_dim o) (r_dims y)) ix /\
                              prints (r_kind y) B (o + (i * sizeof e + position y ix)) x
     | [] => False end).
Proof.
  intros Ec Ea Hw IH Hr o B u m p ix x Ho Eb HB Hx Hm. pose proof (rep_size _ _ _ Hw Hr) as Lb.
  apply rep_array in Hr; [|exact Ec]. destruct Hr as (vs' & bs & Ev & Hn & Ebs & H2). injection Ev as <-.
  cbn [wf_type] in Hw. apply andb_prop in Hw as [Hn0 Hw]. pose proof (sizeof_nonneg e Hw) as Hs.
  assert (Forall (fun c => zlen c = sizeof e) bs) as Hsz by (clear -H2 Hw; induction H2; constructor; [eapply rep_size; eassumption|assumption]).
  assert (List.length bs = Z.to_nat n) as Lbs by (apply Forall2_zlen in H2; unfold zlen in *; lia).
  assert (sizeof (TArr e n) = sizeof e * n) as Sa by reflexivity. rewrite Sa in *.
  assert (forall i, 0 <= i < n -> exists v, nth_error vs (Z.to_nat i) = Some v /\ rep e v (sub_bytes (o + i * sizeof e) (sizeof e) B)) as Hel.
  { intros i Hi. pose proof (chunks_concat bs (sizeof e) Hsz) as Hc. rewrite <- Ebs, Lbs in Hc.
    pose proof (chunks_nth (sizeof e) Hs (Z.to_nat n) b (Z.to_nat i) ltac:(lia) ltac:(lia)) as Hni. rewrite Hc in Hni.
    destruct (nth_error vs (Z.to_nat i)) as [v|] eqn:Ev.
    - exists v. split; [reflexivity|].
      assert (exists c, nth_error bs (Z.to_nat i) = Some c /\ rep e v c) as (c & Ec' & Rc).
      { clear -H2 Ev. revert Ev. generalize (Z.to_nat i) as k. induction H2 as [|a c l m H _ IH]; intros [|k] Ev; try discriminate Ev; cbn [nth_error] in *; [injection Ev as ->; eauto|auto]. }
      rewrite Hni in Ec'. injection Ec' as <-. rewrite Z2Nat.id in Rc by lia. rewrite Eb, sub_bytes_sub in Rc by nia. exact Rc.
    - apply nth_error_None in Ev. unfold zlen in Hn. lia. }
  assert (forall i, 0 <= i < m -> 0 <= i < n) as Hmn by (intros i Hi; subst m; apply (listed_slots B 0 (D n (sizeof e) u) i Hi)).
  split.
  - intros P. destruct p as [|[q|] p].
    + destruct ix; [|discriminate P]. injection P as <-. destruct Hx.
    + discriminate P.
    + destruct ix as [|i ix]; [discriminate P|]. cbn [json_path] in P. destruct (Z.leb_spec 0 i) as [Hi|]; [|discriminate P].
      rewrite nth_error_map, nth_take in P by exact Hi. destruct (Z.ltb_spec i m) as [Hi'|]; [|discriminate P].
      destruct (Hel i (Hmn i (conj Hi Hi'))) as (v & Ev & Rv). rewrite Ev in P. cbn [option_map] in P.
      pose proof (Hmn i (conj Hi Hi')) as Hin.
      apply (IH v _ Rv) in P; [|exact Hx]. destruct P as (r & Hr & <- & Hres & Hl & Hp). exists r. split; [exact Hr|]. split; [reflexivity|]. split; [exact Hres|].
      split; [lia|]. pose proof (in_listed_slots _ _ _ _ Hl) as Hsl. pose proof (rows_within e Hw r ix Hr Hsl) as Bd. pose proof (ksize_nonneg e Hw r Hr).
      split.
      * apply in_listed_shift. apply in_listed_sub in Hl; [|nia|apply rows_uses; assumption]. rewrite Z.add_0_r, Z.add_comm in Hl. exact Hl.
      * apply prints_sub in Hp; [|nia|lia|lia|lia]. rewrite <- Z.add_assoc in Hp. exact Hp.
  - intros (r & Hr & <- & Hres & H). destruct ix as [|i ix]; [destruct H|]. destruct H as (Hi & Hl & Hp).
    pose proof (Hmn i Hi) as Hin. cbn [json_path]. replace (0 <=? i) with true by lia. rewrite nth_error_map, nth_take by lia. replace (i <? m) with true by lia.
    destruct (Hel i Hin) as (v & Ev & Rv). rewrite Ev. cbn [option_map]. apply (IH v _ Rv); [exact Hx|].
    exists r. split; [exact Hr|]. split; [reflexivity|]. split; [exact Hres|]. apply in_listed_shift in Hl.
    assert (in_listed (sub_bytes (o + i * sizeof e) (sizeof e) B) 0 (r_dims r) ix) as Hl'.
    { apply in_listed_sub; [nia|apply rows_uses; assumption|]. rewrite Z.add_0_r, Z.add_comm. exact Hl. }
    split; [exact Hl'|]. pose proof (in_listed_slots _ _ _ _ Hl') as Hsl. pose proof (rows_within e Hw r ix Hr Hsl) as Bd. pose proof (ksize_nonneg e Hw r Hr).
    apply prints_sub; [nia|lia|lia|lia|]. rewrite <- Z.add_assoc. exact Hp.
Qed.

Theorem dictionary t : wf_type t = true -> dictable t = true -> fut_ok t = true -> array_like t = false ->
  forall v b, rep t v b -> says t v b.
Proof.
  intros Hw Hd Hft Ha.
  assert ((array_like t = false -> forall v b, rep t v b -> says t v b) /\
          match t with TArr e _ => array_like e = false -> forall v b, rep e v b -> says e v b | _ => True end) as [H _]; [|apply H, Ha].
  clear Ha. revert Hw Hd Hft.
  induction t as [sg sz| | |e n IH|name fs lims IH] using ctype_rect'; intros Hw Hd Hft.
  - split; [|exact I]. intros _ v b Hr p ix x Hx. pose proof (rep_size _ _ _ Hw Hr) as Lb. destruct Hr as (z & -> & R1 & R2 & R3).
    pose proof (rep_int_value sg sz z b Hw R1 R2 R3) as V. cbn [wf_type sizeof] in *. rewrite le_number in V by lia.
    apply json_scalar_row; [|exact I]. intros y. cbn [prints dict_of]. rewrite V. reflexivity.
  - split; [|exact I]. intros _ v b Hr p ix x Hx. destruct Hr as (y & -> & R1 & R2).
    apply json_scalar_row; [|exact I]. intros z. cbn [prints dict_of]. rewrite <- le_unsigned by lia. change (Z.of_nat 4) with 4. rewrite le_uint_sub_4, R2 by lia. reflexivity.
  - split; [|exact I]. intros _ v b Hr p ix x Hx. destruct Hr as (c & -> & ->).
    apply json_scalar_row; [|exact I]. intros y. cbn [prints dict_of]. change (nth (Z.to_nat 0) [c] x00) with c. split.
    + intros (t & -> & Hl). apply lenient_is_decode in Hl as ->. reflexivity.
    + intros ->. eexists. split; [reflexivity|apply decode_is_lenient].
  - cbn [wf_type dictable fut_ok] in *. apply andb_prop in Hw as [Hn Hw].
    assert (dictable e = true) as Hde by (destruct e; try discriminate Hd; exact Hd).
    split.
    + intros Ha v b Hr p ix x Hx. destruct (is_char e) eqn:Ec; [|destruct e; discriminate].
      destruct e; try discriminate Ec. pose proof Hr as Hr'. destruct Hr' as (s & -> & R1 & R2).
      apply json_scalar_row; [|exact I]. intros y. cbn [prints dict_of]. rewrite field_bytes_sub, whole by lia. split.
      * intros (s' & t & -> & Hs & Hl). rewrite <- (c_string_unique _ _ _ R2 Hs) in Hl. apply lenient_is_decode in Hl as ->. reflexivity.
      * intros ->. eexists _, _. split; [reflexivity|]. split; [exact R2|apply decode_is_lenient].
    + apply (IH Hw Hde Hft).
  - split; [|exact I]. intros _ v b Hr p ix x Hx.
    pose proof (rep_size _ _ _ Hw Hr) as Lb. pose proof (wf_struct _ _ _ Hw) as [Hnd Hwf]. rewrite Forall_forall in IH.
    pose proof Hr as Hr'. apply rep_struct in Hr'. destruct Hr' as (vs & -> & Hf). rewrite dict_of_struct.
    pose proof (rep_fields_at _ fs Hwf vs [] b Hf) as Hat. cbn [app] in Hat. change (zlen (@nil byte)) with 0 in Hat.
    assert (NoDup (map fst (layout_from 0 fs))) as Hnl by (rewrite layout_names; exact Hnd).
    assert (forall n j, assoc n (dict_fields lims vs fs vs) = Some j <->
      exists o ft w, In (n, (o, ft)) (layout_from 0 fs) /\ rep ft w (sub_bytes o (sizeof ft) b) /\ assoc n vs = Some w /\ placeholder (n, ft) = false /\ j = field_json lims vs n ft w) as Has.
    { intros n j. pose proof (assoc_dict_fields lims vs (fun o ft w => rep ft w (sub_bytes o (sizeof ft) b)) _ _ n j Hat Hnl) as A.
      rewrite layout_types in A. exact A. }
    assert (forall n o ft, In (n, (o, ft)) (layout_from 0 fs) ->
      In (n, ft) fs /\ wf_type ft = true /\ dictable ft = true /\ fut_ok ft = true /\ (placeholder (n, ft) = false <-> ~ has_future n)) as Hfield.
    { intros n o ft Hl. assert (In (n, ft) fs) as Hin by (rewrite <- (layout_types 0 fs); apply in_map_iff; exists (n, (o, ft)); auto).
      split; [exact Hin|]. split; [eapply Hwf, Hin|]. cbn [dictable fut_ok] in Hd, Hft. apply andb_prop in Hd as [Hd _]. rewrite forallb_forall in Hd, Hft.
      split; [exact (Hd _ Hin)|]. specialize (Hft _ Hin). cbn [fst snd] in Hft. apply andb_prop in Hft as [F1 F2]. split; [exact F2|].
      pose proof (placeholder_spec n ft) as PS. destruct (placeholder (n, ft)).
      - split; [discriminate|]. intros N. destruct (N (proj2 (proj1 PS eq_refl))).
      - split; [|reflexivity]. intros _ N. destruct (is_struct ft) eqn:Es.
        + cbn [andb] in F1. apply negb_true_iff in F1. apply str_contains_spec in N. rewrite N in F1. discriminate F1.
        + assert (false = true) by (apply PS; auto). discriminate. }
    assert (forall n o ft w, In (n, (o, ft)) (layout_from 0 fs) -> rep ft w (sub_bytes o (sizeof ft) b) -> forall p ix,
      (json_path (field_json lims vs n ft w) p ix = Some x <->
       exists y, In y (rows_of ft) /\ r_path y = p /\ ~ reserved y /\
         in_listed b 0 (r_dims (field_row (field_used (layout_from 0 fs) lims n ft) n o y)) ix /\ prints (r_kind y) b (o + position y ix) x)) as Hfj.
    { clear p ix. intros n o ft w Hl Hrep p ix. destruct (Hfield n o ft Hl) as (Hin & Wf & Df & Ff & _).
      pose proof (field_in_struct _ _ _ _ Hw Hl) as B. destruct (IH (n, ft) Hin Wf Df Ff) as [I1 I2]. cbn [snd] in I1, I2.
      destruct (array_like ft) eqn:Ea.
      - destruct ft as [| | |e cap|]; try discriminate Ea. assert (is_char e = false) as Ec by (destruct e; try discriminate Ea; reflexivity).
        assert (array_like e = false) as Ea' by (cbn [dictable] in Df; destruct e; try discriminate Df; reflexivity).
        pose proof Hrep as Hrep'. apply rep_array in Hrep'; [|exact Ec]. destruct Hrep' as (ws & bs & -> & Hws & _ & _).
        pose proof (count_used name fs lims vs b n Hw Hd Hr) as Hcu. cbn [field_json].
        assert (field_used (layout_from 0 fs) lims n (TArr e cap) = used_of (layout_from 0 fs) lims n) as Efu by (destruct e; try discriminate Ec; reflexivity).
        rewrite Efu. set (u := used_of (layout_from 0 fs) lims n) in *. set (m := slots_listed b 0 (D cap (sizeof e) u)).
        assert (match count_for lims vs n with Some k => ztake (listed k cap) ws | None => ws end = ztake m ws) as ->.
        { unfold m, slots_listed. cbn [d_used d_slots]. destruct (count_for lims vs n) as [k|], u as [[c [sg sz| | |]]|]; try destruct Hcu.
          - rewrite Z.add_0_l. reflexivity.
          - rewrite ztake_all by lia. reflexivity. }
        rewrite (elements e cap ws _ Ec Ea' Wf (I2 Ea') Hrep o b u m p ix x (proj1 B) eq_refl ltac:(lia) Hx eq_refl).
        rewrite rows_of_array by exact Ec. split.
        + intros (y & Hy & <- & Hres & Hix). destruct ix as [|i ix]; [destruct Hix|]. destruct Hix as (Hi & Hl' & Hp).
          exists (each (D cap (sizeof e) None) y). split; [apply in_map, Hy|]. split; [reflexivity|]. split; [rewrite reserved_each; exact Hres|]. split.
          * unfold field_row. cbn [each under shift r_dims map]. unfold set_used. cbn [r_dims].
            destruct u as [[c k]|]; cbn [r_dims in_listed d_slots d_dist d_used shift_dim]; (split; [exact Hi|exact Hl']).
          * cbn [each r_kind]. unfold position in *. cbn [each r_off r_dims distance d_dist].
            replace (o + (r_off y + (i * sizeof e + distance (r_dims y) ix))) with (o + (i * sizeof e + (r_off y + distance (r_dims y) ix))) by lia. exact Hp.
        + intros (y' & Hy & <- & Hres & Hl' & Hp). apply in_map_iff in Hy as (y & <- & Hy). exists y. split; [exact Hy|]. split; [reflexivity|].
          split; [rewrite reserved_each in Hres; exact Hres|].
          unfold field_row in Hl'. cbn [each under shift r_dims map] in Hl'. unfold set_used in Hl'. cbn [r_dims] in Hl'.
          destruct ix as [|i ix]; [destruct u as [[c k]|]; destruct Hl'|].
          assert (0 <= i < m /\ in_listed b (0 + i * sizeof e) (map (shift_dim o) (r_dims y)) ix) as [Hi Hl2].
          { destruct u as [[c k]|]; exact Hl'. }
          split; [exact Hi|]. split; [exact Hl2|]. cbn [each r_kind] in Hp. unfold position in *. cbn [each r_off r_dims distance d_dist] in Hp.
          replace (o + (i * sizeof e + (r_off y + distance (r_dims y) ix))) with (o + (r_off y + (i * sizeof e + distance (r_dims y) ix))) by lia. exact Hp.
      - assert (field_json lims vs n ft w = dict_of ft w) as ->.
        { destruct ft as [| | |e ?|]; try reflexivity. destruct e; try discriminate Ea. destruct Hrep as (s & -> & _). reflexivity. }
        assert (field_used (layout_from 0 fs) lims n ft = None) as -> by (destruct ft as [| | |e ?|]; try reflexivity; destruct e; try discriminate Ea; reflexivity).
        rewrite (I1 eq_refl w _ Hrep p ix x Hx). cbn [field_row set_used].
        assert (forall y, In y (rows_of ft) -> (in_listed (sub_bytes o (sizeof ft) b) 0 (r_dims y) ix <-> in_listed b 0 (r_dims (field_row None n o y)) ix)) as EL.
        { intros y Hy. unfold field_row, set_used. cbn [under shift r_dims]. rewrite in_listed_shift.
          rewrite in_listed_sub; [|lia|apply rows_uses; assumption]. rewrite Z.add_0_r, Z.add_0_l. reflexivity. }
        split; intros (y & Hy & <- & Hres & Hl' & Hp); exists y; (split; [exact Hy|]); (split; [reflexivity|]); (split; [exact Hres|]); (split; [apply (EL y Hy), Hl'|]).
        + pose proof (in_listed_slots _ _ _ _ Hl') as Hsl. pose proof (rows_within ft Wf y ix Hy Hsl). pose proof (ksize_nonneg ft Wf y Hy).
          apply prints_sub in Hp; [exact Hp|lia|lia|lia|lia].
        + pose proof (in_listed_slots _ _ _ _ (proj2 (EL y Hy) Hl')) as Hsl. pose proof (rows_within ft Wf y ix Hy Hsl). pose proof (ksize_nonneg ft Wf y Hy).
          apply prints_sub; [lia|lia|lia|lia|exact Hp]. }
    split.
    + intros P. destruct p as [|[m|] p].
      * destruct ix; [|discriminate P]. injection P as <-. destruct Hx.
      * cbn [json_path] in P. destruct (assoc m (dict_fields lims vs fs vs)) as [j|] eqn:Ej; [|discriminate P].
        apply Has in Ej. destruct Ej as (o & ft & w & Hl & Hrep & _ & Hpl & ->).
        destruct (Hfield m o ft Hl) as (Hin & Wf & Df & Ff & HP).
        apply (Hfj m o ft w Hl Hrep) in P. destruct P as (y & Hy & <- & Hres & Hli & Hp).
        exists (field_row (field_used (layout_from 0 fs) lims m ft) m o y).
        split; [apply in_rows_struct; exists m, o, ft, y; auto|]. split; [apply field_row_path|]. split; [rewrite reserved_field; apply HP in Hpl; tauto|].
        split; [exact Hli|]. rewrite field_row_kind, field_row_position. exact Hp.
      * destruct ix as [|i ix]; discriminate P.
    + intros (r & Hr' & <- & Hres & Hli & Hp). apply in_rows_struct in Hr' as (m & o & ft & y & Hl & Hy & ->).
      change (layout (TStruct name fs lims)) with (layout_from 0 fs) in Hl.
      destruct (Hfield m o ft Hl) as (Hin & Wf & Df & Ff & HP). rewrite reserved_field in Hres.
      rewrite field_row_path. cbn [json_path]. rewrite field_row_kind, field_row_position in Hp.
      destruct (Forall2_in_r' _ _ _ _ Hat Hl) as ([m' w] & Hw' & Em & Hrep). cbn [fst snd] in Em, Hrep. subst m'.
      assert (assoc m (dict_fields lims vs fs vs) = Some (field_json lims vs m ft w)) as ->.
      { apply Has. exists o, ft, w. split; [exact Hl|]. split; [exact Hrep|]. split.
        - apply assoc_in; [|exact Hw']. rewrite <- (rep_names _ _ _ _ _ Hf). exact Hnd.
        - split; [|reflexivity]. apply HP. tauto. }
      apply (Hfj m o ft w Hl Hrep). exists y. split; [exact Hy|]. split; [reflexivity|]. split; [tauto|]. split; [exact Hli|exact Hp].
Qed.
