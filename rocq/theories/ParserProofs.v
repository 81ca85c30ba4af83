(** * Attribute paths as offsets, and the parts of a parseable row *)
From Coq Require Import List ZArith Lia Bool String.
From Coq Require Import Init.Byte.
From Verif Require Import PyBase Utf8 CTypes S_shared S_1_26 Model Parsers.
From Verif Require Import Spec SpecRows BaseProofs LayoutProofs RepProofs Utf8Proofs.
Import ListNotations.
Local Open Scope string_scope.
Local Open Scope Z_scope.

Lemma piece_sub b off n : piece b off n = sub_bytes off n b.
Proof. reflexivity. Qed.

(** ** Paths *)

Fixpoint path_at (t : ctype) (p : list string) : option (Z * ctype) :=
  match p with
  | [] => None
  | [n] => field_at t n
  | n :: r =>
      match field_at t n with
      | Some (o1, TStruct nm fs l) =>
          match path_at (TStruct nm fs l) r with
          | Some (o2, t2) =>
              if (0 <=? o1) && (0 <=? o2) && (0 <=? sizeof t2) && (o2 + sizeof t2 <=? sizeof (TStruct nm fs l))
              then Some (o1 + o2, t2) else None
          | None => None
          end
      | _ => None
      end
  end.

Lemma path_at_cons t n m r : path_at t (n :: m :: r) =
  match field_at t n with
  | Some (o1, TStruct nm fs l) =>
      match path_at (TStruct nm fs l) (m :: r) with
      | Some (o2, t2) =>
          if (0 <=? o1) && (0 <=? o2) && (0 <=? sizeof t2) && (o2 + sizeof t2 <=? sizeof (TStruct nm fs l))
          then Some (o1 + o2, t2) else None
      | None => None
      end
  | _ => None
  end.
Proof. reflexivity. Qed.
Lemma getpath_cons o n m r : getpath o (n :: m :: r) = (let? x := getobj o n in getpath x (m :: r)).
Proof. reflexivity. Qed.

Lemma getpath_at p : forall t b off ft, path_at t p = Some (off, ft) ->
  getpath (mkObj t b) p = Ok (fetch ft (sub_bytes off (sizeof ft) b)).
Proof.
  induction p as [|n [|m r] IH]; intros t b off ft H.
  - discriminate H.
  - cbn [path_at] in H. cbn [getpath]. apply getattr_field. exact H.
  - rewrite path_at_cons in H. rewrite getpath_cons.
    destruct (field_at t n) as [[o1 t1]|] eqn:E1; [|discriminate H].
    destruct t1 as [| | | |nm fs l]; try discriminate H.
    destruct (path_at (TStruct nm fs l) (m :: r)) as [[o2 t2]|] eqn:E2; [|discriminate H].
    destruct ((0 <=? o1) && (0 <=? o2) && (0 <=? sizeof t2) && (o2 + sizeof t2 <=? sizeof (TStruct nm fs l))) eqn:Eb;
      [|discriminate H].
    injection H as <- <-.
    unfold getobj. rewrite (getattr_field _ _ _ _ _ E1). cbn [rbind fetch].
    rewrite (IH _ _ _ _ E2). rewrite sub_bytes_sub by lia. reflexivity.
Qed.

Lemma jval_i64 t b p off : path_at t p = Some (off, TInt true 8) -> 0 <= off ->
  jval (mkObj t b) p = Ok (JInt (i64_at b off)).
Proof.
  intros H Ho. unfold jval. rewrite (getpath_at _ _ _ _ _ H). cbn [rbind fetch sizeof].
  rewrite <- int_at_i64 by exact Ho. reflexivity.
Qed.
Lemma jval_i32 t b p off : path_at t p = Some (off, TInt true 4) -> 0 <= off ->
  jval (mkObj t b) p = Ok (JInt (i32_at b off)).
Proof.
  intros H Ho. unfold jval. rewrite (getpath_at _ _ _ _ _ H). cbn [rbind fetch sizeof].
  rewrite <- int_at_i32 by exact Ho. reflexivity.
Qed.
Lemma jval_u32 t b p off : path_at t p = Some (off, TInt false 4) -> 0 <= off ->
  jval (mkObj t b) p = Ok (JInt (u32_at b off)).
Proof.
  intros H Ho. unfold jval. rewrite (getpath_at _ _ _ _ _ H). cbn [rbind fetch sizeof].
  rewrite <- int_at_u32 by exact Ho. reflexivity.
Qed.
Lemma jval_u16 t b p off : path_at t p = Some (off, TInt false 2) -> 0 <= off ->
  jval (mkObj t b) p = Ok (JInt (u16_at b off)).
Proof.
  intros H Ho. unfold jval. rewrite (getpath_at _ _ _ _ _ H). cbn [rbind fetch sizeof].
  rewrite <- int_at_u16 by exact Ho. reflexivity.
Qed.
Lemma jval_f32 t b p off : path_at t p = Some (off, TFloat) -> 0 <= off ->
  jval (mkObj t b) p = Ok (JFloat (u32_at b off)).
Proof.
  intros H Ho. unfold jval. rewrite (getpath_at _ _ _ _ _ H). cbn [rbind fetch sizeof].
  rewrite le_uint_sub_4 by exact Ho. reflexivity.
Qed.
Lemma intpath_i64 t b p off : path_at t p = Some (off, TInt true 8) -> 0 <= off ->
  intpath (mkObj t b) p = Ok (i64_at b off).
Proof.
  intros H Ho. unfold intpath. rewrite (getpath_at _ _ _ _ _ H). cbn [rbind fetch sizeof].
  rewrite <- int_at_i64 by exact Ho. reflexivity.
Qed.
Lemma jsum_i64 t b p q off off' : path_at t p = Some (off, TInt true 8) -> 0 <= off ->
  path_at t q = Some (off', TInt true 8) -> 0 <= off' ->
  jsum (mkObj t b) p q = Ok (n64_sum b off off').
Proof.
  intros H Ho H' Ho'. unfold jsum. rewrite (intpath_i64 _ _ _ _ H Ho), (intpath_i64 _ _ _ _ H' Ho').
  reflexivity.
Qed.
Lemma jkib_i64 t b p off : path_at t p = Some (off, TInt true 8) -> 0 <= off ->
  jkib (mkObj t b) p = Ok (kib b off).
Proof. intros H Ho. unfold jkib. rewrite (intpath_i64 _ _ _ _ H Ho). reflexivity. Qed.

Lemma bytespath_str t b p off n : path_at t p = Some (off, TArr TChar n) ->
  bytespath (mkObj t b) p = Ok (until_nul (piece b off n)).
Proof.
  intros H. unfold bytespath. rewrite (getpath_at _ _ _ _ _ H). cbn [rbind fetch sizeof].
  rewrite Z.mul_1_l, piece_sub. reflexivity.
Qed.
Lemma bytespath_char t b p off : path_at t p = Some (off, TChar) ->
  bytespath (mkObj t b) p = Ok (piece b off 1).
Proof.
  intros H. unfold bytespath. rewrite (getpath_at _ _ _ _ _ H). cbn [rbind fetch sizeof]. reflexivity.
Qed.

(** ** Text *)

Lemma decode_field f :
  (exists t, holds_text t f /\ decode_strict (until_nul f) = Ok t) \/
  (no_text f /\ decode_strict (until_nul f) = Raise UnicodeDecodeError).
Proof.
  destruct (decode_strict_total (until_nul f)) as [[t E]|E].
  - left. exists t. split; [|exact E]. apply decode_strict_spec in E as [H1 H2].
    split; [exact H1|]. rewrite H2. apply until_nul_c_string.
  - right. split; [|exact E]. intros t [H1 H2]. apply c_string_until_nul in H2.
    assert (decode_strict (until_nul f) = Ok t) as E' by (apply decode_strict_spec; auto).
    rewrite E' in E. discriminate E.
Qed.

Lemma piece1 b off : 0 <= off < zlen b -> exists c, piece b off 1 = [c] /\ bval c = at8 b off.
Proof.
  intros H. pose proof (zlen_sub_bytes off 1 b ltac:(lia) ltac:(lia) ltac:(lia)) as L.
  rewrite piece_sub. pose proof (le_uint_sub_1 off b ltac:(lia)) as E.
  destruct (sub_bytes off 1 b) as [|c [|d q]] eqn:Eq.
  - discriminate L.
  - exists c. split; [reflexivity|]. rewrite <- E. cbn [le_uint]. lia.
  - rewrite !zlen_cons in L. pose proof (zlen_nonneg q). lia.
Qed.

Lemma bval_range c : 0 <= bval c < 256.
Proof. unfold bval. pose proof (Byte.to_N_bounded c). lia. Qed.

Lemma decode_state b off : 0 <= off < zlen b ->
  (at8 b off < 128 /\ decode_strict (piece b off 1) = Ok [at8 b off]) \/
  (128 <= at8 b off /\ decode_strict (piece b off 1) = Raise UnicodeDecodeError).
Proof.
  intros H. destruct (piece1 b off H) as (c & Ec & Ev). rewrite Ec, <- Ev.
  pose proof (bval_range c) as R.
  destruct (Z.ltb_spec (bval c) 128) as [L|L].
  - left. split; [exact L|]. apply decode_strict_spec. split.
    + constructor; [|constructor]. left. lia.
    + cbn [utf8 flat_map app]. unfold utf8_char.
      destruct (Z.ltb_spec (bval c) 128); [|lia].
      cbn [app]. f_equal. unfold byte_of_Z, bval. rewrite N2Z.id.
      rewrite Byte.of_to_N. reflexivity.
  - right. split; [exact L|]. destruct (decode_strict_total [c]) as [[t E]|E]; [|exact E].
    exfalso. apply decode_strict_spec in E as [H1 H2].
    destruct t as [|x t]; [discriminate H2|].
    cbn [utf8 flat_map] in H2. unfold utf8_char in H2.
    inversion H1 as [|? ? Hx _]; subst.
    destruct (Z.ltb_spec x 128) as [Hx1|Hx1].
    + cbn [app] in H2. injection H2 as H2 _. rewrite <- H2 in L.
      rewrite bval_byte_of_Z in L; [lia|]. destruct Hx; lia.
    + destruct (Z.ltb_spec x 2048); [|destruct (Z.ltb_spec x 65536)]; cbn [app] in H2; discriminate H2.
Qed.

(** The first byte decides whether a name is empty. *)
Lemma name_empty slot n : 1 <= n -> (until_nul (piece slot 0 n) = [] <-> unused slot).
Proof.
  intros Hn. unfold unused, piece, at8.
  change (Z.to_nat 0) with O. cbn [skipn].
  destruct slot as [|c r].
  - rewrite firstn_nil. split; reflexivity.
  - destruct (Z.to_nat n) as [|k] eqn:Ek; [lia|]. cbn [firstn nth until_nul].
    destruct (Byte.eqb c x00) eqn:E.
    + apply Byte.byte_dec_bl in E. subst c. split; reflexivity.
    + split; [intros H; discriminate H|]. intros H. exfalso.
      assert (c = x00) as ->; [|discriminate E].
      unfold bval in H. apply (f_equal Z.to_N) in H. rewrite N2Z.id in H.
      pose proof (Byte.of_to_N c) as O. rewrite H in O. injection O as <-. reflexivity.
Qed.

(** ** Arrays of slots *)

Lemma seq_S_map {A} (f : nat -> A) n s : map f (seq (S s) n) = map (fun i => f (S i)) (seq s n).
Proof. rewrite <- seq_shift, map_map. reflexivity. Qed.

Lemma chunks_slots size : 0 <= size -> forall k b base, 0 <= base ->
  chunks k size (zdrop base b) = map (fun i => piece b (base + size * Z.of_nat i) size) (seq 0 k).
Proof.
  intros Hs k. induction k as [|k IH]; intros b base Hb; [reflexivity|].
  cbn [chunks seq map]. f_equal.
  - rewrite piece_sub. unfold sub_bytes. f_equal. f_equal. lia.
  - rewrite zdrop_zdrop by lia. rewrite IH by lia. rewrite seq_S_map.
    apply map_ext. intros i. f_equal. lia.
Qed.

Lemma chunks_ztake size : 0 <= size -> forall k b n, size * Z.of_nat k <= n ->
  chunks k size (ztake n b) = chunks k size b.
Proof.
  intros Hs k. induction k as [|k IH]; intros b n Hn; [reflexivity|].
  cbn [chunks]. rewrite ztake_ztake by lia. rewrite Z.min_l by lia. f_equal.
  rewrite zdrop_ztake by lia. apply IH. lia.
Qed.

Lemma struct_items_at t b p off nm fs l n :
  path_at t p = Some (off, TArr (TStruct nm fs l) n) -> 0 <= off -> 0 <= sizeof (TStruct nm fs l) -> 0 <= n ->
  struct_items (mkObj t b) p = Ok (map (mkObj (TStruct nm fs l)) (slots b off (sizeof (TStruct nm fs l)) n)).
Proof.
  intros H Ho Hs Hn. unfold struct_items. rewrite (getpath_at _ _ _ _ _ H). cbn [rbind fetch].
  unfold array_items. cbn [o_type o_buf].
  set (e := TStruct nm fs l) in *.
  assert (chunks (Z.to_nat n) (sizeof e) (sub_bytes off (sizeof (TArr e n)) b) = slots b off (sizeof e) n) as ->.
  { unfold slots, sub_bytes. rewrite chunks_ztake; [|exact Hs|cbn [sizeof]; fold e; nia].
    apply chunks_slots; assumption. }
  induction (slots b off (sizeof e) n) as [|x q IH]; [reflexivity|].
  cbn [map rmap]. subst e. cbn [fetch rbind]. rewrite IH. reflexivity.
Qed.

Lemma slots_len b base size n x : 0 <= base -> 0 <= size -> base + size * n <= zlen b -> In x (slots b base size n) ->
  zlen x = size.
Proof.
  intros Hb Hs Hn Hin. unfold slots in Hin. apply in_map_iff in Hin as (i & <- & Hi). apply in_seq in Hi.
  rewrite piece_sub. apply zlen_sub_bytes; nia.
Qed.

(** ** Loops *)

Lemma gen_loop_spec {A B} (g : A -> B) body stop ok bad (l : list A) :
  (forall x, In x l ->
     (stop x /\ body (g x) = Ok None) \/ (bad x /\ body (g x) = Raise UnicodeDecodeError) \/
     (exists v, ok x v /\ body (g x) = Ok (Some v))) ->
  rows_spec stop ok bad l (gen_loop body (map g l)).
Proof.
  induction l as [|x l IH]; intros H; cbn [map gen_loop]; [constructor|].
  destruct (H x ltac:(left; reflexivity)) as [[Hs E]|[[Hb E]|(v & Hv & E)]]; rewrite E.
  - apply rows_stop. exact Hs.
  - apply rows_bad. exact Hb.
  - specialize (IH ltac:(intros y Hy; apply H; right; exact Hy)).
    destruct (gen_loop body (map g l)) as [rs e]. apply rows_row; assumption.
Qed.

(** ** Computing a row *)

Ltac path_of t p := let v := eval vm_compute in (path_at t p) in v.

Ltac jstep :=
  match goal with
  | |- context [jval (mkObj ?t ?b) ?p] =>
      let v := path_of t p in
      match v with
      | Some (?off, TInt true 8) => rewrite (jval_i64 t b p off) by (lia || (vm_compute; reflexivity))
      | Some (?off, TInt true 4) => rewrite (jval_i32 t b p off) by (lia || (vm_compute; reflexivity))
      | Some (?off, TInt false 4) => rewrite (jval_u32 t b p off) by (lia || (vm_compute; reflexivity))
      | Some (?off, TInt false 2) => rewrite (jval_u16 t b p off) by (lia || (vm_compute; reflexivity))
      | Some (?off, TFloat) => rewrite (jval_f32 t b p off) by (lia || (vm_compute; reflexivity))
      end
  | |- context [jsum (mkObj ?t ?b) ?p ?q] =>
      let v := path_of t p in let w := path_of t q in
      match v with Some (?off, _) => match w with Some (?off', _) =>
        rewrite (jsum_i64 t b p q off off') by (lia || (vm_compute; reflexivity)) end end
  | |- context [jkib (mkObj ?t ?b) ?p] =>
      let v := path_of t p in
      match v with Some (?off, _) => rewrite (jkib_i64 t b p off) by (lia || (vm_compute; reflexivity)) end
  | |- context [intpath (mkObj ?t ?b) ?p] =>
      let v := path_of t p in
      match v with Some (?off, _) => rewrite (intpath_i64 t b p off) by (lia || (vm_compute; reflexivity)) end
  | |- context [bytespath (mkObj ?t ?b) ?p] =>
      let v := path_of t p in
      match v with
      | Some (?off, TArr TChar ?n) => rewrite (bytespath_str t b p off n) by (vm_compute; reflexivity)
      | Some (?off, TChar) => rewrite (bytespath_char t b p off) by (vm_compute; reflexivity)
      end
  end.
