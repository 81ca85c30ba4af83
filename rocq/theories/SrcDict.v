(** * struct_to_dict of utils.py: running the source has the effects the model says *)
From Coq Require Import List ZArith Lia Bool String.
From Coq Require Import Init.Byte.
From Coq Require Import ZifyBool.
From Verif Require Import PyBase Utf8 CTypes S_shared S_1_26 S_2_11 Model Parsers Json Gzip Reader Messages.
From Verif Require Import Spec SpecDict BaseProofs LayoutProofs RepProofs DictProofs TableProofs HeaderProofs.
From Verif Require Import PySyntax PyEval Source PyProgram PyGenerator SpecSource SrcBase SrcHeader SrcUtils SrcStat.
Import ListNotations.
Local Open Scope string_scope.
Local Open Scope list_scope.
Local Open Scope Z_scope.

(** ** JSON values in memory *)

Lemma all2_iff {A B} (R : A -> B -> Prop) l m : all2 R l m <-> Forall2 R l m.
Proof.
  revert m. induction l as [|x l IH]; intros [|y m]; cbn [all2]; split; intros H; try tauto;
    try constructor; try (inversion H; fail).
  - tauto.
  - apply IH; tauto.
  - inversion H; subst; assumption.
  - apply IH. inversion H; subst; assumption.
Qed.

Lemma json_ind' (P : json -> Prop) :
  (forall z, P (JInt z)) -> (forall b, P (JFloat b)) -> (forall s, P (JStr s)) -> P JRaw ->
  (forall l, Forall P l -> P (JList l)) -> (forall d, Forall (fun e => P (snd e)) d -> P (JDict d)) ->
  forall j, P j.
Proof.
  intros H1 H2 H3 H4 H5 H6. fix IH 1. intros [z|b|s|l|d|].
  - apply H1.
  - apply H2.
  - apply H3.
  - apply H5. revert l. fix G 1. intros [|x l]; constructor; [apply IH|apply G].
  - apply H6. revert d. fix G 1. intros [|[k x] d]; constructor; [apply IH|apply G].
  - apply H4.
Qed.

(** The value stays what it is if its lists and dictionaries do. *)
Lemma jin_keep j : forall w w' lo hi lo' hi' v,
  (forall n, (lo <= n < hi)%nat -> cell_at w' n = cell_at w n) -> (lo' <= lo)%nat -> (hi <= hi')%nat ->
  json_val j w lo hi v -> json_val j w' lo' hi' v.
Proof.
  induction j as [z|b|s| |l IH|d IH] using json_ind'; intros w w' lo hi lo' hi' v K L1 L2; cbn [json_val]; auto.
  - intros (id & vs & -> & Hi & Hc & Ha). exists id, vs. split; [reflexivity|]. split; [lia|].
    split; [rewrite K by lia; exact Hc|]. clear Hc. revert vs Ha.
    induction IH as [|j l Hj _ IHl]; intros [|v vs] Ha; cbn [all2] in *; try tauto.
    split; [eapply Hj; [exact K|lia|lia|tauto]|apply IHl; tauto].
  - intros (id & vs & -> & Hi & Hc & Ha). exists id, vs. split; [reflexivity|]. split; [lia|].
    split; [rewrite K by lia; exact Hc|]. clear Hc. revert vs Ha.
    induction IH as [|[k j] d Hj _ IHl]; intros [|[k' v] vs] Ha; cbn [all2 fst snd] in *; try tauto.
    split; [split; [tauto|eapply Hj; [exact K|lia|lia|tauto]]|apply IHl; tauto].
Qed.

(** ** Worlds: only new cells, or only new cells and one old one *)

Definition same (w0 w : world) : Prop :=
  (next w0 <= next w)%nat /\ (forall n, (n < next w0)%nat -> cell_at w n = cell_at w0 n) /\
  w_file w = w_file w0 /\ w_out w = w_out w0.

Lemma same_refl w : same w w.
Proof. repeat split; auto. Qed.
Lemma same_trans a b c : same a b -> same b c -> same a c.
Proof.
  intros (A1 & A2 & A3 & A4) (B1 & B2 & B3 & B4). split; [lia|]. split; [|split; congruence].
  intros n H. rewrite B2 by lia. apply A2; lia.
Qed.
Lemma same_push c w : same w (push c w).
Proof.
  split; [rewrite next_push; lia|]. split; [|split; reflexivity]. intros n H.
  unfold cell_at, push, next in *. cbn [w_heap]. rewrite nth_error_app1; [reflexivity|exact H].
Qed.
Lemma same_upd w0 w n c : same w0 w -> (next w0 <= n)%nat -> same w0 (upd n c w).
Proof.
  intros (A1 & A2 & A3 & A4) H. split; [rewrite next_upd; exact A1|]. split; [|split; assumption].
  intros k Hk. rewrite cell_upd_neq by lia. apply A2, Hk.
Qed.
Lemma same_cell w0 w n c : same w0 w -> cell_at w0 n = Some c -> cell_at w n = Some c.
Proof. intros (_ & A & _) H. rewrite A; [exact H|eapply cell_lt, H]. Qed.
Lemma same_mem w0 w n b : same w0 w -> mem w0 n = Some b -> mem w n = Some b.
Proof. intros S H. apply mem_cell. apply mem_cell in H. eapply same_cell; eassumption. Qed.
Lemma same_next w0 w : same w0 w -> (next w0 <= next w)%nat.
Proof. intros (A & _). exact A. Qed.
Lemma same_is_grows w0 w : same w0 w -> grows w0 w.
Proof. intros S n c H. exists c. split; [eapply same_cell; eassumption|left; reflexivity]. Qed.
Lemma same_quiet w0 w : same w0 w -> quiet w0 w.
Proof. intros S. split; [apply same_is_grows, S|]. destruct S as (_ & _ & A & B). auto. Qed.

(** As [same], but cell [k] may have changed. *)
Definition samex (k : nat) (w0 w : world) : Prop :=
  (next w0 <= next w)%nat /\ (forall n, (n < next w0)%nat -> n <> k -> cell_at w n = cell_at w0 n) /\
  w_file w = w_file w0 /\ w_out w = w_out w0.

Lemma same_samex k a b : same a b -> samex k a b.
Proof. intros (A1 & A2 & A3). split; [exact A1|]. split; [|exact A3]. intros. apply A2; assumption. Qed.
Lemma samex_trans k a b c : samex k a b -> samex k b c -> samex k a c.
Proof.
  intros (A1 & A2 & A3 & A4) (B1 & B2 & B3 & B4). split; [lia|]. split; [|split; congruence].
  intros n H Hk. rewrite B2 by (assumption || lia). apply A2; assumption.
Qed.
Lemma samex_upd k c w : samex k w (upd k c w).
Proof.
  split; [rewrite next_upd; lia|]. split; [|split; reflexivity]. intros n _ H. apply cell_upd_neq. congruence.
Qed.
Lemma samex_same k w0 w w' : same w0 w -> samex k w w' -> (next w0 <= k)%nat -> same w0 w'.
Proof.
  intros (A1 & A2 & A3 & A4) (B1 & B2 & B3 & B4) H. split; [lia|]. split; [|split; congruence].
  intros n Hn. rewrite B2 by lia. apply A2, Hn.
Qed.
Lemma samex_mem k w w' n b : samex k w w' -> mem w n = Some b -> n <> k -> mem w' n = Some b.
Proof.
  intros (_ & A & _) H Hk. apply mem_cell. apply mem_cell in H. rewrite A; [exact H|eapply cell_lt, H|exact Hk].
Qed.
Lemma samex_cell k w w' n c : samex k w w' -> cell_at w n = Some c -> n <> k -> cell_at w' n = Some c.
Proof. intros (_ & A & _) H Hk. rewrite A; [exact H|eapply cell_lt, H|exact Hk]. Qed.

Lemma jin_same j w w' lo hi v : same w w' -> (hi <= next w)%nat -> json_val j w lo hi v -> json_val j w' lo hi v.
Proof. intros (_ & A & _) H. apply jin_keep; try lia. intros n Hn. apply A. lia. Qed.
Lemma jin_samex k j w w' lo hi v : samex k w w' -> (hi <= next w)%nat -> (k < lo \/ hi <= k)%nat ->
  json_val j w lo hi v -> json_val j w' lo hi v.
Proof. intros (_ & A & _) H Hk. apply jin_keep; try lia. intros n Hn. apply A; lia. Qed.
Lemma jin_wide j w lo hi lo' hi' v : (lo' <= lo)%nat -> (hi <= hi')%nat -> json_val j w lo hi v -> json_val j w lo' hi' v.
Proof. intros A B. apply jin_keep; auto. Qed.

(** ** Local variables *)

Lemma assoc_set {V} x y (v : V) e : assoc x (dict_set e y v) = if String.eqb x y then Some v else assoc x e.
Proof.
  induction e as [|[k u] e IH]; cbn [dict_set assoc].
  - reflexivity.
  - destruct (String.eqb_spec y k) as [->|Hne]; cbn [assoc].
    + destruct (String.eqb_spec x k); reflexivity.
    + destruct (String.eqb_spec x k) as [->|Hk].
      * destruct (String.eqb_spec k y); [congruence|reflexivity].
      * exact IH.
Qed.

Definition senv (sv : value) (d : nat) (e : env) : Prop :=
  assoc "struct" e = Some sv /\ assoc "struct_dict" e = Some (VDict d) /\
  assoc "isinstance" e = None /\ assoc "ctypes" e = None /\ assoc "getattr" e = None /\
  assoc "bytes" e = None /\ assoc "struct_to_dict" e = None.

Lemma senv_set sv d e y v : senv sv d e ->
  existsb (String.eqb y) ["field"; "field_name"; "field_data"; "limiters"; "limiter"; "sub_data"] = true ->
  senv sv d (dict_set e y v).
Proof.
  intros H Hy. cbn [existsb] in Hy. unfold senv in *. rewrite !assoc_set.
  repeat (apply orb_prop in Hy as [Hy|Hy]); try discriminate Hy; apply String.eqb_eq in Hy; subst y; exact H.
Qed.

(** Stepping with local variables known only by their values. *)
Ltac evx :=
  repeat (progress (cbn [exec eval ebind ok_or_stuck name_value with_val assign String.eqb Ascii.eqb Bool.eqb
    eval_list eval_kws eval_fstr eval_dict call_value call_builtin truthy negb bind_all
    existsb orb slice_bound compare_val option_map];
    try unfold name_value; rewrite ?assoc_set; cbn [String.eqb Ascii.eqb Bool.eqb];
    repeat match goal with H : assoc ?x ?e = _ |- context [assoc ?x ?e] => rewrite H end;
    try gname_one; try mods_one)).

Lemma isinst_struct v : isinstance_val v (VClass "ctypes.Structure") =
  Some (match v with VView (TStruct _ _ _) _ _ | VHdr _ => true | _ => false end).
Proof. reflexivity. Qed.
Lemma isinst_array v : isinstance_val v (VClass "ctypes.Array") =
  Some (match v with VView (TArr _ _) _ _ => true | _ => false end).
Proof. reflexivity. Qed.
Lemma isinst_bytes v : isinstance_val v (VClass "bytes") = Some (match v with VBytes _ => true | _ => false end).
Proof. reflexivity. Qed.

Lemma sub_dict w d e k x : cell_at w d = Some (CDict e) -> assoc k e = Some x -> sub_val (VDict d) (VStr k) w = EOk x w.
Proof. intros H K. cbn [sub_val]. rewrite H, K. reflexivity. Qed.
Lemma set_sub_dict w d e k x : cell_at w d = Some (CDict e) ->
  set_sub (VDict d) (VStr k) x w = Some (upd d (CDict (dict_set e k x)) w).
Proof. intros H. cbn [set_sub]. rewrite H. reflexivity. Qed.

(** ** Struct instances *)

(** [sv] is a struct of type [t] at [blk], [off]: a ctypes instance or a header. *)
Definition struct_at (w : world) (sv : value) (t : ctype) (blk : nat) (off : Z) (m : list byte) : Prop :=
  (sv = VView t blk off \/
   exists id c attrs, sv = VHdr id /\ cell_at w id = Some (CHdr c blk attrs) /\ t = hc_header c /\ off = 0 /\
                      assoc "_fields_" attrs = None /\ assoc "fields_limiters" attrs = None) /\
  mem w blk = Some m /\ 0 <= off /\ off + sizeof t <= zlen m.

Lemma struct_at_same w w' sv t blk off m : same w w' -> struct_at w sv t blk off m -> struct_at w' sv t blk off m.
Proof.
  intros S ([->|(id & c & attrs & -> & Hc & H)] & Hm & Hr); (split; [|split; [eapply same_mem; eassumption|exact Hr]]).
  - left. reflexivity.
  - right. exists id, c, attrs. split; [reflexivity|]. split; [eapply same_cell; eassumption|exact H].
Qed.

(** The names of the fields of [t], and below, do not hide what struct_to_dict asks for. *)
Fixpoint names_ok (t : ctype) : bool :=
  match t with
  | TArr e _ => names_ok e
  | TStruct _ fs _ =>
      forallb (fun f => negb (existsb (String.eqb (fst f)) [""; "_fields_"; "fields_limiters"]) && names_ok (snd f)) fs
  | _ => true
  end.

(** How deep the structs of [t] are nested. *)
Fixpoint sdepth (t : ctype) : nat :=
  match t with
  | TArr e _ => sdepth e
  | TStruct _ fs _ => S (list_max (map (fun f => sdepth (snd f)) fs))
  | _ => O
  end.

Lemma field_at_none t a : ~ In a (map fst (struct_fields t)) -> field_at t a = None.
Proof.
  intros H. unfold field_at. apply assoc_none. rewrite map_rev, <- in_rev. unfold layout. rewrite layout_names. exact H.
Qed.

Lemma names_field t a : names_ok t = true -> In a [""; "_fields_"; "fields_limiters"] -> field_at t a = None.
Proof.
  intros H Ha. apply field_at_none. destruct t as [| | |e n|nm fs lims]; cbn [struct_fields map In]; try tauto.
  cbn [names_ok] in H. rewrite forallb_forall in H. intros Hin. apply in_map_iff in Hin as ([k ft] & <- & Hf).
  specialize (H _ Hf). cbn [fst snd] in *. apply andb_prop in H as [H _]. apply negb_true_iff in H.
  apply existsb_false with (x := k) in H; [|exact Ha]. rewrite String.eqb_refl in H. discriminate H.
Qed.

Section Acc.
Variable F : fns.
Notation GA := (get_attr globals).

Lemma at_field w sv t blk off m a fo ft : struct_at w sv t blk off m -> field_at t a = Some (fo, ft) ->
  GA F sv a w = EOk (val_of ft blk (off + fo) (sub_bytes (off + fo) (sizeof ft) m)) w.
Proof.
  intros ([->|(id & c & attrs & -> & Hc & -> & -> & _)] & Hm & _) Hf; cbn [get_attr]; [|rewrite Hc];
    unfold view_field, read_val; rewrite Hf, Hm; reflexivity.
Qed.

Lemma at_fields w sv t blk off m : struct_at w sv t blk off m -> names_ok t = true -> is_struct t = true ->
  GA F sv "_fields_" w = EOk (fields_val t) w.
Proof.
  intros ([->|(id & c & attrs & -> & Hc & -> & -> & H1 & _)] & Hm & _) Hn Ht; cbn [get_attr]; [|rewrite Hc];
    unfold view_field; rewrite (names_field _ "_fields_" Hn) by in_list.
  - destruct t; try discriminate Ht. reflexivity.
  - cbn [is_property existsb String.eqb Ascii.eqb Bool.eqb orb]. rewrite H1. cbn [String.eqb Ascii.eqb Bool.eqb].
    unfold hclass_attr. cbn [String.eqb Ascii.eqb Bool.eqb]. destruct (hc_header c); try discriminate Ht. reflexivity.
Qed.

Lemma at_limiters w sv t blk off m : struct_at w sv t blk off m -> names_ok t = true -> is_struct t = true ->
  GA F sv "fields_limiters" w =
  match struct_limiters t with
  | [] => EErr (XB (AttributeError "fields_limiters")) w
  | l => EOk (VMap (map (fun f => (fst f, VStr (snd f))) l)) w
  end.
Proof.
  intros ([->|(id & c & attrs & -> & Hc & -> & -> & _ & H1)] & Hm & _) Hn Ht; cbn [get_attr]; [|rewrite Hc];
    unfold view_field; rewrite (names_field _ "fields_limiters" Hn) by in_list.
  - destruct t as [| | |e n|nm fs lims]; try discriminate Ht. cbn [class_attr struct_limiters String.eqb Ascii.eqb Bool.eqb].
    destruct lims; reflexivity.
  - cbn [is_property existsb String.eqb Ascii.eqb Bool.eqb orb]. rewrite H1. cbn [String.eqb Ascii.eqb Bool.eqb].
    unfold hclass_attr. cbn [String.eqb Ascii.eqb Bool.eqb].
    destruct (hc_header c) as [| | |e n|nm fs lims]; try discriminate Ht.
    cbn [class_attr struct_limiters String.eqb Ascii.eqb Bool.eqb]. destruct lims; reflexivity.
Qed.
End Acc.

(** ** Array elements *)

(** The access [a] gives the element of type [e] whose bytes are [b], in block [blk]. *)
Definition elem_ok (e : ctype) (blk : nat) (m : list byte) (a : access) (b : list byte) : Prop :=
  exists off, 0 <= off /\ off + sizeof e <= zlen m /\ b = sub_bytes off (sizeof e) m /\
              forall w, mem w blk = Some m -> a w = Some (val_of e blk off b).

Lemma elems_array e blk m k : wf_type e = true -> forall off, 0 <= off -> off + sizeof e * Z.of_nat k <= zlen m ->
  Forall2 (elem_ok e blk m) (array_accesses k e blk off)
          (chunks k (sizeof e) (sub_bytes off (sizeof e * Z.of_nat k) m)).
Proof.
  intros Hw. pose proof (sizeof_nonneg e Hw) as Hs. induction k as [|k IH]; intros off Ho Hl; cbn [array_accesses chunks]; constructor.
  - exists off. split; [exact Ho|]. split; [nia|]. 
    assert (E : ztake (sizeof e) (sub_bytes off (sizeof e * Z.of_nat (S k)) m) = sub_bytes off (sizeof e) m).
    { unfold sub_bytes. rewrite ztake_ztake. f_equal. nia. }
    rewrite E. split; [reflexivity|]. intros w Hm. unfold read_val. rewrite Hm. reflexivity.
  - replace (zdrop (sizeof e) (sub_bytes off (sizeof e * Z.of_nat (S k)) m))
      with (sub_bytes (off + sizeof e) (sizeof e * Z.of_nat k) m).
    + apply IH; nia.
    + unfold sub_bytes. rewrite zdrop_ztake, zdrop_zdrop by nia.
      replace (sizeof e * Z.of_nat (S k) - sizeof e) with (sizeof e * Z.of_nat k) by nia. reflexivity.
Qed.

Lemma elems_forced e blk m w acc bs : mem w blk = Some m -> Forall2 (elem_ok e blk m) acc bs ->
  exists vs, force_all w acc = Some vs /\ Forall2 (fun v => elem_ok e blk m (fun _ => Some v)) vs bs.
Proof.
  intros Hm. induction 1 as [|a b acc bs (off & H1 & H2 & H3 & H4) _ (vs & E & IH)].
  - exists []. split; [reflexivity|constructor].
  - exists (val_of e blk off b :: vs). cbn [force_all]. rewrite (H4 w Hm), E. split; [reflexivity|].
    constructor; [|exact IH]. exists off. repeat (split; [assumption|]). reflexivity.
Qed.

Lemma forall2_firstn {A B} (R : A -> B -> Prop) n l m : Forall2 R l m -> Forall2 R (firstn n l) (firstn n m).
Proof. intros H. revert n. induction H; intros [|n]; cbn [firstn]; constructor; auto. Qed.
Lemma forall2_skipn {A B} (R : A -> B -> Prop) n l m : Forall2 R l m -> Forall2 R (skipn n l) (skipn n m).
Proof. intros H. revert n. induction H; intros [|n]; cbn [skipn]; auto. Qed.
Lemma forall2_zlen {A B} (R : A -> B -> Prop) l m : Forall2 R l m -> zlen l = zlen m.
Proof. induction 1; [reflexivity|]. rewrite !zlen_cons. lia. Qed.
Lemma forall2_slice {A B} (R : A -> B -> Prop) a b l m : Forall2 R l m -> Forall2 R (pyslice a b l) (pyslice a b m).
Proof.
  intros H. unfold pyslice. rewrite (forall2_zlen _ _ _ H). apply forall2_firstn, forall2_skipn, H.
Qed.

Section Src.
Variable dec : list byte -> option (list byte).
Variable disk : list Z -> res (list byte).
Variable salvage : list byte -> list byte.
Variable fault : list byte -> exn.
Variable float_repr : Z -> list Z.
Variable argv : env.
Notation CN := (call_n dec disk salvage fault float_repr argv globals functions).
Notation GA := (get_attr globals).
Notation EX := (exec dec disk salvage fault float_repr globals).
Notation EFOR := (exec_for dec disk salvage fault float_repr globals).

(** The bodies of the two loops of struct_to_dict (utils.py:308-328, 320-325). *)
Definition field_body : list stmt :=
  match nth 1 (fd_body u_struct_to_dict) SPass with SFor _ _ b => b | _ => [] end.
Definition array_part : list stmt :=
  match nth 2 field_body SPass with
  | SIf _ _ (SIf _ (SIf _ b _ :: _) _ :: _) => b
  | _ => []
  end.
Definition elem_body : list stmt :=
  match nth 4 array_part SPass with SFor _ _ b => b | _ => [] end.

(** What a call of struct_to_dict with [n] levels of calls left does on structs of type [t]. *)
Definition good (n : nat) (t : ctype) : Prop :=
  forall w sv blk off m, struct_at w sv t blk off m ->
  exists j v w', struct_to_dict_ t (sub_bytes off (sizeof t) m) = Ok j /\
    f_call (CN n) U "struct_to_dict" [sv] [] w = EOk v w' /\ same w w' /\ json_val j w' (next w) (next w') v.

(** ... and on the structs that a field of type [ft] holds. *)
Definition good_below (n : nat) (ft : ctype) : Prop :=
  match ft with
  | TStruct _ _ _ => good n ft
  | TArr (TStruct _ _ _ as e) _ => good n e
  | _ => True
  end.

Definition elem_conv (e : ctype) (b : list byte) : res json :=
  match e with TStruct _ _ _ => struct_to_dict_ e b | _ => Ok (elem_json e b) end.

(** One element. *)
Lemma src_elem n e sv d li nm blk m en w dd vs a b x :
  (is_struct e = true -> good n e) -> elem_ok e blk m a b -> mem w blk = Some m -> a w = Some x ->
  senv sv d en -> assoc "field_name" en = Some (VStr nm) ->
  cell_at w d = Some (CDict dd) -> assoc nm dd = Some (VList li) -> cell_at w li = Some (CList vs) ->
  exists j v w1, elem_conv e b = Ok j /\ same w w1 /\ json_val j w1 (next w) (next w1) v /\
    exec_block (EX (CN n) U None) elem_body (dict_set en "sub_data" x) w =
    TDone ONext (dict_set en "sub_data" x) (upd li (CList (vs ++ [v])) w1).
Proof.
  intros Hg (off & H1 & H2 & H3 & H4) Hm Ha (E1 & E2 & E3 & E4 & E5 & E6 & E7) En Hd Hdd Hli.
  rewrite (H4 w Hm) in Ha. injection Ha as <-. set (x := val_of e blk off b).
  unfold elem_body, array_part, field_body. cbn [nth fd_body u_struct_to_dict].
  destruct (is_struct e) eqn:Es.
  - assert (Ex : x = VView e blk off) by (unfold x; destruct e; try discriminate Es; reflexivity).
    assert (Hsa : struct_at w x e blk off m).
    { split; [left; exact Ex|]. split; [exact Hm|]. split; assumption. }
    destruct (Hg eq_refl w x blk off m Hsa) as (j & v & w1 & Ej & Ec & Hs & Hj).
    exists j, v, w1. split; [unfold elem_conv; rewrite H3; destruct e; try discriminate Es; exact Ej|].
    split; [exact Hs|]. split; [exact Hj|].
    erewrite block_next; cycle 1.
    { clearbody x. evx. rewrite isinst_struct.
      replace (match x with VView (TStruct _ _ _) _ _ | VHdr _ => true | _ => false end) with true
        by (rewrite Ex; destruct e; try discriminate Es; reflexivity).
      evx.
      erewrite block_next; cycle 1.
      { evx. rewrite (sub_dict _ _ _ _ _ Hd Hdd). evx. change "atoparser.utils" with U. rewrite Ec. evx.
        rewrite (append_eq w1 li vs); [|eapply same_cell; eassumption]. evx. reflexivity. }
      reflexivity. }
    reflexivity.
  - exists (elem_json e b), x, w. split; [unfold elem_conv; destruct e; try discriminate Es; reflexivity|].
    split; [apply same_refl|]. split.
    { unfold x. destruct e as [| | |[]|]; try discriminate Es; cbn [elem_json val_of json_val]; try reflexivity; exact I. }
    erewrite block_next; cycle 1.
    { evx. rewrite isinst_struct.
      replace (match x with VView (TStruct _ _ _) _ _ | VHdr _ => true | _ => false end) with false
        by (unfold x; destruct e as [| | |[]|]; try discriminate Es; reflexivity).
      evx.
      erewrite block_next; cycle 1.
      { evx. rewrite (sub_dict _ _ _ _ _ Hd Hdd). evx. rewrite (append_eq w li vs _ _ Hli). evx. reflexivity. }
      reflexivity. }
    reflexivity.
Qed.

Lemma src_elems n e sv d li nm blk m : (is_struct e = true -> good n e) -> d <> li -> blk <> li ->
  forall acc bs, Forall2 (elem_ok e blk m) acc bs -> forall en w dd js vs,
  mem w blk = Some m -> senv sv d en -> assoc "field_name" en = Some (VStr nm) ->
  cell_at w d = Some (CDict dd) -> assoc nm dd = Some (VList li) -> cell_at w li = Some (CList vs) ->
  Forall2 (fun j v => json_val j w (S li) (next w) v) js vs ->
  exists js' en' w' vs', rmap (elem_conv e) bs = Ok js' /\
    EFOR (CN n) U (TgName "sub_data") (exec_block (EX (CN n) U None) elem_body) acc en w = TDone ONext en' w' /\
    senv sv d en' /\ assoc "field_name" en' = Some (VStr nm) /\ samex li w w' /\
    cell_at w' li = Some (CList vs') /\
    Forall2 (fun j v => json_val j w' (S li) (next w') v) (js ++ js') vs'.
Proof.
  intros Hg Hne Hnb. induction 1 as [|a b acc bs Hab _ IH]; intros en w dd js vs Hm He En Hd Hdd Hli Hj.
  { exists [], en, w, vs. rewrite app_nil_r. split; [reflexivity|]. split; [reflexivity|].
    split; [exact He|]. split; [exact En|]. split; [apply same_samex, same_refl|]. auto. }
  pose proof Hab as Hab'. destruct Hab' as (off & _ & _ & _ & H4). specialize (H4 w Hm).
  set (x := val_of e blk off b) in *.
  destruct (src_elem n e sv d li nm blk m en w dd vs a b x Hg Hab Hm H4 He En Hd Hdd Hli)
    as (j & v & w1 & Ej & S1 & Hv & X).
  set (w2 := upd li (CList (vs ++ [v])) w1) in *.
  pose proof (same_cell _ _ _ _ S1 Hli) as Hli1.
  assert (SX : samex li w w2) by (eapply samex_trans; [apply same_samex, S1|apply samex_upd]).
  assert (SX1 : samex li w1 w2) by apply samex_upd.
  assert (Hlt : (li < next w)%nat) by (eapply cell_lt; exact Hli).
  assert (Hf2 : Forall2 (fun j v => json_val j w2 (S li) (next w2) v) (js ++ [j]) (vs ++ [v])).
  { apply Forall2_app.
    - eapply forall2_impl; [|exact Hj]. cbn beta. intros j0 v0 H0.
      apply (jin_wide _ _ (S li) (next w)); [lia|exact (proj1 SX)|].
      eapply jin_samex; [exact SX|lia|lia|exact H0].
    - constructor; [|constructor].
      apply (jin_wide _ _ (next w) (next w1)); [lia|exact (proj1 SX1)|].
      eapply jin_samex; [exact SX1|lia|lia|exact Hv]. }
  destruct (IH (dict_set en "sub_data" x) w2 dd (js ++ [j]) (vs ++ [v])) as (js' & en' & w' & vs' & R1 & R2 & R3 & R3' & R4 & R5 & R6).
  - eapply samex_mem; [exact SX|exact Hm|exact Hnb].
  - apply senv_set; [exact He|reflexivity].
  - rewrite assoc_set. exact En.
  - eapply samex_cell; [exact SX|exact Hd|exact Hne].
  - exact Hdd.
  - unfold w2. eapply cell_upd_eq. exact Hli1.
  - exact Hf2.
  - exists (j :: js'), en', w', vs'. cbn [rmap]. rewrite Ej, R1. cbn [rbind]. split; [reflexivity|].
    split. { cbn [exec_for]. rewrite H4. cbn [assign tseq]. rewrite X. cbn [tseq]. exact R2. }
    split; [exact R3|]. split; [exact R3'|]. split; [eapply samex_trans; eassumption|]. split; [exact R5|].
    rewrite <- app_assoc in R6. exact R6.
Qed.

(** ** One field *)

Lemma samex_new k l w0 w w' : samex k w0 w -> samex l w w' -> (next w0 <= l)%nat -> samex k w0 w'.
Proof.
  intros (A1 & A2 & A3 & A4) (B1 & B2 & B3 & B4) H. split; [lia|]. split; [|split; congruence].
  intros n Hn Hk. rewrite B2 by lia. apply A2; assumption.
Qed.
Lemma struct_at_samex k c w w' sv t blk off m : samex k w w' -> cell_at w k = Some c ->
  match c with CMem _ | CHdr _ _ _ => False | _ => True end ->
  struct_at w sv t blk off m -> struct_at w' sv t blk off m.
Proof.
  intros S Hk Hc H. assert (Hb : blk <> k).
  { intros ->. destruct H as (_ & Hm & _). apply mem_cell in Hm. rewrite Hk in Hm. injection Hm as ->. exact Hc. }
  destruct H as ([->|(id & hc & attrs & -> & Hi & H)] & Hm & Hr);
    (split; [|split; [eapply samex_mem; eassumption|exact Hr]]).
  - left. reflexivity.
  - right. exists id, hc, attrs. split; [reflexivity|]. split; [|exact H].
    eapply samex_cell; [exact S|exact Hi|]. intros ->. rewrite Hk in Hi. injection Hi as ->. exact Hc.
Qed.

(** What one field adds to the dictionary. *)
Definition field_json (t : ctype) (buf : list byte) (nm : string) (ft : ctype) (fb : list byte) : res (option json) :=
  match ft with
  | TStruct _ _ _ => let? j := struct_to_dict_ ft fb in Ok (Some j)
  | _ =>
      if str_contains "future" nm then Ok None else
      match ft with
      | TArr TChar _ => Ok (Some (JStr (decode_ignore (until_nul fb))))
      | TArr e n =>
          let? sel := limited (mkObj t buf) nm (chunks (Z.to_nat n) (sizeof e) fb) in
          let? js := rmap (elem_conv e) sel in Ok (Some (JList js))
      | TChar => Ok (Some (JStr (decode_ignore fb)))
      | TInt sg sz => Ok (Some (JInt (int_value sg sz fb)))
      | TFloat => Ok (Some (JFloat (le_uint fb)))
      | TStruct _ _ _ => Ok None
      end
  end.

Lemma dict_go_cons t buf nm ft r off acc :
  dict_go t buf ((nm, ft) :: r) off acc =
  let o := align_up off (alignof ft) in
  let? oj := field_json t buf nm ft (sub_bytes o (sizeof ft) buf) in
  dict_go t buf r (o + sizeof ft) (match oj with Some j => dict_set acc nm j | None => acc end).
Proof.
  cbn [dict_go]. unfold field_json. set (fb := sub_bytes _ _ _).
  destruct ft as [sg sz| | |e n|sn sf sl]; cbn [rbind]; try (destruct (str_contains "future" nm); reflexivity).
  - destruct (str_contains "future" nm); [reflexivity|].
    destruct e; try reflexivity;
      (destruct (limited (mkObj t buf) nm _) as [sel|ex]; cbn [rbind]; [|reflexivity];
       change (fun b0 : list byte => elem_conv ?x b0) with (elem_conv x);
       unfold elem_conv;
       match goal with |- context [rmap ?f sel] => destruct (rmap f sel); reflexivity end).
  - destruct (struct_to_dict_ (TStruct sn sf sl) fb); reflexivity.
Qed.

Lemma limiter_int t blk off m nm lim w sv F :
  struct_at w sv t blk off m -> wf_type t = true -> dictable t = true -> names_ok t = true ->
  assoc nm (struct_limiters t) = Some lim ->
  lim <> "" /\ exists z, getint (mkObj t (sub_bytes off (sizeof t) m)) lim = Ok z /\ GA F sv lim w = EOk (VInt z) w.
Proof.
  intros Hsa Hw Hd Hn Ha. destruct t as [| | |e k|sn fs lims]; try discriminate Ha. cbn [struct_limiters] in Ha.
  pose proof Hd as Hd'. cbn [dictable] in Hd'. apply andb_prop in Hd' as [_ Hl]. rewrite forallb_forall in Hl.
  apply assoc_some_in in Ha. specialize (Hl _ Ha). cbn [snd] in Hl.
  destruct (assoc lim fs) as [ft|] eqn:Ef; [|discriminate Hl]. destruct ft as [sg sz| | | |]; try discriminate Hl.
  apply assoc_some_in in Ef. destruct (wf_struct _ _ _ Hw) as [Hnd _].
  assert (Hin : exists o, In (lim, (o, TInt sg sz)) (layout (TStruct sn fs lims))).
  { unfold layout. cbn [struct_fields]. rewrite <- (layout_types 0 fs) in Ef. apply in_map_iff in Ef as ([k [o u]] & E & Hi).
    cbn [fst snd] in E. injection E as -> ->. exists o. exact Hi. }
  destruct Hin as (o & Hin). pose proof (field_at_in (TStruct sn fs lims) _ _ _ Hnd Hin) as Hf. split.
  - intros ->. rewrite (names_field _ "" Hn) in Hf by in_list. discriminate Hf.
  - destruct (field_in_struct _ _ _ _ Hw Hin) as (F1 & _ & F3 & F4 & F5).
    pose proof Hsa as Hsa'. destruct Hsa' as (_ & _ & Ho & Hs).
    eexists. split.
    + unfold getint, getattr. cbn [o_type o_buf]. rewrite Hf. cbn [rbind fetch]. reflexivity.
    + rewrite (at_field F w sv _ blk off m lim _ _ Hsa Hf). cbn [val_of].
      rewrite sub_bytes_sub by lia. reflexivity.
Qed.

Lemma arr_elems blk m off e n : wf_type (TArr e n) = true -> 0 <= off -> off + sizeof (TArr e n) <= zlen m ->
  Forall2 (elem_ok e blk m) (array_accesses (Z.to_nat n) e blk off)
          (chunks (Z.to_nat n) (sizeof e) (sub_bytes off (sizeof (TArr e n)) m)).
Proof.
  intros Hw Ho Hl. cbn [wf_type] in Hw. apply andb_prop in Hw as [Hn He]. cbn [sizeof] in *.
  assert (E : sizeof e * n = sizeof e * Z.of_nat (Z.to_nat n)) by (rewrite Z2Nat.id by lia; lia).
  rewrite E in *. apply elems_array; assumption.
Qed.

Section Field.
Variables (n : nat) (sv : value) (t : ctype) (blk : nat) (off : Z) (m : list byte) (d : nat).
Hypothesis Hw : wf_type t = true.
Hypothesis Hdt : dictable t = true.
Hypothesis Hn : names_ok t = true.
Hypothesis Ht : is_struct t = true.
Let buf := sub_bytes off (sizeof t) m.

Lemma src_array nm e cnt fo en w dd :
  (is_struct e = true -> good n e) -> wf_type (TArr e cnt) = true -> e <> TChar ->
  0 <= fo -> fo + sizeof (TArr e cnt) <= zlen m ->
  struct_at w sv t blk off m -> senv sv d en -> assoc "field_name" en = Some (VStr nm) ->
  assoc "field_data" en = Some (VView (TArr e cnt) blk fo) -> cell_at w d = Some (CDict dd) ->
  exists js en' w' v,
    (let? sel := limited (mkObj t buf) nm (chunks (Z.to_nat cnt) (sizeof e) (sub_bytes fo (sizeof (TArr e cnt)) m)) in
     rmap (elem_conv e) sel) = Ok js /\
    exec_block (EX (CN n) U None) array_part en w = TDone ONext en' w' /\
    senv sv d en' /\ samex d w w' /\ cell_at w' d = Some (CDict (dict_set dd nm v)) /\
    json_val (JList js) w' (next w) (next w') v.
Proof using Hw Hdt Hn Ht.
  intros Hg Hwa Hec Hfo Hfl Hsa He En Ed Hd.
  set (li := next w). set (w1 := push (CList []) w). set (dd1 := dict_set dd nm (VList li)).
  set (w2 := upd d (CDict dd1) w1). set (w3 := push (CDict []) w2).
  assert (Hdlt : (d < li)%nat) by (eapply cell_lt; exact Hd).
  assert (S1 : same w w1) by apply same_push.
  assert (Hd1 : cell_at w1 d = Some (CDict dd)) by (eapply same_cell; eassumption).
  assert (S2 : samex d w w2) by (eapply samex_trans; [apply same_samex, S1|apply samex_upd]).
  assert (S23 : same w2 w3) by apply same_push.
  assert (S3 : samex d w w3) by (eapply samex_trans; [exact S2|apply same_samex, S23]).
  assert (Hd2 : cell_at w2 d = Some (CDict dd1)) by (eapply cell_upd_eq; exact Hd1).
  assert (Hd3 : cell_at w3 d = Some (CDict dd1)) by (eapply same_cell; eassumption).
  assert (Hli1 : cell_at w1 li = Some (CList [])) by apply cell_push_new.
  assert (Hli2 : cell_at w2 li = Some (CList [])) by (unfold w2; rewrite cell_upd_neq by lia; exact Hli1).
  assert (Hli3 : cell_at w3 li = Some (CList [])) by (eapply same_cell; eassumption).
  assert (Hsa3 : struct_at w3 sv t blk off m).
  { eapply struct_at_samex; [exact S3|exact Hd|exact I|exact Hsa]. }
  assert (Hdd1 : assoc nm dd1 = Some (VList li)) by (unfold dd1; rewrite assoc_set, String.eqb_refl; reflexivity).
  pose proof Hsa as Hsa'. destruct Hsa' as (_ & Hm & Ho & Hs).
  pose proof Hsa3 as Hsa3'. destruct Hsa3' as (_ & Hm3 & _).
  assert (Hblk : (blk < li)%nat) by (apply mem_cell in Hm; eapply cell_lt; exact Hm).
  pose proof He as (E1 & E2 & E3 & E4 & E5 & E6 & E7).
  unfold array_part, field_body. cbn [nth fd_body u_struct_to_dict].
  (* struct_dict[field_name] = [] *)
  erewrite block_next; cycle 1.
  { evx. rewrite alloc_eq. evx. rewrite (set_sub_dict _ _ _ _ _ Hd1). reflexivity. }
  fold w1 li dd1 w2.
  (* limiters *)
  set (lv := match struct_limiters t with [] => VDict (next w2) | l => VMap (map (fun f => (fst f, VStr (snd f))) l) end).
  erewrite block_next; cycle 1.
  { evx. rewrite alloc_eq. fold w3. evx. unfold getattr_default. rewrite (at_limiters _ _ _ _ _ _ _ Hsa3 Hn Ht).
    instantiate (1 := w3). instantiate (1 := dict_set en "limiters" lv). unfold lv.
    destruct (struct_limiters t); cbn [ebind with_val assign]; reflexivity. }
  set (en1 := dict_set en "limiters" lv).
  (* limiter *)
  set (limv := match assoc nm (struct_limiters t) with Some l => VStr l | None => VNone end).
  assert (X2 : EX (CN n) U None (nth 2 array_part SPass) en1 w3 = TDone ONext (dict_set en1 "limiter" limv) w3).
  { unfold array_part, field_body. cbn [nth fd_body u_struct_to_dict]. unfold en1. evx. unfold lv, limv.
    destruct (struct_limiters t) as [|l0 ls] eqn:El.
    - evx. cbn [call_method]. unfold w3 at 1. rewrite cell_push_new. evx. reflexivity.
    - evx. cbn [call_method]. rewrite (assoc_map (fun s => VStr s) nm (l0 :: ls)). evx.
      destruct (assoc nm (l0 :: ls)); reflexivity. }
  unfold array_part, field_body in X2. cbn [nth fd_body u_struct_to_dict] in X2.
  erewrite block_next; [|exact X2]. clear X2.
  set (en2 := dict_set en1 "limiter" limv).
  assert (He2 : senv sv d en2) by (unfold en2, en1; repeat (apply senv_set; [|reflexivity]); exact He).
  assert (En2 : assoc "field_name" en2 = Some (VStr nm)) by (unfold en2, en1; rewrite !assoc_set; exact En).
  pose proof (arr_elems blk m fo e cnt Hwa Hfo Hfl) as Hel.
  set (items := chunks (Z.to_nat cnt) (sizeof e) (sub_bytes fo (sizeof (TArr e cnt)) m)) in *.
  (* the optional slice *)
  assert (K : exists sel en3 w4 acc fd,
    limited (mkObj t buf) nm items = Ok sel /\
    EX (CN n) U None (nth 3 array_part SPass) en2 w3 = TDone ONext en3 w4 /\ same w3 w4 /\ senv sv d en3 /\
    assoc "field_name" en3 = Some (VStr nm) /\ assoc "field_data" en3 = Some fd /\
    (match fd with VGen _ _ _ => False | _ => True end) /\ accesses w4 fd = Some acc /\ Forall2 (elem_ok e blk m) acc sel).
  { unfold limited. cbn [o_type]. unfold array_part, field_body. cbn [nth fd_body u_struct_to_dict].
    pose proof He2 as (E1' & E2' & E3' & E4' & E5' & E6' & E7').
    assert (El : assoc "limiter" en2 = Some limv) by (unfold en2; rewrite assoc_set; reflexivity).
    assert (Ed2 : assoc "field_data" en2 = Some (VView (TArr e cnt) blk fo)) by (unfold en2, en1; rewrite !assoc_set; exact Ed).
    unfold limv in El. destruct (assoc nm (struct_limiters t)) as [lim|] eqn:Ea.
    - destruct (limiter_int t blk off m nm lim w3 sv (CN n) Hsa3 Hw Hdt Hn Ea) as (Hne & z & Hz & Hga).
      fold buf in Hz. rewrite Hz. cbn [rbind].
      destruct (elems_forced e blk m w3 _ _ Hm3 Hel) as (vs & Ev & Hvs).
      pose proof (forall2_slice _ 0 z _ _ Hvs) as Hcut.
      set (w4 := push (CList (pyslice 0 z vs)) w3).
      exists (pyslice_to z items), (dict_set en2 "field_data" (VList (next w3))), w4,
        (map (fun x => fun _ : world => Some x) (pyslice 0 z vs)), (VList (next w3)).
      split; [reflexivity|]. split.
      { clearbody en2. evx. replace (String.eqb lim "") with false by (symmetry; apply String.eqb_neq; exact Hne). evx.
        erewrite block_next; cycle 1.
        { evx. rewrite Hga. evx. cbn [slice_val simple_accesses]. rewrite Ev, alloc_eq. fold w4. evx. reflexivity. }
        reflexivity. }
      split; [apply same_push|]. split; [apply senv_set; [exact He2|reflexivity]|].
      split; [rewrite assoc_set; exact En2|]. split; [rewrite assoc_set; reflexivity|].
      split; [exact I|]. split.
      { cbn [accesses simple_accesses]. unfold w4. rewrite cell_push_new. reflexivity. }
      clear - Hcut. unfold pyslice_to. revert Hcut. generalize (pyslice 0 z vs), (pyslice 0 z items).
      induction 1; cbn [map]; constructor; assumption.
    - exists items, en2, w3, (array_accesses (Z.to_nat cnt) e blk fo), (VView (TArr e cnt) blk fo).
      split; [reflexivity|]. split. { clearbody en2. evx. reflexivity. }
      split; [apply same_refl|]. split; [exact He2|]. split; [exact En2|]. split; [exact Ed2|].
      split; [exact I|]. split; [reflexivity|exact Hel]. }
  destruct K as (sel & en3 & w4 & acc & fd & Ksel & X3 & S34 & He3 & En3 & Ed3 & Hgen & Hacc & Hel3).
  unfold array_part, field_body in X3. cbn [nth fd_body u_struct_to_dict] in X3.
  erewrite block_next; [|exact X3]. clear X3.
  rewrite Ksel. cbn [rbind].
  pose proof (same_cell _ _ _ _ S34 Hd3) as Hd4. pose proof (same_cell _ _ _ _ S34 Hli3) as Hli4.
  pose proof (same_mem _ _ _ _ S34 Hm3) as Hm4.
  destruct (src_elems n e sv d li nm blk m Hg ltac:(lia) ltac:(lia) acc sel Hel3 en3 w4 dd1 [] []
              Hm4 He3 En3 Hd4 Hdd1 Hli4 (Forall2_nil _)) as (js & en' & w' & vs' & R1 & R2 & R3 & R4 & R5 & R6 & R7).
  exists js, en', w', (VList li). split; [exact R1|]. split.
  { erewrite block_next; cycle 1.
    { evx. unfold elem_body, array_part, field_body in R2. cbn [nth fd_body u_struct_to_dict] in R2.
      rewrite Hacc. destruct fd; try destruct Hgen; exact R2. }
    reflexivity. }
  split; [exact R3|].
  assert (S4 : samex d w w4) by (eapply samex_trans; [exact S3|apply same_samex, S34]).
  split; [eapply samex_new; [exact S4|exact R5|unfold li; lia]|].
  split; [eapply samex_cell; [exact R5|exact Hd4|lia]|].
  cbn [json_val app] in *. exists li, vs'. split; [reflexivity|].
  pose proof (cell_lt _ _ _ R6) as Hlt. split; [unfold li in *; lia|]. split; [exact R6|].
  apply all2_iff. eapply forall2_impl; [|exact R7]. cbn beta. intros j v. apply jin_wide; unfold li in *; lia.
Qed.

Lemma pair0 a b w : sub_val (VTuple [a; b]) (VInt 0) w = EOk a w.
Proof. reflexivity. Qed.

Lemma src_field nm ft fo en w dd :
  good_below n ft -> In (nm, (fo, ft)) (layout t) ->
  struct_at w sv t blk off m -> senv sv d en ->
  assoc "field" en = Some (VTuple [VStr nm; VCType ft]) -> cell_at w d = Some (CDict dd) ->
  exists oj en' w',
    field_json t buf nm ft (sub_bytes fo (sizeof ft) buf) = Ok oj /\
    exec_block (EX (CN n) U None) field_body en w = TDone ONext en' w' /\
    senv sv d en' /\ samex d w w' /\
    match oj with
    | None => cell_at w' d = Some (CDict dd)
    | Some j => exists v, cell_at w' d = Some (CDict (dict_set dd nm v)) /\ json_val j w' (next w) (next w') v
    end.
Proof using Hw Hdt Hn Ht.
  intros Hg Hin Hsa He Ef Hd.
  assert (Hnd : NoDup (map fst (struct_fields t))).
  { destruct t; try discriminate Ht. exact (proj1 (wf_struct _ _ _ Hw)). }
  pose proof (field_at_in t _ _ _ Hnd Hin) as Hf.
  destruct (field_in_struct _ _ _ _ Hw Hin) as (F1 & _ & F3 & F4 & F5).
  pose proof Hsa as (_ & Hm & Ho & Hs).
  assert (Hb : sub_bytes fo (sizeof ft) buf = sub_bytes (off + fo) (sizeof ft) m)
    by (unfold buf; apply sub_bytes_sub; lia).
  rewrite Hb. set (fb := sub_bytes (off + fo) (sizeof ft) m).
  pose proof He as (E1 & E2 & E3 & E4 & E5 & E6 & E7).
  unfold field_body. cbn [nth fd_body u_struct_to_dict].
  erewrite block_next; cycle 1. { evx. rewrite pair0. evx. reflexivity. }
  erewrite block_next; cycle 1. { evx. rewrite (at_field _ _ _ _ _ _ _ _ _ _ Hsa Hf). fold fb. evx. reflexivity. }
  set (x := val_of ft blk (off + fo) fb). set (en1 := dict_set (dict_set en "field_name" (VStr nm)) "field_data" x).
  assert (He1 : senv sv d en1) by (unfold en1; repeat (apply senv_set; [|reflexivity]); exact He).
  assert (En1 : assoc "field_name" en1 = Some (VStr nm)) by (unfold en1; rewrite !assoc_set; reflexivity).
  assert (Ed1 : assoc "field_data" en1 = Some x) by (unfold en1; rewrite !assoc_set; reflexivity).
  clearbody en1. clear E1 E2 E3 E4 E5 E6 E7 Ef He. pose proof He1 as (E1 & E2 & E3 & E4 & E5 & E6 & E7).
  (* storing a plain value *)
  assert (ST : forall v j, json_val j w (next w) (next w) v ->
    exists w', samex d w w' /\ set_sub (VDict d) (VStr nm) v w = Some w' /\
      exists v', cell_at w' d = Some (CDict (dict_set dd nm v')) /\ json_val j w' (next w) (next w') v').
  { intros v j Hj. exists (upd d (CDict (dict_set dd nm v)) w). split; [apply samex_upd|].
    split; [apply set_sub_dict, Hd|]. exists v. split; [eapply cell_upd_eq; exact Hd|].
    eapply jin_keep; [| | |exact Hj]; [intros k Hk; lia|lia|rewrite next_upd; lia]. }
  destruct (is_struct ft) eqn:Es.
  { (* a nested struct *)
    assert (Ex : x = VView ft blk (off + fo)) by (unfold x; destruct ft; try discriminate Es; reflexivity).
    assert (Hsx : struct_at w x ft blk (off + fo) m).
    { split; [left; exact Ex|]. split; [exact Hm|]. split; lia. }
    assert (Hgs : good n ft) by (destruct ft; try discriminate Es; exact Hg).
    destruct (Hgs w x blk (off + fo) m Hsx) as (j & v & w1 & Ej & Ec & Sw & Hj). fold fb in Ej.
    pose proof (same_cell _ _ _ _ Sw Hd) as Hd1.
    exists (Some j), en1, (upd d (CDict (dict_set dd nm v)) w1).
    split. { unfold field_json. destruct ft; try discriminate Es. rewrite Ej. reflexivity. }
    split. { clearbody x. erewrite block_next; cycle 1.
      { evx. rewrite isinst_struct.
        replace (match x with VView (TStruct _ _ _) _ _ | VHdr _ => true | _ => false end) with true
          by (rewrite Ex; destruct ft; try discriminate Es; reflexivity).
        evx. erewrite block_next; cycle 1.
        { evx. change "atoparser.utils" with U. rewrite Ec. evx. rewrite (set_sub_dict _ _ _ _ _ Hd1). reflexivity. }
        reflexivity. }
      reflexivity. }
    split; [exact He1|].
    assert (SX : samex d w1 (upd d (CDict (dict_set dd nm v)) w1)) by apply samex_upd.
    split; [eapply samex_trans; [apply same_samex, Sw|exact SX]|].
    exists v. split; [eapply cell_upd_eq; exact Hd1|].
    pose proof (cell_lt _ _ _ Hd). rewrite next_upd.
    eapply jin_samex; [exact SX|lia|lia|exact Hj]. }
  (* not a struct *)
  assert (N1 : match x with VView (TStruct _ _ _) _ _ | VHdr _ => true | _ => false end = false)
    by (unfold x; destruct ft as [| | |[]|]; try discriminate Es; reflexivity).
  assert (FUT : str_contains "future" nm = true -> field_json t buf nm ft fb = Ok None)
    by (intros E; unfold field_json; destruct ft; try discriminate Es; rewrite E; reflexivity).
  destruct (str_contains "future" nm) eqn:Efut.
  { exists None, en1, w. split; [exact (FUT eq_refl)|]. split; [|split; [exact He1|split; [apply same_samex, same_refl|exact Hd]]].
    clearbody x. erewrite block_next; cycle 1.
    { evx. rewrite isinst_struct, N1. evx. erewrite block_next; cycle 1. { evx. cbn [member]. rewrite Efut. evx. reflexivity. } reflexivity. }
    reflexivity. }
  clear FUT.
  destruct (match ft with TArr TChar _ => false | TArr _ _ => true | _ => false end) eqn:Earr.
  { (* an array *)
    destruct ft as [| | |e cnt|]; try discriminate Earr.
    assert (Hec : e <> TChar) by (intros ->; discriminate Earr).
    assert (Ex : x = VView (TArr e cnt) blk (off + fo)) by (unfold x; destruct e; try reflexivity; congruence).
    rewrite Ex in Ed1.
    destruct (src_array nm e cnt (off + fo) en1 w dd) as (js & en' & w' & v & R1 & R2 & R3 & R4 & R5 & R6).
    { intros Hse. destruct e; try discriminate Hse. exact Hg. }
    { exact F4. } { exact Hec. } { clear - F1 Ho; lia. } { clear - F3 Hs; lia. } { exact Hsa. } { exact He1. } { exact En1. } { exact Ed1. } { exact Hd. }
    fold fb in R1. exists (Some (JList js)), en', w'. split.
    { unfold field_json. rewrite Efut. destruct e; try congruence;
        (destruct (limited (mkObj t buf) nm _) as [sel|ex]; cbn [rbind] in R1 |- *; [|discriminate R1]; rewrite R1; reflexivity). }
    split.
    { unfold array_part, field_body in R2. cbn [nth fd_body u_struct_to_dict] in R2.
      clear Ex. clearbody x. erewrite block_next; cycle 1.
      { evx. rewrite isinst_struct. evx. erewrite block_next; cycle 1.
        { evx. cbn [member]. rewrite Efut. evx. erewrite block_next; cycle 1.
          { evx. rewrite isinst_array. evx. exact R2. }
          reflexivity. }
        reflexivity. }
      reflexivity. }
    split; [exact R3|]. split; [exact R4|]. exists v. split; [exact R5|exact R6]. }
  assert (N2 : match x with VView (TArr _ _) _ _ => true | _ => false end = false)
    by (unfold x; destruct ft as [| | |[]|]; try discriminate Es; try discriminate Earr; reflexivity).
  (* plain values and strings *)
  assert (K : exists y j, field_json t buf nm ft fb = Ok (Some j) /\ json_val j w (next w) (next w) y /\
     match x with VBytes b => y = VText (decode_ignore b) | _ => y = x end).
  { unfold x, field_json. rewrite Efut. destruct ft as [sg sz| | |[] k|]; try discriminate Es; try discriminate Earr;
      (eexists; eexists; split; [reflexivity|]; split; [|cbn [val_of]; reflexivity]);
      cbn [json_val cps]; reflexivity. }
  destruct K as (y & j & K1 & K2 & K3).
  destruct (ST y j K2) as (w' & T1 & T2 & T3).
  exists (Some j), en1, w'. split; [exact K1|]. split; [|split; [exact He1|split; [exact T1|exact T3]]].
  clearbody x. erewrite block_next; cycle 1.
  { evx. rewrite isinst_struct, N1. evx. erewrite block_next; cycle 1.
    { evx. cbn [member]. rewrite Efut. evx. erewrite block_next; cycle 1.
      { evx. rewrite isinst_array, N2. evx. instantiate (1 := w'). instantiate (1 := en1).
        erewrite block_next; cycle 1.
        { evx. rewrite isinst_bytes. evx. instantiate (1 := w'). instantiate (1 := en1).
          destruct x; try (subst y; evx; erewrite block_next; cycle 1; [evx; rewrite T2; reflexivity|reflexivity]).
          subst y. evx. erewrite block_next; cycle 1. 
          { evx. cbn [call_method]. evx. rewrite T2. reflexivity. }
          reflexivity. }
        reflexivity. }
      reflexivity. }
    reflexivity. }
  reflexivity.
Qed.
End Field.

(** ** All fields *)

Definition entry_ok (w : world) (lo hi : nat) (kj : string * json) (kv : string * value) : Prop :=
  fst kj = fst kv /\ json_val (snd kj) w lo hi (snd kv).

Lemma entries_set w lo hi acc dd nm j v : Forall2 (entry_ok w lo hi) acc dd -> json_val j w lo hi v ->
  Forall2 (entry_ok w lo hi) (dict_set acc nm j) (dict_set dd nm v).
Proof.
  intros H Hv. induction H as [|[k1 j1] [k2 v2] acc dd [E K] H IH]; cbn [dict_set].
  - constructor; [split; [reflexivity|exact Hv]|constructor].
  - cbn [fst snd] in E, K. subst k2. destruct (String.eqb nm k1).
    + constructor; [split; [reflexivity|exact Hv]|exact H].
    + constructor; [split; [reflexivity|exact K]|exact IH].
Qed.

Lemma src_fields n sv t blk off m d :
  wf_type t = true -> dictable t = true -> names_ok t = true -> is_struct t = true ->
  Forall (fun f => good_below n (snd f)) (struct_fields t) ->
  forall rest pre o en w acc dd, struct_fields t = map (fun x => (fst x, snd (snd x))) pre ++ rest ->
  layout t = pre ++ layout_from o rest ->
  struct_at w sv t blk off m -> senv sv d en -> cell_at w d = Some (CDict dd) ->
  Forall2 (entry_ok w (S d) (next w)) acc dd ->
  exists d' en' w' dd', dict_go t (sub_bytes off (sizeof t) m) rest o acc = Ok (JDict d') /\
    EFOR (CN n) U (TgName "field") (exec_block (EX (CN n) U None) field_body)
      (map (fun x => fun _ : world => Some x) (map (fun f => VTuple [VStr (fst f); VCType (snd f)]) rest)) en w =
      TDone ONext en' w' /\ senv sv d en' /\ samex d w w' /\ cell_at w' d = Some (CDict dd') /\
    Forall2 (entry_ok w' (S d) (next w')) d' dd'.
Proof.
  intros Hw Hdt Hn Ht Hg. induction rest as [|[nm ft] rest IH]; intros pre o en w acc dd Hfs Hl Hsa He Hd Ha.
  { exists acc, en, w, dd. cbn [dict_go map exec_for]. split; [reflexivity|]. split; [reflexivity|].
    split; [exact He|]. split; [apply same_samex, same_refl|]. auto. }
  cbn [map exec_for fst snd assign tseq]. rewrite dict_go_cons. cbn zeta.
  cbn [layout_from] in Hl. set (fo := align_up o (alignof ft)) in *.
  set (en1 := dict_set en "field" _).
  assert (Hgf : good_below n ft).
  { rewrite Forall_forall in Hg. specialize (Hg (nm, ft)). rewrite Hfs in Hg. apply Hg. rewrite in_app_iff. right. left. reflexivity. }
  assert (Hin : In (nm, (fo, ft)) (layout t)) by (rewrite Hl, in_app_iff; right; left; reflexivity).
  destruct (src_field n sv t blk off m d Hw Hdt Hn Ht nm ft fo en1 w dd Hgf Hin Hsa) as (oj & en' & w' & R1 & R2 & R3 & R4 & R5).
  { apply senv_set; [exact He|reflexivity]. } { unfold en1. rewrite assoc_set. reflexivity. } { exact Hd. }
  rewrite R1. cbn [rbind]. rewrite R2. cbn [tseq].
  assert (Hsa' : struct_at w' sv t blk off m) by (eapply struct_at_samex; [exact R4|exact Hd|exact I|exact Hsa]).
  pose proof (cell_lt _ _ _ Hd) as Hlt.
  assert (Hold : Forall2 (entry_ok w' (S d) (next w')) acc dd).
  { eapply forall2_impl; [|exact Ha]. intros a b [Ek Ej]. split; [exact Ek|].
    apply (jin_wide _ _ (S d) (next w)); [lia|exact (proj1 R4)|]. eapply jin_samex; [exact R4|lia|lia|exact Ej]. }
  assert (Hacc : exists dd', cell_at w' d = Some (CDict dd') /\
    Forall2 (entry_ok w' (S d) (next w')) (match oj with Some j => dict_set acc nm j | None => acc end) dd').
  { destruct oj as [j|].
    - destruct R5 as (v & V1 & V2). exists (dict_set dd nm v). split; [exact V1|]. apply entries_set; [exact Hold|].
      apply (jin_wide _ _ (next w) (next w')); [lia|lia|exact V2].
    - exists dd. split; [exact R5|exact Hold]. }
  destruct Hacc as (dd' & Hd' & Ha').
  destruct (IH (pre ++ [(nm, (fo, ft))]) (fo + sizeof ft) en' w'
    (match oj with Some j => dict_set acc nm j | None => acc end) dd') as (d' & en'' & w'' & dd'' & P1 & P2 & P3 & P4 & P5 & P6).
  { rewrite map_app, <- app_assoc. cbn [map fst snd app]. exact Hfs. }
  { rewrite <- app_assoc. cbn [app]. exact Hl. }
  { exact Hsa'. } { exact R3. } { exact Hd'. } { exact Ha'. }
  exists d', en'', w'', dd''. split; [exact P1|]. split; [exact P2|]. split; [exact P3|].
  split; [eapply samex_trans; eassumption|]. split; [exact P5|exact P6].
Qed.

Lemma depth_field (fs : list (string * ctype)) f : In f fs -> (sdepth (snd f) <= list_max (map (fun f => sdepth (snd f)) fs))%nat.
Proof.
  intros H. pose proof (list_max_le (map (fun f => sdepth (snd f)) fs) (list_max (map (fun f => sdepth (snd f)) fs))) as [K _].
  specialize (K (le_n _)). rewrite Forall_forall in K. apply K. apply in_map_iff. exists f. auto.
Qed.

(** struct_to_dict (utils.py:296-329) on any struct of a well-formed type. *)
Lemma src_dict n : forall t, wf_type t = true -> dictable t = true -> names_ok t = true -> is_struct t = true ->
  (sdepth t <= n)%nat -> good n t.
Proof.
  induction n as [|n IH]; intros t Hw Hdt Hn Ht Hdep.
  { destruct t; try discriminate Ht. cbn [sdepth] in Hdep. lia. }
  intros w sv blk off m Hsa.
  destruct t as [| | |e k|sn fs lims] eqn:Et; try discriminate Ht. rewrite <- Et in *.
  assert (Hg : Forall (fun f => good_below n (snd f)) (struct_fields t)).
  { rewrite Et. cbn [struct_fields]. rewrite Forall_forall. intros [nm ft] Hin. cbn [snd].
    rewrite Et in Hw, Hdt, Hn, Hdep. destruct (wf_struct _ _ _ Hw) as [_ Hwf]. specialize (Hwf _ _ Hin).
    cbn [dictable] in Hdt. apply andb_prop in Hdt as [Hdf _]. rewrite forallb_forall in Hdf. specialize (Hdf _ Hin).
    cbn [names_ok] in Hn. rewrite forallb_forall in Hn. specialize (Hn _ Hin). apply andb_prop in Hn as [_ Hnf].
    pose proof (depth_field _ _ Hin) as Hdp. cbn [snd sdepth] in *.
    unfold good_below. destruct ft as [| | |e k|]; try exact I.
    - destruct e; try exact I. cbn [wf_type] in Hwf. apply andb_prop in Hwf as [_ Hwf]. apply IH; try assumption; try reflexivity.
      cbn [sdepth] in *. lia.
    - apply IH; try assumption; try reflexivity. cbn [sdepth] in *. lia. }
  set (d := next w). set (w1 := push (CDict []) w).
  assert (S1 : same w w1) by apply same_push.
  pose proof (struct_at_same _ _ _ _ _ _ _ S1 Hsa) as Hsa1.
  set (en := [("struct", sv); ("struct_dict", VDict d)]).
  destruct (src_fields n sv t blk off m d Hw Hdt Hn Ht Hg (struct_fields t) [] 0 en w1 [] [])
    as (d' & en' & w' & dd' & P1 & P2 & P3 & P4 & P5 & P6).
  { reflexivity. } { reflexivity. } { exact Hsa1. } { repeat split. } { apply cell_push_new. } { constructor. }
  exists (JDict d'), (VDict d), w'.
  split. { rewrite Et. rewrite struct_to_dict_go. rewrite Et in P1. exact P1. }
  split.
  { erewrite call_eq; [|reflexivity..]. unfold run_body. cbn [fd_body u_struct_to_dict].
    erewrite block_next; cycle 1. { ev. rewrite alloc_eq. fold d w1. ev. reflexivity. }
    fold en. erewrite block_next; cycle 1.
    { assert (E1 : assoc "struct" en = Some sv) by reflexivity. evx.
      rewrite (at_fields _ _ _ _ _ _ _ Hsa1 Hn Ht). cbn [with_val].
      unfold fields_val. cbn [accesses simple_accesses].
      unfold field_body in P2. cbn [nth fd_body u_struct_to_dict] in P2. exact P2. }
    destruct P3 as (Q1 & Q2 & _). erewrite block_ret; cycle 1. { evx. reflexivity. } reflexivity. }
  split; [eapply samex_same; [exact S1|exact P4|unfold d; lia]|].
  cbn [json_val]. exists d, dd'. split; [reflexivity|]. pose proof (cell_lt _ _ _ P5) as Hlt.
  split; [unfold d in *; lia|]. split; [exact P5|]. apply all2_iff. eapply forall2_impl; [|exact P6].
  intros a b [Ek Ej]. split; [exact Ek|]. revert Ej. apply jin_wide; unfold d; lia.
Qed.

(** ** The struct types of the supported versions *)

Definition max_depth : nat := 4.

Lemma class_names_b :
  forallb (fun c => forallb (fun t => names_ok t && Nat.leb (sdepth t) max_depth) (class_types c)) versions = true.
Proof. vm_compute. reflexivity. Qed.

Definition fine (t : ctype) : Prop :=
  wf_type t = true /\ dictable t = true /\ names_ok t = true /\ (sdepth t <= max_depth)%nat.

Lemma fine_part u t : part_of u t -> fine t -> fine u.
Proof.
  induction 1 as [t|u e n H IH|u name fs lims n ft Hin H IH]; intros (A & B & C & D).
  - repeat split; assumption.
  - apply IH. cbn [wf_type dictable names_ok sdepth] in *. apply andb_prop in A as [_ A].
    split; [exact A|]. split; [destruct e; try discriminate B; exact B|]. split; assumption.
  - apply IH. destruct (wf_struct _ _ _ A) as [_ Hwf]. cbn [dictable names_ok sdepth] in *.
    apply andb_prop in B as [B _]. rewrite forallb_forall in B, C. specialize (C _ Hin). apply andb_prop in C as [_ C].
    pose proof (depth_field _ _ Hin). cbn [snd] in *. split; [eapply Hwf; exact Hin|]. split; [exact (B _ Hin)|].
    split; [exact C|lia].
Qed.

Lemma class_fine c t : In c versions -> In t (class_types c) -> fine t /\ is_struct t = true.
Proof.
  intros Hc Ht. destruct (class_types_ok c t Hc Ht) as (A & B & C).
  pose proof class_names_b as H. rewrite forallb_forall in H. specialize (H _ Hc).
  rewrite forallb_forall in H. specialize (H _ Ht). apply andb_prop in H as [H1 H2]. apply Nat.leb_le in H2.
  repeat split; assumption.
Qed.

Lemma type_fine c u : In c versions -> type_in c u -> fine u.
Proof.
  intros Hc H. assert (K : exists t, In t (class_types c) /\ part_of u t).
  { destruct H as [H|[H|[H|[H|(ct & E & H)]]]];
      [exists (hc_header c)|exists (hc_record c)|exists (hc_sstat c)|exists (hc_tstat c)|exists ct];
      (split; [|exact H]); unfold class_types; try rewrite E; cbn [app In]; tauto. }
  destruct K as (t & Ht & Hp). eapply fine_part; [exact Hp|]. exact (proj1 (class_fine c t Hc Ht)).
Qed.

(** The call, for any way to make it: what it returns is new, and nothing else has changed. *)
Definition makes (w : world) (r : er value) (m : res json) : Prop :=
  exists j v w', m = Ok j /\ r = EOk v w' /\ same w w' /\ json_val j w' (next w) (next w') v.

Lemma src_dict_obj n w v o : is_obj w v o -> fine (o_type o) -> is_struct (o_type o) = true -> (max_depth <= n)%nat ->
  makes w (f_call (CN n) U "struct_to_dict" [v] [] w) (struct_to_dict o).
Proof.
  intros (blk & off & m & -> & Hm & Ho & Hs & Hb & _) (A & B & C & D) Ht Hn.
  destruct (src_dict n (o_type o) A B C Ht ltac:(lia) w (VView (o_type o) blk off) blk off m)
    as (j & v & w' & E1 & E2 & E3 & E4).
  { split; [left; reflexivity|]. auto. }
  exists j, v, w'. split; [|auto]. unfold struct_to_dict. rewrite Hb. exact E1.
Qed.

Lemma src_dict_hdr n w v h : is_hdr w v h -> (max_depth <= n)%nat ->
  makes w (f_call (CN n) U "struct_to_dict" [v] [] w) (struct_to_dict (h_obj h)).
Proof.
  intros (id & blk & attrs & -> & Hc & Hm & Hv & Hl & Ha) Hn.
  destruct (class_fine (h_class h) (hc_header (h_class h)) Hv) as ((A & B & C & D) & Ht). { left. reflexivity. }
  destruct (src_dict n _ A B C Ht ltac:(lia) w (VHdr id) blk 0 (h_buf h)) as (j & v & w' & E1 & E2 & E3 & E4).
  { split; [|split; [exact Hm|split; [lia|]]].
    - right. exists id, (h_class h), attrs. split; [reflexivity|]. split; [exact Hc|]. split; [reflexivity|].
      split; [reflexivity|]. destruct Ha as [-> | ->]; [split; reflexivity|].
      unfold cache_attrs. destruct (getint (h_obj (mkHdr (h_class h) (h_buf h))) "aversion"); split; reflexivity.
    - rewrite (header_class_size (h_class h) Hv). lia. }
  exists j, v, w'. split; [|auto]. unfold struct_to_dict. cbn [h_obj o_type o_buf].
  rewrite (header_class_size (h_class h) Hv) in E1. rewrite <- E1. f_equal. symmetry. 
  unfold sub_bytes. rewrite zdrop_0 by lia. apply ztake_all. lia.
Qed.

(** ** CGChainer objects (structs/atop_2_11.py:655-658 gives their [_fields_]) *)

Lemma chainer_limiters F w id attrs : cell_at w id = Some (CObj attrs) -> assoc "fields_limiters" attrs = None ->
  GA F (VObj id) "fields_limiters" w = EErr (XB (AttributeError "fields_limiters")) w.
Proof. intros H K. cbn [get_attr]. rewrite H, K. reflexivity. Qed.

Lemma block_nil ex l w : exec_block ex [] l w = TDone ONext l w.
Proof. reflexivity. Qed.
Lemma obj_attr F w id attrs a x : cell_at w id = Some (CObj attrs) -> assoc a attrs = Some x ->
  GA F (VObj id) a w = EOk x w.
Proof. intros H K. cbn [get_attr]. rewrite H, K. reflexivity. Qed.
Lemma obj_fields F w id attrs : cell_at w id = Some (CObj attrs) -> assoc "_fields_" attrs = None ->
  GA F (VObj id) "_fields_" w = EOk chainer_fields w.
Proof. intros H K. cbn [get_attr]. rewrite H, K. reflexivity. Qed.

Lemma src_array_obj n id attrs d nm e cnt blk fo m en w dd :
  cell_at w id = Some (CObj attrs) -> assoc "fields_limiters" attrs = None ->
  is_struct e = false -> wf_type (TArr e cnt) = true ->
  0 <= fo -> fo + sizeof (TArr e cnt) <= zlen m -> mem w blk = Some m ->
  senv (VObj id) d en -> assoc "field_name" en = Some (VStr nm) ->
  assoc "field_data" en = Some (VView (TArr e cnt) blk fo) -> cell_at w d = Some (CDict dd) ->
  exists en' w' v,
    exec_block (EX (CN n) U None) array_part en w = TDone ONext en' w' /\
    senv (VObj id) d en' /\ samex d w w' /\ cell_at w' d = Some (CDict (dict_set dd nm v)) /\
    json_val (JList (map (elem_json e) (chunks (Z.to_nat cnt) (sizeof e) (sub_bytes fo (sizeof (TArr e cnt)) m))))
             w' (next w) (next w') v.
Proof.
  intros Hid Hat Hes Hwa Hfo Hfl Hm He En Ed Hd.
  set (li := next w). set (w1 := push (CList []) w). set (dd1 := dict_set dd nm (VList li)).
  set (w2 := upd d (CDict dd1) w1). set (w3 := push (CDict []) w2).
  assert (Hdlt : (d < li)%nat) by (eapply cell_lt; exact Hd).
  assert (S1 : same w w1) by apply same_push.
  assert (Hd1 : cell_at w1 d = Some (CDict dd)) by (eapply same_cell; eassumption).
  assert (S2 : samex d w w2) by (eapply samex_trans; [apply same_samex, S1|apply samex_upd]).
  assert (S23 : same w2 w3) by apply same_push.
  assert (S3 : samex d w w3) by (eapply samex_trans; [exact S2|apply same_samex, S23]).
  assert (Hd2 : cell_at w2 d = Some (CDict dd1)) by (eapply cell_upd_eq; exact Hd1).
  assert (Hd3 : cell_at w3 d = Some (CDict dd1)) by (eapply same_cell; eassumption).
  assert (Hli1 : cell_at w1 li = Some (CList [])) by apply cell_push_new.
  assert (Hli2 : cell_at w2 li = Some (CList [])) by (unfold w2; rewrite cell_upd_neq by lia; exact Hli1).
  assert (Hli3 : cell_at w3 li = Some (CList [])) by (eapply same_cell; eassumption).
  assert (Hdd1 : assoc nm dd1 = Some (VList li)) by (unfold dd1; rewrite assoc_set, String.eqb_refl; reflexivity).
  assert (Hblk : (blk < li)%nat) by (pose proof Hm as Hm'; apply mem_cell in Hm'; eapply cell_lt; exact Hm').
  assert (Hbd : blk <> d).
  { intros ->. pose proof Hm as Hm'. apply mem_cell in Hm'. congruence. }
  assert (Hidd : id <> d) by congruence.
  pose proof (samex_mem _ _ _ _ _ S3 Hm Hbd) as Hm3.
  pose proof (samex_cell _ _ _ _ _ S3 Hid Hidd) as Hid3.
  pose proof He as (E1 & E2 & E3 & E4 & E5 & E6 & E7).
  unfold array_part, field_body. cbn [nth fd_body u_struct_to_dict].
  erewrite block_next; cycle 1.
  { evx. rewrite alloc_eq. evx. rewrite (set_sub_dict _ _ _ _ _ Hd1). reflexivity. }
  fold w1 li dd1 w2.
  erewrite block_next; cycle 1.
  { evx. rewrite alloc_eq. fold w3. evx. unfold getattr_default. rewrite (chainer_limiters _ _ _ _ Hid3 Hat). evx. reflexivity. }
  erewrite block_next; cycle 1.
  { evx. cbn [call_method]. unfold w3 at 1. rewrite cell_push_new. evx. reflexivity. }
  erewrite block_next; cycle 1. { evx. reflexivity. }
  set (en1 := dict_set _ "limiter" _).
  assert (He1 : senv (VObj id) d en1) by (unfold en1; repeat (apply senv_set; [|reflexivity]); exact He).
  assert (En1 : assoc "field_name" en1 = Some (VStr nm)) by (unfold en1; rewrite !assoc_set; exact En).
  assert (Ed1 : assoc "field_data" en1 = Some (VView (TArr e cnt) blk fo)) by (unfold en1; rewrite !assoc_set; exact Ed).
  clearbody en1.
  pose proof (arr_elems blk m fo e cnt Hwa Hfo Hfl) as Hel.
  destruct (src_elems n e (VObj id) d li nm blk m ltac:(congruence) ltac:(lia) ltac:(lia) _ _ Hel en1 w3 dd1 [] []
              Hm3 He1 En1 Hd3 Hdd1 Hli3 (Forall2_nil _)) as (js & en' & w' & vs' & R1 & R2 & R3 & R4 & R5 & R6 & R7).
  assert (Ejs : map (elem_json e) (chunks (Z.to_nat cnt) (sizeof e) (sub_bytes fo (sizeof (TArr e cnt)) m)) = js).
  { revert R1. generalize (chunks (Z.to_nat cnt) (sizeof e) (sub_bytes fo (sizeof (TArr e cnt)) m)). clear - Hes.
    intros l. revert js. induction l as [|b l IH]; intros js; cbn [rmap map].
    - intros H. injection H as <-. reflexivity.
    - replace (elem_conv e b) with (Ok (elem_json e b)) by (destruct e; try discriminate Hes; reflexivity).
      cbn [rbind]. destruct (rmap (elem_conv e) l) as [r|]; cbn [rbind]; [|discriminate].
      intros H. injection H as <-. f_equal. apply IH. reflexivity. }
  rewrite Ejs.
  exists en', w', (VList li). split.
  { erewrite block_next; cycle 1.
    { evx. unfold elem_body, array_part, field_body in R2. cbn [nth fd_body u_struct_to_dict] in R2.
      cbn [accesses simple_accesses]. exact R2. }
    reflexivity. }
  split; [exact R3|].
  split; [eapply samex_new; [exact S3|exact R5|unfold li; lia]|].
  split; [eapply samex_cell; [exact R5|exact Hd3|lia]|].
  cbn [json_val app] in *. exists li, vs'. split; [reflexivity|].
  pose proof (cell_lt _ _ _ R6) as Hlt. split; [unfold li in *; lia|]. split; [exact R6|].
  apply all2_iff. eapply forall2_impl; [|exact R7]. cbn beta. intros j v. apply jin_wide; unfold li in *; lia.
Qed.

Lemma src_dict_chain n w v c e cnt : is_chain w v c -> fine (o_type (cg_cstat c)) -> is_struct (o_type (cg_cstat c)) = true ->
  o_type (cg_proclist c) = TArr e cnt -> is_struct e = false -> e <> TChar -> (max_depth <= n)%nat ->
  makes w (f_call (CN (S n)) U "struct_to_dict" [v] [] w) (chainer_to_dict c).
Proof.
  intros (id & vc & vp & -> & Hid & Hvc & Hvp) Hfine Hst Hpl Hes Hec Hn.
  pose proof Hvc as (cblk & coff & cm & -> & Hcm & Hco & Hcs & Hcb & Hcw).
  set (attrs := [("cstat", VView (o_type (cg_cstat c)) cblk coff); ("proclist", vp)]) in *.
  set (d := next w). set (w1 := push (CDict []) w).
  assert (S1 : same w w1) by apply same_push.
  pose proof (same_cell _ _ _ _ S1 Hid) as Hid1.
  assert (Hd1 : cell_at w1 d = Some (CDict [])) by apply cell_push_new.
  assert (Hvc1 : is_obj w1 (VView (o_type (cg_cstat c)) cblk coff) (cg_cstat c)).
  { eapply is_obj_grows; [apply same_is_grows, S1|exact Hvc]. }
  destruct (src_dict_obj n w1 _ _ Hvc1 Hfine Hst Hn) as (j & vj & w2 & Ej & Ec & S12 & Hj).
  pose proof (same_cell _ _ _ _ S12 Hd1) as Hd2. pose proof (same_cell _ _ _ _ S12 Hid1) as Hid2.
  set (dd1 := dict_set [] "cstat" vj). set (w3 := upd d (CDict dd1) w2).
  assert (SX3 : samex d w2 w3) by apply samex_upd.
  assert (Hd3 : cell_at w3 d = Some (CDict dd1)) by (eapply cell_upd_eq; exact Hd2).
  assert (Hidd : id <> d) by (apply cell_lt in Hid; unfold d; lia).
  pose proof (samex_cell _ _ _ _ _ SX3 Hid2 Hidd) as Hid3.
  assert (G3 : grows w w3).
  { apply same_is_grows. eapply samex_same; [|exact SX3|unfold d; lia]. eapply same_trans; eassumption. }
  pose proof (is_obj_grows _ _ _ _ G3 Hvp) as (pblk & poff & pm & Evp & Hpm & Hpo & Hps & Hpb & Hpw).
  rewrite Hpl in Evp, Hps, Hpb, Hpw. subst vp.
  set (en0 := [("struct", VObj id); ("struct_dict", VDict d)]).
  set (en1 := [("struct", VObj id); ("struct_dict", VDict d);
               ("field", VTuple [VStr "cstat"; VCType a2_11_CStat]); ("field_name", VStr "cstat");
               ("field_data", VView (o_type (cg_cstat c)) cblk coff)]).
  set (en2 := [("struct", VObj id); ("struct_dict", VDict d);
               ("field", VTuple [VStr "proclist"; VClass "ctypes.Array[pid_t]"]); ("field_name", VStr "proclist");
               ("field_data", VView (TArr e cnt) pblk poff)]).
  destruct (src_array_obj n id attrs d "proclist" e cnt pblk poff pm en2 w3 dd1 Hid3 eq_refl Hes Hpw Hpo Hps Hpm)
    as (en' & w4 & v & X & P1 & P2 & P3 & P4).
  { repeat split. } { reflexivity. } { reflexivity. } { exact Hd3. }
  rewrite <- Hpb in P4. set (js := map (elem_json e) _) in P4.
  assert (S4 : same w w4).
  { eapply samex_same; [|exact P2|unfold d; lia]. eapply samex_same; [|exact SX3|unfold d; lia]. eapply same_trans; eassumption. }
  pose proof (cell_lt _ _ _ Hd3) as Hlt3.
  assert (Hn13 : (next w1 <= next w3)%nat) by (pose proof (same_next _ _ S12); unfold w3; rewrite next_upd; lia).
  assert (Hn34 : (next w3 <= next w4)%nat) by exact (proj1 P2).
  assert (Hd1n : (S d = next w1)%nat) by (unfold w1, d; rewrite next_push; reflexivity).
  exists (JDict [("cstat", j); ("proclist", JList js)]), (VDict d), w4.
  split. { unfold chainer_to_dict. rewrite Ej, Hpl. reflexivity. }
  split.
  { erewrite call_eq; [|reflexivity..]. unfold run_body. cbn [fd_body u_struct_to_dict].
    erewrite block_next; cycle 1. { ev. rewrite alloc_eq. fold d w1. ev. reflexivity. }
    erewrite block_next; cycle 1.
    { ev. rewrite (obj_fields _ _ _ _ Hid1 eq_refl). ev. cbn [accesses simple_accesses map exec_for chainer_fields].
      cbn [assign tseq dict_set String.eqb Ascii.eqb Bool.eqb].
      erewrite block_next; cycle 1. { ev. rewrite pair0. ev. reflexivity. }
      erewrite block_next; cycle 1. { ev. rewrite (obj_attr _ _ _ _ "cstat" _ Hid1 eq_refl). ev. reflexivity. }
      erewrite block_next; cycle 1.
      { ev. rewrite isinst_struct. destruct (o_type (cg_cstat c)) eqn:Eo; try discriminate Hst. rewrite <- Eo in *. ev.
        erewrite block_next; cycle 1.
        { ev. change "atoparser.utils" with U. rewrite Ec. ev. rewrite (set_sub_dict _ _ _ _ _ Hd2). fold dd1 w3. reflexivity. }
        cbn [exec_block]. reflexivity. }
      rewrite block_nil. cbn [tseq assign dict_set String.eqb Ascii.eqb Bool.eqb].
      erewrite block_next; cycle 1. { ev. rewrite pair0. ev. reflexivity. }
      erewrite block_next; cycle 1. { ev. rewrite (obj_attr _ _ _ _ "proclist" _ Hid3 eq_refl). ev. reflexivity. }
      fold en2.
      erewrite block_next; cycle 1.
      { unfold en2 at 1. ev. rewrite isinst_struct. ev. erewrite block_next; cycle 1.
        { ev. cbn [member]. change (str_contains "future" "proclist") with false. ev. erewrite block_next; cycle 1.
          { ev. rewrite isinst_array. ev. unfold array_part, field_body in X. cbn [nth fd_body u_struct_to_dict] in X. exact X. }
          reflexivity. }
        reflexivity. }
      reflexivity. }
    destruct P1 as (Q1 & Q2 & _). erewrite block_ret; cycle 1. { evx. reflexivity. } reflexivity. }
  split; [exact S4|].
  cbn [json_val]. exists d, (dict_set dd1 "proclist" v). split; [reflexivity|].
  pose proof (cell_lt _ _ _ P3) as Hlt4. split; [unfold d in *; lia|]. split; [exact P3|].
  unfold dd1. cbn [dict_set String.eqb Ascii.eqb Bool.eqb all2 fst snd].
  split; [|split; [|exact I]]; (split; [reflexivity|]).
  - apply (jin_wide _ _ (next w1) (next w2)); [unfold d in *; lia| |].
    { pose proof (same_next _ _ S12). unfold w3 in Hn34. rewrite next_upd in Hn34. lia. }
    assert (SX24 : samex d w2 w4) by (eapply samex_trans; eassumption).
    eapply jin_samex; [exact SX24|lia|lia|exact Hj].
  - apply (jin_wide _ _ (next w3) (next w4)); [unfold d in *; lia|lia|exact P4].
Qed.
End Src.
