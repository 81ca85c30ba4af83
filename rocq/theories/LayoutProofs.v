(** * Struct layout: general theorems over all struct types *)
From Coq Require Import List ZArith Lia Bool String.
From Coq Require Import Init.Byte.
From Coq Require Import ZifyBool.
From Verif Require Import PyBase CTypes Spec BaseProofs.
Import ListNotations.
Open Scope list_scope.
Open Scope Z_scope.

(** Induction over struct types. *)
Lemma ctype_rect' (P : ctype -> Prop) :
  (forall sg sz, P (TInt sg sz)) -> P TFloat -> P TChar ->
  (forall e n, P e -> P (TArr e n)) ->
  (forall name fs lims, Forall (fun f => P (snd f)) fs -> P (TStruct name fs lims)) ->
  forall t, P t.
Proof.
  intros HI HF HC HA HS. fix IH 1. intros [sg sz| | |e n|name fs lims].
  - apply HI.
  - exact HF.
  - exact HC.
  - apply HA, IH.
  - apply HS. induction fs as [|[n t] fs IHfs]; constructor; [apply IH|exact IHfs].
Qed.

(** Sensible types: C integer sizes, non-negative array lengths, unique field names. *)
Fixpoint nodup_str (l : list string) : bool :=
  match l with
  | [] => true
  | x :: r => negb (existsb (String.eqb x) r) && nodup_str r
  end.

Fixpoint wf_type (t : ctype) : bool :=
  match t with
  | TInt _ sz => (sz =? 1) || (sz =? 2) || (sz =? 4) || (sz =? 8)
  | TFloat | TChar => true
  | TArr e n => (0 <=? n) && wf_type e
  | TStruct _ fs _ => nodup_str (map fst fs) && forallb (fun f => wf_type (snd f)) fs
  end.

Lemma nodup_str_NoDup l : nodup_str l = true -> NoDup l.
Proof.
  induction l as [|x l IH]; cbn [nodup_str]; intros H; constructor.
  - apply andb_prop in H as [H _]. apply negb_true_iff in H.
    intros Hin. apply existsb_false with (x := x) in H; [|assumption]. rewrite String.eqb_refl in H. discriminate.
  - apply IH. apply andb_prop in H. tauto.
Qed.

Lemma wf_struct name fs lims : wf_type (TStruct name fs lims) = true ->
  NoDup (map fst fs) /\ forall n t, In (n, t) fs -> wf_type t = true.
Proof.
  cbn [wf_type]. intros H. apply andb_prop in H as [H1 H2]. split; [apply nodup_str_NoDup, H1|].
  intros n t Hin. rewrite forallb_forall in H2. exact (H2 _ Hin).
Qed.

(** ** Alignment *)

Lemma align_up_spec off a : 0 < a ->
  off <= align_up off a < off + a /\ align_up off a mod a = 0.
Proof.
  intros Ha. unfold align_up. split.
  - pose proof (Z.div_mod (off + a - 1) a ltac:(lia)) as E. pose proof (Z.mod_pos_bound (off + a - 1) a Ha).
    rewrite (Z.mul_comm _ a). remember (a * ((off + a - 1) / a)) as q. lia.
  - apply Z.mod_mul. lia.
Qed.

Lemma align_up_unique off a x : 0 < a -> off <= x < off + a -> x mod a = 0 -> align_up off a = x.
Proof.
  intros Ha Hx Hm. pose proof (align_up_spec off a Ha) as [H1 H2].
  pose proof (Z.div_mod x a ltac:(lia)) as E1. pose proof (Z.div_mod (align_up off a) a ltac:(lia)) as E2.
  rewrite Hm in E1. rewrite H2 in E2. remember (x / a) as p. remember (align_up off a / a) as q.
  assert (p = q) by nia. subst p. lia.
Qed.

Lemma c_align_alignof t : c_align t = alignof t.
Proof. reflexivity. Qed.

Lemma fold_align_pos fs : 1 <= fold_right (fun (f : string * ctype) m => Z.max (alignof (snd f)) m) 1 fs.
Proof. induction fs as [|f fs IH]; cbn [fold_right]; lia. Qed.

Lemma alignof_pos t : wf_type t = true -> 0 < alignof t.
Proof.
  induction t as [sg sz| | |e n IH|name fs lims IH] using ctype_rect'; cbn [wf_type alignof]; intros H.
  - lia.
  - lia.
  - lia.
  - apply IH. apply andb_prop in H. tauto.
  - pose proof (fold_align_pos fs). lia.
Qed.

(** End offset of the last field, before trailing padding. *)
Definition fields_end (off : Z) (fs : list (string * ctype)) : Z :=
  fold_left (fun off f => align_up off (alignof (snd f)) + sizeof (snd f)) fs off.

Lemma fields_end_cons off f fs :
  fields_end off (f :: fs) = fields_end (align_up off (alignof (snd f)) + sizeof (snd f)) fs.
Proof. reflexivity. Qed.

Lemma sizeof_struct name fs lims :
  sizeof (TStruct name fs lims) = align_up (fields_end 0 fs) (alignof (TStruct name fs lims)).
Proof. reflexivity. Qed.

Lemma fields_end_ge off fs :
  (forall n t, In (n, t) fs -> 0 <= sizeof t /\ 0 < alignof t) -> off <= fields_end off fs.
Proof.
  revert off. induction fs as [|[n t] fs IH]; intros off H; [cbn; lia|].
  rewrite fields_end_cons. cbn [snd].
  pose proof (H n t ltac:(left; reflexivity)) as [Hs Ha].
  pose proof (align_up_spec off (alignof t) Ha) as [Hu _].
  specialize (IH (align_up off (alignof t) + sizeof t)).
  assert (forall n t, In (n, t) fs -> 0 <= sizeof t /\ 0 < alignof t) as H' by (intros; apply (H n0); right; assumption).
  specialize (IH H'). lia.
Qed.

Lemma sizeof_nonneg t : wf_type t = true -> 0 <= sizeof t.
Proof.
  induction t as [sg sz| | |e n IH|name fs lims IH] using ctype_rect'; intros H.
  - cbn [wf_type sizeof] in *. lia.
  - cbn; lia.
  - cbn; lia.
  - cbn [wf_type sizeof] in *. apply andb_prop in H as [H1 H2]. specialize (IH H2). nia.
  - rewrite sizeof_struct. pose proof (alignof_pos _ H) as Ha.
    pose proof (align_up_spec (fields_end 0 fs) _ Ha) as [Hu _].
    pose proof (wf_struct _ _ _ H) as [_ Hw].
    assert (0 <= fields_end 0 fs); [|lia].
    apply fields_end_ge. intros n t Hin. rewrite Forall_forall in IH. split.
    + apply (IH (n, t) Hin). eauto.
    + apply alignof_pos. eauto.
Qed.

(** ** Field offsets *)

Lemma layout_names off fs : map fst (layout_from off fs) = map fst fs.
Proof.
  revert off. induction fs as [|[n t] fs IH]; intros off; cbn [layout_from map fst]; [reflexivity|].
  f_equal. apply IH.
Qed.

Lemma layout_types off fs : map (fun x => (fst x, snd (snd x))) (layout_from off fs) = fs.
Proof.
  revert off. induction fs as [|[n t] fs IH]; intros off; cbn [layout_from map fst snd]; [reflexivity|].
  f_equal. apply IH.
Qed.

Lemma assoc_none {V} k (d : list (string * V)) : ~ In k (map fst d) -> assoc k d = None.
Proof.
  induction d as [|[k' v] d IH]; cbn [assoc map fst In]; intros H; [reflexivity|].
  destruct (String.eqb_spec k k') as [->|Hne]; [tauto|]. apply IH. tauto.
Qed.

Lemma assoc_in {V} k (v : V) d : NoDup (map fst d) -> In (k, v) d -> assoc k d = Some v.
Proof.
  induction d as [|[k' v'] d IH]; cbn [assoc map fst In]; intros Hn Hin; [tauto|].
  inversion Hn as [|? ? Hk Hn']; subst.
  destruct Hin as [E|Hin].
  - injection E as -> ->. rewrite String.eqb_refl. reflexivity.
  - destruct (String.eqb_spec k k') as [->|Hne]; [|auto].
    exfalso. apply Hk. apply in_map_iff. exists (k', v). auto.
Qed.

Lemma assoc_some_in {V} k (v : V) d : assoc k d = Some v -> In (k, v) d.
Proof.
  induction d as [|[k' v'] d IH]; cbn [assoc]; intros H; [discriminate|].
  destruct (String.eqb_spec k k') as [->|Hne].
  - injection H as ->. left. reflexivity.
  - right. auto.
Qed.

Lemma field_at_in t n off ft :
  NoDup (map fst (struct_fields t)) -> In (n, (off, ft)) (layout t) -> field_at t n = Some (off, ft).
Proof.
  intros Hn Hin. unfold field_at. apply assoc_in.
  - rewrite map_rev. apply NoDup_rev. unfold layout. rewrite layout_names. exact Hn.
  - rewrite <- in_rev. exact Hin.
Qed.

Lemma field_at_layout t n off ft : field_at t n = Some (off, ft) -> In (n, (off, ft)) (layout t).
Proof. unfold field_at. intros H. apply assoc_some_in in H. rewrite <- in_rev in H. exact H. Qed.

(** Every field lies within the struct, aligned. *)
Lemma layout_bounds off fs n o t :
  (forall n t, In (n, t) fs -> 0 <= sizeof t /\ 0 < alignof t) ->
  In (n, (o, t)) (layout_from off fs) ->
  off <= o /\ o mod alignof t = 0 /\ o + sizeof t <= fields_end off fs.
Proof.
  revert off. induction fs as [|[n' t'] fs IH]; intros off H Hin; [destruct Hin|].
  cbn [layout_from] in Hin. rewrite fields_end_cons. cbn [snd].
  pose proof (H n' t' ltac:(left; reflexivity)) as [Hs Ha].
  pose proof (align_up_spec off (alignof t') Ha) as [Hu Hm].
  assert (forall n t, In (n, t) fs -> 0 <= sizeof t /\ 0 < alignof t) as H' by (intros ? ? ?; eapply H; right; eassumption).
  destruct Hin as [E|Hin].
  - injection E as -> <- ->. pose proof (fields_end_ge (align_up off (alignof t) + sizeof t) fs H'). repeat split; lia.
  - specialize (IH _ H' Hin). destruct IH as (I1 & I2 & I3). repeat split; lia.
Qed.

Lemma wf_fields_pos name fs lims : wf_type (TStruct name fs lims) = true ->
  forall n t, In (n, t) fs -> 0 <= sizeof t /\ 0 < alignof t.
Proof.
  intros H n t Hin. apply wf_struct in H as [_ H]. specialize (H _ _ Hin).
  split; [apply sizeof_nonneg|apply alignof_pos]; exact H.
Qed.

Lemma field_in_struct t n o ft : wf_type t = true -> In (n, (o, ft)) (layout t) ->
  0 <= o /\ o mod alignof ft = 0 /\ o + sizeof ft <= sizeof t /\ wf_type ft = true /\ 0 <= sizeof ft.
Proof.
  intros Hw Hin. destruct t as [| | |e k|name fs lims]; try (destruct Hin; fail).
  unfold layout in Hin. cbn [struct_fields] in Hin.
  pose proof (wf_fields_pos _ _ _ Hw) as Hp.
  pose proof (layout_bounds 0 fs n o ft Hp Hin) as (H1 & H2 & H3).
  assert (In (n, ft) fs) as Hf.
  { rewrite <- (layout_types 0 fs). apply in_map_iff. exists (n, (o, ft)). auto. }
  pose proof (Hp _ _ Hf). rewrite sizeof_struct.
  pose proof (align_up_spec (fields_end 0 fs) _ (alignof_pos _ Hw)).
  apply wf_struct in Hw as [_ Hw]. specialize (Hw _ _ Hf).
  repeat split; try assumption; try lia.
Qed.

(** Fields do not overlap: each ends before the next begins. *)
Lemma layout_ordered off fs a b x y :
  (forall n t, In (n, t) fs -> 0 <= sizeof t /\ 0 < alignof t) ->
  layout_from off fs = a ++ x :: y :: b ->
  fst (snd x) + sizeof (snd (snd x)) <= fst (snd y) < fst (snd x) + sizeof (snd (snd x)) + alignof (snd (snd y)).
Proof.
  revert off a. induction fs as [|[n t] fs IH]; intros off a H E.
  - destruct a; discriminate.
  - cbn [layout_from] in E.
    assert (forall n t, In (n, t) fs -> 0 <= sizeof t /\ 0 < alignof t) as H' by (intros ? ? ?; eapply H; right; eassumption).
    destruct a as [|p a].
    + cbn [app] in E. destruct fs as [|[n2 t2] fs]; [discriminate|]. cbn [layout_from] in E.
      injection E as <- <- _. cbn [fst snd].
      pose proof (H n2 t2 ltac:(right; left; reflexivity)) as [_ Ha].
      pose proof (align_up_spec (align_up off (alignof t) + sizeof t) (alignof t2) Ha). lia.
    + cbn [app] in E. injection E as _ E. exact (IH _ _ H' E).
Qed.

(** ** getattr, statically resolved *)

Lemma getattr_field t b n off ft : field_at t n = Some (off, ft) ->
  getattr (mkObj t b) n = Ok (fetch ft (sub_bytes off (sizeof ft) b)).
Proof. intros H. unfold getattr. cbn [o_type o_buf]. rewrite H. reflexivity. Qed.

Definition int_at (sg : bool) (sz off : Z) (b : list byte) : Z := int_value sg sz (sub_bytes off sz b).

Lemma getint_field t b n off sg sz : field_at t n = Some (off, TInt sg sz) ->
  getint (mkObj t b) n = Ok (int_at sg sz off b).
Proof. intros H. unfold getint. rewrite (getattr_field _ _ _ _ _ H). reflexivity. Qed.

Lemma int_at_u16 off b : 0 <= off -> int_at false 2 off b = u16_at b off.
Proof. intros. unfold int_at, int_value. apply le_uint_sub_2. assumption. Qed.
Lemma int_at_u32 off b : 0 <= off -> int_at false 4 off b = u32_at b off.
Proof. intros. unfold int_at, int_value. apply le_uint_sub_4. assumption. Qed.
Lemma int_at_i32 off b : 0 <= off -> int_at true 4 off b = i32_at b off.
Proof.
  intros. unfold int_at, int_value, to_signed, i32_at. rewrite le_uint_sub_4 by assumption. reflexivity.
Qed.
Lemma int_at_i64 off b : 0 <= off -> int_at true 8 off b = i64_at b off.
Proof.
  intros. unfold int_at, int_value, to_signed, i64_at. rewrite le_uint_sub_8 by assumption. reflexivity.
Qed.

(** ** Integer ranges *)

Lemma pow256 n : 0 <= n -> 256 ^ n = 2 ^ (8 * n).
Proof. intros. rewrite Z.pow_mul_r by lia. reflexivity. Qed.

Lemma int_value_range sg sz b : 1 <= sz -> zlen b <= sz -> in_range sg sz (int_value sg sz b).
Proof.
  intros Hs Hb. pose proof (le_uint_range b) as H.
  assert (256 ^ zlen b <= 256 ^ sz) by (apply Z.pow_le_mono_r; lia).
  rewrite (pow256 sz) in * by lia.
  assert (2 ^ (8 * sz) = 2 * 2 ^ (8 * sz - 1)).
  { rewrite <- Z.pow_succ_r by lia. f_equal. lia. }
  unfold int_value, in_range, to_signed. destruct sg; [|lia].
  destruct (_ <? _) eqn:E; lia.
Qed.

(** Little-endian image of an unsigned number. *)
Fixpoint le_image (n : nat) (u : Z) : list byte :=
  match n with O => [] | S k => byte_of_Z (u mod 256) :: le_image k (u / 256) end.

Lemma le_image_len n u : zlen (le_image n u) = Z.of_nat n.
Proof.
  revert u. induction n as [|n IH]; intros u; cbn [le_image]; [reflexivity|]. rewrite zlen_cons, IH. lia.
Qed.

Lemma le_uint_image n u : 0 <= u < 256 ^ Z.of_nat n -> le_uint (le_image n u) = u.
Proof.
  revert u. induction n as [|n IH]; intros u H; cbn [le_image le_uint].
  - change (256 ^ Z.of_nat 0) with 1 in H. lia.
  - rewrite Nat2Z.inj_succ, Z.pow_succ_r in H by lia.
    rewrite bval_byte_of_Z by (apply Z.mod_pos_bound; lia).
    rewrite IH.
    + pose proof (Z.div_mod u 256 ltac:(lia)). lia.
    + split; [apply Z.div_pos; lia|]. apply Z.div_lt_upper_bound; lia.
Qed.

(** Every value of the range has an image, and only one. *)
Lemma int_value_surj sg sz z : 1 <= sz -> in_range sg sz z ->
  exists b, zlen b = sz /\ int_value sg sz b = z.
Proof.
  intros Hs Hr. exists (le_image (Z.to_nat sz) (z mod 2 ^ (8 * sz))). split.
  - rewrite le_image_len. lia.
  - pose proof (Z.mod_pos_bound z (2 ^ (8 * sz)) ltac:(apply Z.pow_pos_nonneg; lia)).
    unfold int_value. rewrite le_uint_image by (rewrite Z2Nat.id, pow256; lia).
    assert (2 ^ (8 * sz) = 2 * 2 ^ (8 * sz - 1)).
    { rewrite <- Z.pow_succ_r by lia. f_equal. lia. }
    unfold in_range in Hr. destruct sg.
    + unfold to_signed. destruct (Z_lt_le_dec z 0).
      * assert (z mod 2 ^ (8 * sz) = z + 2 ^ (8 * sz)).
        { symmetry. apply (Z.mod_unique _ _ (-1)); lia. }
        destruct (_ <? _) eqn:E; lia.
      * rewrite Z.mod_small by lia. destruct (_ <? _) eqn:E; lia.
    + apply Z.mod_small. lia.
Qed.

Lemma int_value_inj sg sz a b : 1 <= sz -> zlen a = sz -> zlen b = sz ->
  int_value sg sz a = int_value sg sz b -> a = b.
Proof.
  intros Hs Ha Hb E. apply le_uint_inj; [congruence|].
  pose proof (le_uint_range a) as Ra. pose proof (le_uint_range b) as Rb.
  rewrite Ha, pow256 in Ra by lia. rewrite Hb, pow256 in Rb by lia.
  assert (2 ^ (8 * sz) = 2 * 2 ^ (8 * sz - 1)).
  { rewrite <- Z.pow_succ_r by lia. f_equal. lia. }
  unfold int_value, to_signed in E. destruct sg; [|exact E].
  destruct (Z.ltb_spec (le_uint a) (2 ^ (8 * sz - 1)));
    destruct (Z.ltb_spec (le_uint b) (2 ^ (8 * sz - 1))); lia.
Qed.
