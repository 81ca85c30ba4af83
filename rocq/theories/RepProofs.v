(** * C values and their images: round trip through attribute access *)
From Coq Require Import List ZArith Lia Bool String.
From Coq Require Import Init.Byte.
From Coq Require Import ZifyBool.
From Verif Require Import PyBase CTypes Spec BaseProofs LayoutProofs.
Import ListNotations.
Open Scope list_scope.
Open Scope Z_scope.

Definition rep_fields (al : Z) : list (string * ctype) -> list (string * cval) -> Z -> list byte -> Prop :=
  fix go (fs : list (string * ctype)) (vs : list (string * cval)) (off : Z) (b : list byte)
     {struct fs} : Prop :=
     match fs, vs with
     | [], [] => zlen b < al /\ (off + zlen b) mod al = 0
     | (n, ft) :: fs', (n', v') :: vs' =>
         n = n' /\
         exists pad fb rest,
           b = pad ++ fb ++ rest /\
           zlen pad < c_align ft /\ (off + zlen pad) mod c_align ft = 0 /\
           rep ft v' fb /\ go fs' vs' (off + zlen pad + zlen fb) rest
     | _, _ => False
     end.

Lemma rep_struct name fs lims v b :
  rep (TStruct name fs lims) v b <->
  exists vs, v = VStruct vs /\ rep_fields (alignof (TStruct name fs lims)) fs vs 0 b.
Proof. reflexivity. Qed.

(** Arrays other than character arrays. *)
Definition is_char (e : ctype) : bool := match e with TChar => true | _ => false end.

Lemma rep_array e n v b : is_char e = false ->
  rep (TArr e n) v b <->
  exists vs bs, v = VArr vs /\ zlen vs = n /\ b = List.concat bs /\ Forall2 (rep e) vs bs.
Proof. destruct e; intros H; try discriminate; reflexivity. Qed.

Lemma rep_chars n v b :
  rep (TArr TChar n) v b <-> exists s, v = VStr s /\ zlen b = n /\ c_string s b.
Proof. reflexivity. Qed.

Lemma zlen_concat (bs : list (list byte)) sz :
  Forall (fun b => zlen b = sz) bs -> zlen (List.concat bs) = sz * zlen bs.
Proof.
  induction 1 as [|b bs Hb _ IH]; cbn [List.concat].
  - change (0 = sz * 0). lia.
  - rewrite zlen_app, zlen_cons, IH, Hb. lia.
Qed.

Lemma Forall2_zlen {A B} (R : A -> B -> Prop) l m : Forall2 R l m -> zlen l = zlen m.
Proof. induction 1 as [|a b l m _ _ IH]; [reflexivity|]. rewrite !zlen_cons. lia. Qed.

(** An image has the size of its type. *)
Lemma rep_fields_size al fs :
  0 < al ->
  Forall (fun f => forall v b, wf_type (snd f) = true -> rep (snd f) v b -> zlen b = sizeof (snd f)) fs ->
  (forall n t, In (n, t) fs -> wf_type t = true) ->
  forall vs off b, rep_fields al fs vs off b -> align_up (fields_end off fs) al = off + zlen b.
Proof.
  intros Hal IH. induction IH as [|[n ft] fs Hf _ IHfs]; intros Hw vs off b H.
  - destruct vs; [|destruct H]. destruct H as [H1 H2]. cbn [fields_end fold_left].
    apply align_up_unique; [lia| |exact H2]. pose proof (zlen_nonneg b). lia.
  - destruct vs as [|[n' v'] vs]; [destruct H|].
    destruct H as (-> & pad & fb & rest & -> & H1 & H2 & H3 & H4).
    rewrite fields_end_cons. cbn [snd] in *.
    assert (wf_type ft = true) as Hft by (apply (Hw n'); left; reflexivity).
    specialize (Hf _ _ Hft H3).
    assert (align_up off (alignof ft) = off + zlen pad) as Ea.
    { apply align_up_unique; [apply alignof_pos, Hft| |exact H2].
      rewrite c_align_alignof in H1. pose proof (zlen_nonneg pad). lia. }
    rewrite Ea, <- Hf. rewrite (IHfs ltac:(intros; eapply Hw; right; eassumption) _ _ _ H4).
    rewrite !zlen_app. lia.
Qed.

Lemma rep_size t : forall v b, wf_type t = true -> rep t v b -> zlen b = sizeof t.
Proof.
  induction t as [sg sz| | |e n IH|name fs lims IH] using ctype_rect'; intros v b Hw H.
  - destruct H as (z & _ & _ & H & _). exact H.
  - destruct H as (x & _ & H & _). exact H.
  - destruct H as (c & _ & ->). reflexivity.
  - destruct (is_char e) eqn:Ec.
    + destruct e; try discriminate. destruct H as (s & _ & H & _). cbn [sizeof]. lia.
    + apply rep_array in H; [|exact Ec]. destruct H as (vs & bs & -> & Hn & -> & H2).
      cbn [wf_type] in Hw. apply andb_prop in Hw as [_ Hw].
      rewrite (zlen_concat bs (sizeof e)).
      * cbn [sizeof]. rewrite <- Hn. f_equal. symmetry. eapply Forall2_zlen. exact H2.
      * clear Hn. induction H2 as [|v b vs bs Hvb _ IH2]; constructor; eauto.
  - apply rep_struct in H. destruct H as (vs & -> & H).
    rewrite sizeof_struct.
    rewrite (rep_fields_size _ fs (alignof_pos _ Hw) IH (proj2 (wf_struct _ _ _ Hw)) _ _ _ H). lia.
Qed.

(** ** Integers *)

Lemma at8_cons_0 x b : at8 (x :: b) 0 = bval x.
Proof. reflexivity. Qed.
Lemma at8_cons_S x b i : 0 <= i -> at8 (x :: b) (1 + i) = at8 b i.
Proof. intros. unfold at8. replace (Z.to_nat (1 + i)) with (S (Z.to_nat i)) by lia. reflexivity. Qed.

Lemma le_uint_digits b z :
  (forall i, 0 <= i < zlen b -> at8 b i = z / 256 ^ i mod 256) -> le_uint b = z mod 256 ^ zlen b.
Proof.
  revert z. induction b as [|x b IH]; intros z H.
  - cbn [le_uint]. change (256 ^ zlen []) with 1. rewrite Z.mod_1_r. reflexivity.
  - cbn [le_uint]. rewrite zlen_cons in *. pose proof (zlen_nonneg b).
    rewrite (IH (z / 256)).
    + specialize (H 0 ltac:(lia)). rewrite at8_cons_0 in H. change (256 ^ 0) with 1 in H.
      rewrite Z.div_1_r in H. rewrite H.
      rewrite Z.pow_add_r by lia. change (256 ^ 1) with 256.
      rewrite Z.rem_mul_r by (try lia; apply Z.pow_pos_nonneg; lia). lia.
    + intros i Hi. specialize (H (1 + i) ltac:(lia)). rewrite at8_cons_S in H by lia.
      rewrite H, Z.pow_add_r by lia. change (256 ^ 1) with 256.
      rewrite Z.div_div by (try lia; apply Z.pow_pos_nonneg; lia). reflexivity.
Qed.

Lemma rep_int_value sg sz z b : wf_type (TInt sg sz) = true ->
  in_range sg sz z -> zlen b = sz ->
  (forall i, 0 <= i < sz -> at8 b i = z / 256 ^ i mod 256) -> int_value sg sz b = z.
Proof.
  intros Hw Hr Hl H. cbn [wf_type] in Hw. rewrite <- Hl in H. apply le_uint_digits in H.
  rewrite Hl, pow256 in H by lia.
  unfold int_value. rewrite H.
  assert (2 ^ (8 * sz) = 2 * 2 ^ (8 * sz - 1)).
  { rewrite <- Z.pow_succ_r by lia. f_equal. lia. }
  unfold in_range in Hr. destruct sg.
  - unfold to_signed. destruct (Z_lt_le_dec z 0).
    + assert (z mod 2 ^ (8 * sz) = z + 2 ^ (8 * sz)).
      { symmetry. apply (Z.mod_unique _ _ (-1)); lia. }
      destruct (Z.ltb_spec (z mod 2 ^ (8 * sz)) (2 ^ (8 * sz - 1))); lia.
    + rewrite Z.mod_small by lia. destruct (Z.ltb_spec z (2 ^ (8 * sz - 1))); lia.
  - apply Z.mod_small. lia.
Qed.

Lemma le_uint_digit b i : 0 <= i < zlen b -> at8 b i = le_uint b / 256 ^ i mod 256.
Proof.
  revert i. induction b as [|x b IH]; intros i Hi.
  - change (zlen []) with 0 in Hi. lia.
  - rewrite zlen_cons in Hi. cbn [le_uint]. pose proof (bval_range x).
    destruct (Z.eq_dec i 0) as [->|Hne].
    + rewrite at8_cons_0. change (256 ^ 0) with 1. rewrite Z.div_1_r.
      rewrite (Z.mul_comm 256), Z.mod_add, Z.mod_small by lia. reflexivity.
    + replace i with (1 + (i - 1)) by lia. rewrite at8_cons_S, IH by lia.
      rewrite Z.pow_add_r by lia. change (256 ^ 1) with 256.
      rewrite <- Z.div_div by (try lia; apply Z.pow_pos_nonneg; lia).
      rewrite (Z.mul_comm 256 (le_uint b)), Z.div_add, (Z.div_small (bval x)) by lia. reflexivity.
Qed.

(** ** Strings *)

Lemma until_nul_c_string b : c_string (until_nul b) b.
Proof.
  induction b as [|x b [IH1 IH2]]; cbn [until_nul].
  - split; [auto|left; reflexivity].
  - destruct (Byte.eqb x x00) eqn:E.
    + apply Byte.byte_dec_bl in E. subst x. split; [auto|right; exists b; reflexivity].
    + split.
      * intros [->|H]; [discriminate|auto].
      * destruct IH2 as [H|[r H]]; [left; congruence|right]. exists r. cbn [app]. congruence.
Qed.

Lemma c_string_until_nul s b : c_string s b -> until_nul b = s.
Proof.
  intros [Hs H]. assert (forall r, (r = [] \/ exists q, r = x00 :: q) -> until_nul (s ++ r) = s) as G.
  { clear H. intros r Hr. induction s as [|x s IH]; cbn [app until_nul].
    - destruct Hr as [->|[q ->]]; reflexivity.
    - destruct (Byte.eqb x x00) eqn:E.
      + apply Byte.byte_dec_bl in E. subst x. exfalso. apply Hs. left. reflexivity.
      + f_equal. apply IH. intros Hin. apply Hs. right. exact Hin. }
  destruct H as [->|[q ->]].
  - rewrite <- (app_nil_r s) at 1. apply G. left. reflexivity.
  - apply G. right. eauto.
Qed.

(** ** The main round trip *)

Lemma chunks_concat bs sz :
  Forall (fun b => zlen b = sz) bs -> chunks (List.length bs) sz (List.concat bs) = bs.
Proof.
  induction 1 as [|b bs Hb _ IH]; cbn [chunks List.length List.concat]; [reflexivity|].
  rewrite ztake_exact, zdrop_exact, IH by assumption. reflexivity.
Qed.

(** Where the fields of an image are. *)
Lemma rep_fields_at al fs :
  (forall n t, In (n, t) fs -> wf_type t = true) ->
  forall vs pre b, rep_fields al fs vs (zlen pre) b ->
  Forall2 (fun l nv => fst l = fst nv /\
             rep (snd (snd l)) (snd nv)
                 (sub_bytes (fst (snd l)) (sizeof (snd (snd l))) (pre ++ b)))
          (layout_from (zlen pre) fs) vs.
Proof.
  induction fs as [|[n ft] fs IH]; intros Hw vs pre b H.
  - destruct vs; [constructor|destruct H].
  - destruct vs as [|[n' v'] vs]; [destruct H|].
    destruct H as (-> & pad & fb & rest & -> & H1 & H2 & H3 & H4).
    assert (wf_type ft = true) as Hft by (apply (Hw n'); left; reflexivity).
    pose proof (rep_size _ _ _ Hft H3) as Hs.
    assert (align_up (zlen pre) (alignof ft) = zlen pre + zlen pad) as Ea.
    { apply align_up_unique; [apply alignof_pos, Hft| |exact H2].
      rewrite c_align_alignof in H1. pose proof (zlen_nonneg pad). lia. }
    cbn [layout_from]. rewrite Ea, <- Hs. constructor.
    + cbn [fst snd]. split; [reflexivity|].
      rewrite app_assoc. rewrite sub_bytes_mid; [exact H3|apply zlen_app|congruence].
    + specialize (IH ltac:(intros; eapply Hw; right; eassumption) vs (pre ++ pad ++ fb) rest).
      rewrite !zlen_app in IH. rewrite !Z.add_assoc in IH. specialize (IH H4).
      rewrite <- !app_assoc in IH. exact IH.
Qed.

Definition shows_list : list cval -> list pyval -> Prop :=
  fix go (vs : list cval) (ps : list pyval) {struct vs} : Prop :=
    match vs, ps with
    | [], [] => True
    | v' :: vs', p' :: ps' => shows v' p' /\ go vs' ps'
    | _, _ => False
    end.

Definition shows_fields (o : cobj) : list (string * cval) -> Prop :=
  fix go (vs : list (string * cval)) {struct vs} : Prop :=
    match vs with
    | [] => True
    | (n, v') :: vs' => (exists q, getattr o n = Ok q /\ shows v' q) /\ go vs'
    end.

Lemma shows_fields_forall o vs :
  (forall n v, In (n, v) vs -> exists q, getattr o n = Ok q /\ shows v q) -> shows_fields o vs.
Proof.
  induction vs as [|[n v] vs IH]; intros H; cbn [shows_fields]; [exact I|].
  split; [apply H; left; reflexivity|apply IH; intros; apply H; right; assumption].
Qed.

Lemma Forall2_in_r' {A B} (R : A -> B -> Prop) l m x : Forall2 R l m -> In x l -> exists y, In y m /\ R x y.
Proof. induction 1 as [|a b l m H _ IH]; intros []; [subst; exists b; split; [left; reflexivity|exact H]|].
  destruct IH as (y & Hy & Hr); [assumption|]. exists y. split; [right; exact Hy|exact Hr]. Qed.

Lemma Forall2_in_r {A B} (R : A -> B -> Prop) l m y : Forall2 R l m -> In y m -> exists x, In x l /\ R x y.
Proof.
  induction 1 as [|a b l m Hab _ IH]; intros Hin; [destruct Hin|]. destruct Hin as [<-|Hin].
  - exists a. split; [left; reflexivity|exact Hab].
  - destruct (IH Hin) as (x & Hx & Hr). exists x. split; [right|]; assumption.
Qed.

Lemma rep_names al fs : forall vs off b, rep_fields al fs vs off b -> map fst fs = map fst vs.
Proof.
  induction fs as [|[n ft] fs IH]; intros [|[n' v'] vs] off b H; cbn [rep_fields] in H;
    try (destruct H; fail); [reflexivity|].
  destruct H as (-> & pad & fb & rest & -> & H1 & H2 & H3 & H4). cbn [map fst]. f_equal. eauto.
Qed.

Theorem rep_shows t : forall v b, wf_type t = true -> rep t v b -> shows v (fetch t b).
Proof.
  induction t as [sg sz| | |e n IH|name fs lims IH] using ctype_rect'; intros v b Hw H.
  - destruct H as (z & -> & H1 & H2 & H3). cbn [shows fetch]. f_equal.
    exact (rep_int_value sg sz z b Hw H1 H2 H3).
  - destruct H as (x & -> & H1 & H2). cbn [shows fetch]. f_equal.
    rewrite <- H2, <- le_uint_sub_4 by lia. f_equal.
    unfold sub_bytes. rewrite zdrop_0, ztake_all by lia. reflexivity.
  - destruct H as (c & -> & ->). reflexivity.
  - destruct (is_char e) eqn:Ec.
    + destruct e; try discriminate. destruct H as (s & -> & H1 & H2). cbn [shows fetch].
      f_equal. apply c_string_until_nul. exact H2.
    + apply rep_array in H; [|exact Ec]. destruct H as (vs & bs & -> & Hn & -> & H2).
      cbn [wf_type] in Hw. apply andb_prop in Hw as [_ Hw].
      exists (mkObj (TArr e n) (List.concat bs)). split; [destruct e; try discriminate; reflexivity|].
      change (shows_list vs (array_items (mkObj (TArr e n) (List.concat bs)))).
      unfold array_items. cbn [o_type o_buf].
      replace (Z.to_nat n) with (List.length bs).
      2:{ apply Forall2_zlen in H2. unfold zlen in *. lia. }
      rewrite chunks_concat.
      2:{ clear Hn. induction H2 as [|v b vs bs Hvb _ IH2]; constructor; [|exact IH2].
          eapply rep_size; eassumption. }
      clear Hn. induction H2 as [|v b vs bs Hvb _ IH2]; cbn [map shows_list]; [exact I|].
      split; [apply IH; assumption|exact IH2].
  - apply rep_struct in H. destruct H as (vs & -> & H).
    exists (mkObj (TStruct name fs lims) b). split; [reflexivity|]. split; [exact (rep_names _ _ _ _ _ H)|].
    change (shows_fields (mkObj (TStruct name fs lims) b) vs).
    pose proof (wf_struct _ _ _ Hw) as [Hnd Hwf].
    pose proof (rep_fields_at _ fs Hwf vs [] b H) as Hat. cbn [app] in Hat.
    apply shows_fields_forall. intros n v Hin.
    destruct (Forall2_in_r _ _ _ _ Hat Hin) as ([n' [o ft]] & Hl & E & Hr).
    cbn [fst snd] in E, Hr. subst n'.
    exists (fetch ft (sub_bytes o (sizeof ft) b)). split.
    + apply getattr_field. apply field_at_in; [exact Hnd|exact Hl].
    + assert (In (n, ft) fs) as Hf.
      { rewrite <- (layout_types 0 fs). apply in_map_iff. exists (n, (o, ft)). auto. }
      rewrite Forall_forall in IH. apply (IH (n, ft) Hf); [eapply Hwf; exact Hf|exact Hr].
Qed.

(** ** Every byte string of the right size is an image *)

Lemma zlen_chunks k sz b : zlen (chunks k sz b) = Z.of_nat k.
Proof. revert b. induction k as [|k IH]; intros b; cbn [chunks]; [reflexivity|]. rewrite zlen_cons, IH. lia. Qed.

Lemma chunks_sizes k sz b : 0 <= sz -> zlen b = sz * Z.of_nat k ->
  Forall (fun c => zlen c = sz) (chunks k sz b) /\ List.concat (chunks k sz b) = b.
Proof.
  intros Hs. revert b. induction k as [|k IH]; intros b Hb; cbn [chunks List.concat].
  - split; [constructor|]. symmetry. apply zlen_zero. lia.
  - destruct (IH (zdrop sz b)) as [I1 I2].
    { rewrite zlen_zdrop. nia. }
    rewrite I2, ztake_zdrop. split; [|reflexivity]. constructor; [|exact I1].
    rewrite zlen_ztake. nia.
Qed.

Lemma image_fields al fs :
  0 < al ->
  Forall (fun f => forall b, wf_type (snd f) = true -> zlen b = sizeof (snd f) -> exists v, rep (snd f) v b) fs ->
  (forall n t, In (n, t) fs -> wf_type t = true) ->
  forall off b, off + zlen b = align_up (fields_end off fs) al -> exists vs, rep_fields al fs vs off b.
Proof.
  intros Hal IH. induction IH as [|[n ft] fs Hf _ IHfs]; intros Hw off b Hb.
  - exists []. cbn [rep_fields fields_end fold_left] in *.
    pose proof (align_up_spec off al Hal). rewrite Hb. split; [lia|tauto].
  - rewrite fields_end_cons in Hb. cbn [snd] in *.
    assert (wf_type ft = true) as Hft by (apply (Hw n); left; reflexivity).
    pose proof (alignof_pos _ Hft) as Ha. pose proof (sizeof_nonneg _ Hft) as Hs.
    pose proof (align_up_spec off _ Ha) as [A1 A2].
    set (o := align_up off (alignof ft)) in *.
    assert (o + sizeof ft <= off + zlen b) as Hle.
    { assert (forall n t, In (n, t) fs -> 0 <= sizeof t /\ 0 < alignof t) as Hp.
      { intros n0 t0 Hin. assert (wf_type t0 = true) by (eapply Hw; right; exact Hin).
        split; [apply sizeof_nonneg|apply alignof_pos]; assumption. }
      pose proof (fields_end_ge (o + sizeof ft) fs Hp).
      pose proof (align_up_spec (fields_end (o + sizeof ft) fs) al Hal). lia. }
    destruct (Hf (sub_bytes (o - off) (sizeof ft) b) Hft) as [v Hv].
    { apply zlen_sub_bytes; lia. }
    destruct (IHfs ltac:(intros; eapply Hw; right; eassumption) (o + sizeof ft) (zdrop (o - off + sizeof ft) b)) as [vs Hvs].
    { rewrite zlen_zdrop. lia. }
    exists ((n, v) :: vs). cbn [rep_fields]. split; [reflexivity|].
    exists (ztake (o - off) b), (sub_bytes (o - off) (sizeof ft) b), (zdrop (o - off + sizeof ft) b).
    assert (zlen (ztake (o - off) b) = o - off) as Hp by (rewrite zlen_ztake; lia).
    assert (zlen (sub_bytes (o - off) (sizeof ft) b) = sizeof ft) as Hq by (apply zlen_sub_bytes; lia).
    rewrite Hp, Hq. rewrite c_align_alignof. repeat split.
    + unfold sub_bytes. rewrite <- zdrop_zdrop by lia. rewrite !ztake_zdrop. reflexivity.
    + lia.
    + replace (off + (o - off)) with o by lia. exact A2.
    + exact Hv.
    + replace (off + (o - off) + sizeof ft) with (o + sizeof ft) by lia. exact Hvs.
Qed.

Theorem image_total t : forall b, wf_type t = true -> zlen b = sizeof t -> exists v, rep t v b.
Proof.
  induction t as [sg sz| | |e n IH|name fs lims IH] using ctype_rect'; intros b Hw Hb.
  - exists (VInt (int_value sg sz b)). cbn [wf_type sizeof] in *. exists (int_value sg sz b).
    split; [reflexivity|]. split; [apply int_value_range; lia|]. split; [exact Hb|].
    intros i Hi. rewrite le_uint_digit by lia.
    unfold int_value, to_signed. destruct sg; [|reflexivity].
    destruct (_ <? _) eqn:E; [reflexivity|].
    assert (exists m, 2 ^ (8 * sz) = 256 ^ i * (256 * m)) as [m Hm].
    { exists (256 ^ (sz - i - 1)). rewrite <- pow256 by lia.
      rewrite <- (Z.pow_succ_r 256) by lia. rewrite <- Z.pow_add_r by lia. f_equal. lia. }
    rewrite Hm. replace (le_uint b - 256 ^ i * (256 * m)) with (le_uint b + (- (256 * m)) * 256 ^ i) by ring.
    rewrite Z.div_add by (apply Z.pow_nonzero; lia).
    replace (- (256 * m)) with ((- m) * 256) by ring. rewrite Z.mod_add by lia. reflexivity.
  - exists (VFloat (u32_at b 0)). exists (u32_at b 0). auto.
  - destruct b as [|c [|c' b]]; cbn [sizeof] in Hb; rewrite ?zlen_cons in Hb.
    + discriminate.
    + exists (VChar c). exists c. auto.
    + pose proof (zlen_nonneg b). lia.
  - destruct (is_char e) eqn:Ec.
    + destruct e; try discriminate. cbn [sizeof] in Hb.
      exists (VStr (until_nul b)). exists (until_nul b). split; [reflexivity|]. split; [lia|apply until_nul_c_string].
    + cbn [wf_type] in Hw. apply andb_prop in Hw as [Hn Hw]. cbn [sizeof] in Hb.
      pose proof (sizeof_nonneg _ Hw) as Hs.
      destruct (chunks_sizes (Z.to_nat n) (sizeof e) b Hs) as [C1 C2]; [lia|].
      assert (forall cs, Forall (fun c => zlen c = sizeof e) cs -> exists vs, Forall2 (rep e) vs cs) as G.
      { induction 1 as [|c cs Hc _ IHc]; [exists []; constructor|].
        destruct IHc as [vs Hvs]. destruct (IH c Hw Hc) as [v Hv]. exists (v :: vs). constructor; assumption. }
      destruct (G _ C1) as [vs Hvs].
      exists (VArr vs). apply rep_array; [exact Ec|]. exists vs, (chunks (Z.to_nat n) (sizeof e) b).
      split; [reflexivity|]. split; [|split; [symmetry; exact C2|exact Hvs]].
      rewrite (Forall2_zlen _ _ _ Hvs), zlen_chunks. lia.
  - destruct (image_fields (alignof (TStruct name fs lims)) fs (alignof_pos _ Hw) IH
                           (proj2 (wf_struct _ _ _ Hw)) 0 b) as [vs Hvs].
    { rewrite Hb. apply sizeof_struct. }
    exists (VStruct vs). apply rep_struct. exists vs. auto.
Qed.

(** ** Padding: the bytes that belong to some field *)

Definition data_fields (i : Z) : list (string * ctype) -> Z -> bool :=
  fix go (fs : list (string * ctype)) (off : Z) {struct fs} : bool :=
    match fs with
    | [] => false
    | (_, ft) :: fs' =>
        let o := align_up off (alignof ft) in
        ((o <=? i) && (i <? o + sizeof ft) && data_byte ft (i - o)) || go fs' (o + sizeof ft)
    end.

Lemma at8_sub b off n i : 0 <= off -> 0 <= i < n -> at8 (sub_bytes off n b) i = at8 b (off + i).
Proof.
  intros. unfold at8, sub_bytes, ztake, zdrop.
  replace (Z.to_nat (off + i)) with (Z.to_nat off + Z.to_nat i)%nat by lia.
  assert (Z.to_nat i < Z.to_nat n)%nat as Hlt by lia.
  generalize dependent (Z.to_nat i). intros j Hj. revert b.
  induction (Z.to_nat off) as [|o IHo]; intros b.
  - cbn [skipn Nat.add]. revert b j Hj. induction (Z.to_nat n) as [|m IHm]; intros b j Hj; [lia|].
    destruct b as [|x b]; cbn [firstn]; [reflexivity|]. destruct j as [|j]; cbn [nth]; [reflexivity|].
    apply IHm. lia.
  - destruct b as [|x b]; cbn [skipn Nat.add nth].
    + rewrite firstn_nil. destruct j; reflexivity.
    + apply IHo.
Qed.

Lemma at8_app_r b c i : zlen b <= i -> at8 (b ++ c) i = at8 c (i - zlen b).
Proof.
  intros. unfold at8. rewrite app_nth2 by (unfold zlen in *; lia). f_equal. f_equal. unfold zlen. lia.
Qed.

Lemma bytes_ext b c : zlen b = zlen c -> (forall i, 0 <= i < zlen b -> at8 b i = at8 c i) -> b = c.
Proof.
  revert c. induction b as [|x b IH]; intros [|y c] Hl H; rewrite ?zlen_cons in *.
  - reflexivity.
  - change (zlen []) with 0 in Hl. pose proof (zlen_nonneg c). lia.
  - change (zlen []) with 0 in Hl. pose proof (zlen_nonneg b). lia.
  - pose proof (zlen_nonneg b). f_equal.
    + apply bval_inj. specialize (H 0 ltac:(lia)). rewrite !at8_cons_0 in H. exact H.
    + apply IH; [lia|]. intros i Hi. specialize (H (1 + i) ltac:(lia)). rewrite !at8_cons_S in H by lia. exact H.
Qed.

(** Splitting a byte string of known total length. *)
Lemma split3 (c : list byte) p f r : 0 <= p -> 0 <= f -> 0 <= r -> zlen c = p + f + r ->
  c = ztake p c ++ sub_bytes p f c ++ zdrop (p + f) c /\
  zlen (ztake p c) = p /\ zlen (sub_bytes p f c) = f /\ zlen (zdrop (p + f) c) = r.
Proof.
  intros. repeat split.
  - unfold sub_bytes. rewrite <- zdrop_zdrop by lia. rewrite !ztake_zdrop. reflexivity.
  - rewrite zlen_ztake. lia.
  - apply zlen_sub_bytes; lia.
  - rewrite zlen_zdrop. lia.
Qed.

Lemma rep_fields_same al fs :
  Forall (fun f => forall v b c, wf_type (snd f) = true -> rep (snd f) v b -> same_data (snd f) b c -> rep (snd f) v c) fs ->
  (forall n t, In (n, t) fs -> wf_type t = true) ->
  forall vs off b c, rep_fields al fs vs off b -> zlen b = zlen c ->
  (forall i, 0 <= i < zlen b -> data_fields (off + i) fs off = true -> at8 b i = at8 c i) ->
  rep_fields al fs vs off c.
Proof.
  intros IH. induction IH as [|[n ft] fs Hf _ IHfs]; intros Hw vs off b c H Hl Hd.
  - destruct vs; [|destruct H]. cbn [rep_fields] in *. rewrite <- Hl. exact H.
  - destruct vs as [|[n' v'] vs]; [destruct H|].
    destruct H as (-> & pad & fb & rest & -> & H1 & H2 & H3 & H4).
    assert (wf_type ft = true) as Hft by (apply (Hw n'); left; reflexivity).
    pose proof (rep_size _ _ _ Hft H3) as Hs.
    assert (align_up off (alignof ft) = off + zlen pad) as Ea.
    { apply align_up_unique; [apply alignof_pos, Hft| |exact H2].
      rewrite c_align_alignof in H1. pose proof (zlen_nonneg pad). lia. }
    rewrite !zlen_app in Hl, Hd.
    pose proof (zlen_nonneg pad). pose proof (zlen_nonneg fb). pose proof (zlen_nonneg rest).
    destruct (split3 c (zlen pad) (zlen fb) (zlen rest)) as (E & L1 & L2 & L3); try lia.
    cbn [rep_fields]. split; [reflexivity|].
    exists (ztake (zlen pad) c), (sub_bytes (zlen pad) (zlen fb) c), (zdrop (zlen pad + zlen fb) c).
    rewrite L1, L2. split; [exact E|]. split; [exact H1|]. split; [exact H2|].
    cbn [data_fields snd] in Hd, Hf. rewrite Ea in Hd. split.
    + apply (Hf _ fb); [exact Hft|exact H3|]. split; [lia|].
      intros i Hi Hdi. rewrite at8_sub by lia.
      specialize (Hd (zlen pad + i) ltac:(lia)).
      rewrite at8_app_r, at8_app_l in Hd by lia.
      replace (zlen pad + i - zlen pad) with i in Hd by lia.
      apply Hd. apply orb_true_intro. left.
      replace (off + (zlen pad + i) - (off + zlen pad)) with i by lia. rewrite Hdi. lia.
    + eapply (IHfs ltac:(intros; eapply Hw; right; eassumption)); [exact H4|lia|].
      intros i Hi Hdi. specialize (Hd (zlen pad + zlen fb + i) ltac:(lia)).
      rewrite !at8_app_r in Hd by lia.
      replace (zlen pad + zlen fb + i - zlen pad - zlen fb) with i in Hd by lia.
      rewrite Hd.
      * rewrite E at 1. rewrite !at8_app_r by lia. f_equal. lia.
      * apply orb_true_intro. right.
        replace (off + (zlen pad + zlen fb + i)) with (off + zlen pad + zlen fb + i) by lia.
        rewrite <- Hs. exact Hdi.
Qed.

Theorem rep_same_data t : forall v b c,
  wf_type t = true -> rep t v b -> same_data t b c -> rep t v c.
Proof.
  induction t as [sg sz| | |e n IH|name fs lims IH] using ctype_rect'; intros v b c Hw H [Hl Hd].
  - assert (b = c) as <- by (apply bytes_ext; [exact Hl|intros; apply Hd; [assumption|reflexivity]]). exact H.
  - assert (b = c) as <- by (apply bytes_ext; [exact Hl|intros; apply Hd; [assumption|reflexivity]]). exact H.
  - assert (b = c) as <- by (apply bytes_ext; [exact Hl|intros; apply Hd; [assumption|reflexivity]]). exact H.
  - destruct (is_char e) eqn:Ec.
    + destruct e; try discriminate.
      assert (b = c) as <- by (apply bytes_ext; [exact Hl|intros; apply Hd; [assumption|reflexivity]]). exact H.
    + apply rep_array in H; [|exact Ec]. apply rep_array; [exact Ec|].
      destruct H as (vs & bs & -> & Hn & -> & H2). exists vs.
      cbn [wf_type] in Hw. apply andb_prop in Hw as [_ Hw]. pose proof (sizeof_nonneg _ Hw) as Hs.
      assert (Forall (fun b => zlen b = sizeof e) bs) as Hbs.
      { clear -H2 Hw. induction H2; constructor; [eapply rep_size; eassumption|assumption]. }
      assert (exists cs, c = List.concat cs /\ Forall2 (rep e) vs cs) as (cs & -> & Hcs); [|eauto].
      clear Hn. revert c Hl Hd.
      induction H2 as [|v b vs bs Hvb H2 IH2]; intros c Hl Hd.
      * exists []. cbn [List.concat] in *. split; [|constructor]. apply zlen_zero. rewrite <- Hl. reflexivity.
      * inversion Hbs as [|? ? Hb Hbs']; subst. specialize (IH2 Hbs').
        cbn [List.concat] in Hl, Hd. rewrite zlen_app in Hl, Hd.
        pose proof (zlen_nonneg (List.concat bs)).
        pose proof (zlen_nonneg b).
        destruct (IH2 (zdrop (sizeof e) c)) as (cs & Ec' & Hcs).
        { rewrite zlen_zdrop. lia. }
        { intros i Hi Hdi. cbn [data_byte] in Hdi.
          specialize (Hd (sizeof e + i) ltac:(lia)).
          rewrite at8_app_r, Hb in Hd by lia. replace (sizeof e + i - sizeof e) with i in Hd by lia.
          rewrite Hd.
          - rewrite <- (ztake_zdrop (sizeof e) c) at 1. rewrite at8_app_r by (rewrite zlen_ztake; lia).
            f_equal. rewrite zlen_ztake. lia.
          - cbn [data_byte]. replace (sizeof e + i) with (i + 1 * sizeof e) by lia.
            destruct (Z.eq_dec (sizeof e) 0) as [Hz|Hz]; [|rewrite Z.mod_add by lia; exact Hdi].
            rewrite Hz in *. rewrite !Zmod_0_r in *. replace (i + 1 * 0) with i by lia. exact Hdi. }
        exists (ztake (sizeof e) c :: cs). split.
        { cbn [List.concat]. rewrite <- Ec', ztake_zdrop. reflexivity. }
        constructor; [|exact Hcs]. apply (IH _ b); [exact Hw|exact Hvb|]. split; [rewrite zlen_ztake; lia|].
        intros i Hi Hdi. specialize (Hd i ltac:(lia)). rewrite at8_app_l in Hd by lia.
        rewrite Hd.
        { rewrite <- (ztake_zdrop (sizeof e) c) at 1. rewrite at8_app_l by (rewrite zlen_ztake; lia). reflexivity. }
        cbn [data_byte]. rewrite Z.mod_small by lia. exact Hdi.
  - apply rep_struct in H. apply rep_struct. destruct H as (vs & -> & H). exists vs. split; [reflexivity|].
    eapply (rep_fields_same _ fs IH (proj2 (wf_struct _ _ _ Hw))); [exact H|exact Hl|].
    intros i Hi Hdi. apply Hd; [exact Hi|]. exact Hdi.
Qed.
