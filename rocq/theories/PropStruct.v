(** * Theorems C22-C30: struct layout, attribute values, dictionaries *)
From Coq Require Import List ZArith Lia Bool String.
From Coq Require Import Init.Byte.
From Coq Require Import ZifyBool.
From Verif Require Import PyBase Utf8 CTypes S_shared S_1_26 Model Spec SpecDict SpecLog
  BaseProofs LayoutProofs RepProofs DictProofs Utf8Proofs TableProofs HeaderProofs GenProofs RunProofs SizedProofs
  PropHeader.
Import ListNotations.
Open Scope list_scope.
Open Scope Z_scope.

(** ** Types that occur in the shipped classes *)

Lemma part_ok t u : part_of u t -> wf_type t = true -> dictable t = true -> wf_type u = true /\ dictable u = true.
Proof.
  induction 1 as [t|u e n _ IH|u name fs lims n ft Hin _ IH]; intros W D; [auto| |].
  - cbn [wf_type] in W. apply andb_prop in W as [_ W]. apply IH; [exact W|]. destruct e; exact D || reflexivity || discriminate D.
  - pose proof (wf_struct _ _ _ W) as [_ Wf]. cbn [dictable] in D. apply andb_prop in D as [D _].
    rewrite forallb_forall in D. apply IH; [exact (Wf _ _ Hin)|exact (D _ Hin)].
Qed.

Lemma type_in_class c u : type_in c u -> exists t, In t (class_types c) /\ part_of u t.
Proof.
  unfold class_types. intros [H|[H|[H|[H|(ct & E & H)]]]].
  1-4: eexists; split; [|exact H]; cbn; tauto.
  exists ct. rewrite E. split; [|exact H]. cbn. tauto.
Qed.

Lemma type_in_ok c u : In c versions -> type_in c u -> wf_type u = true /\ dictable u = true.
Proof.
  intros Hc Hu. apply type_in_class in Hu as (t & Ht & Hp). destruct (class_types_ok c t Hc Ht) as (W & D & _).
  eapply part_ok; eassumption.
Qed.

(** ** C22 *)

Theorem C22_layout_sound c name fs lims :
  In c versions -> type_in c (TStruct name fs lims) ->
  let t := TStruct name fs lims in
  map (fun x => (fst x, snd (snd x))) (layout t) = fs /\
  NoDup (map fst fs) /\
  (forall n off ft, In (n, (off, ft)) (layout t) ->
     field_at t n = Some (off, ft) /\ 0 <= off /\ off mod c_align ft = 0 /\ off + sizeof ft <= sizeof t) /\
  (forall pre n1 off1 ft1 n2 off2 ft2 post, layout t = pre ++ (n1, (off1, ft1)) :: (n2, (off2, ft2)) :: post ->
     off1 + sizeof ft1 <= off2 < off1 + sizeof ft1 + c_align ft2) /\
  sizeof t mod c_align t = 0.
Proof.
  intros Hc Hu t. destruct (type_in_ok c t Hc Hu) as [W _].
  pose proof (wf_struct _ _ _ W) as [Nd Wf]. split; [apply layout_types|]. split; [exact Nd|]. split; [|split].
  - intros n off ft Hin. destruct (field_in_struct t n off ft W Hin) as (A & B & C & _).
    rewrite c_align_alignof. split; [apply field_at_in; [exact Nd|exact Hin]|]. auto.
  - intros pre n1 off1 ft1 n2 off2 ft2 post E. rewrite c_align_alignof.
    exact (layout_ordered 0 fs pre post _ _ (wf_fields_pos _ _ _ W) E).
  - rewrite c_align_alignof. unfold t. rewrite sizeof_struct. apply (align_up_spec _ _ (alignof_pos _ W)).
Qed.

Theorem C22_sizes vs c : class_for vs c ->
  sizeof (hc_header c) = header_size /\ sizeof (hc_record c) = vs_rec vs /\ sizeof (hc_sstat c) = vs_sstat vs /\
  sizeof (hc_tstat c) = vs_tstat vs /\ option_map sizeof (hc_cstat c) = vs_cstat vs.
Proof.
  intros Hcf. pose proof (class_for_table _ _ Hcf) as Hc. destruct (table_sizes _ _ Hc) as (_ & A & B & C & D & E).
  repeat (split; [assumption|]). destruct (vs_cstat vs); [destruct E as (t & -> & <-)|rewrite E]; reflexivity.
Qed.

(** ** C23 *)

Theorem C23_values_read_back c t v b :
  In c versions -> type_in c t -> rep t v b -> zlen b = sizeof t /\ shows v (fetch t b).
Proof.
  intros Hc Ht Hr. destruct (type_in_ok c t Hc Ht) as [W _].
  split; [eapply rep_size; eassumption|apply rep_shows; assumption].
Qed.

(** Every byte string of the right size is the image of some value. *)
Theorem C23_every_image_has_a_value c t b :
  In c versions -> type_in c t -> zlen b = sizeof t -> exists v, rep t v b.
Proof. intros Hc Ht. apply image_total. apply (type_in_ok c t Hc Ht). Qed.

(** ** C24 *)

Theorem C24_integer_ranges c name fs lims n sg sz b :
  In c versions -> type_in c (TStruct name fs lims) -> In (n, TInt sg sz) fs ->
  zlen b = sizeof (TStruct name fs lims) ->
  exists z, getattr (mkObj (TStruct name fs lims) b) n = Ok (PInt z) /\
            (if sg then - 2 ^ (8 * sz - 1) <= z < 2 ^ (8 * sz - 1) else 0 <= z < 2 ^ (8 * sz)).
Proof.
  intros Hc Hu Hin Hb. destruct (type_in_ok c _ Hc Hu) as [W _]. pose proof (wf_struct _ _ _ W) as [Nd Wf].
  assert (exists off, In (n, (off, TInt sg sz)) (layout (TStruct name fs lims))) as (off & Hl).
  { rewrite <- (layout_types 0 fs) in Hin. apply in_map_iff in Hin as ([m [o t]] & E & K). cbn in E. injection E as -> ->.
    exists o. exact K. }
  exists (int_value sg sz (sub_bytes off sz b)). split.
  - rewrite (getattr_field _ b n off (TInt sg sz)); [reflexivity|]. apply field_at_in; [exact Nd|exact Hl].
  - apply int_value_range.
    + specialize (Wf _ _ Hin). cbn [wf_type] in Wf. lia.
    + unfold sub_bytes. rewrite zlen_ztake. pose proof (zlen_nonneg (zdrop off b)).
      specialize (Wf _ _ Hin). cbn [wf_type] in Wf. lia.
Qed.

(** Each value of the range is the content of exactly one pattern of sz bytes. *)
Theorem C24_one_pattern_per_value (sg : bool) sz z :
  1 <= sz -> (if sg then - 2 ^ (8 * sz - 1) <= z < 2 ^ (8 * sz - 1) else 0 <= z < 2 ^ (8 * sz)) ->
  exists! b, zlen b = sz /\ fetch (TInt sg sz) b = PInt z.
Proof.
  intros Hs Hz. destruct (int_value_surj sg sz z Hs Hz) as (b & L & E). exists b. split.
  - split; [exact L|]. cbn [fetch]. rewrite E. reflexivity.
  - intros b' [L' E']. cbn [fetch] in E'. injection E' as E'. apply (int_value_inj sg sz b b' Hs L L'). rewrite E, E'. reflexivity.
Qed.

(** ** C25 *)

Theorem C25_padding_ignored c t b1 b2 :
  In c versions -> type_in c t -> zlen b1 = sizeof t -> same_data t b1 b2 ->
  (exists v, shows v (fetch t b1) /\ shows v (fetch t b2)) /\
  struct_to_dict (mkObj t b1) = struct_to_dict (mkObj t b2).
Proof.
  intros Hc Ht L Hs. destruct (type_in_ok c t Hc Ht) as [W D]. destruct (image_total t b1 W L) as (v & R1).
  pose proof (rep_same_data t v b1 b2 W R1 Hs) as R2. split.
  - exists v. split; apply rep_shows; assumption.
  - unfold struct_to_dict. cbn [o_type o_buf]. destruct (is_struct t) eqn:S; [|destruct t; try discriminate S; reflexivity].
    rewrite (struct_to_dict_rep t v b1 W D S R1), (struct_to_dict_rep t v b2 W D S R2). reflexivity.
Qed.

(** ** C26 *)

Definition keyed_go : list (string * ctype) -> list (string * json) -> Prop :=
  fix go (fs : list (string * ctype)) (d : list (string * json)) {struct fs} : Prop :=
    match fs with
    | [] => d = []
    | (n, ft) :: fs' =>
        if placeholder (n, ft) then go fs' d
        else match d with
             | (n', j') :: d' => n' = n /\ keyed ft j' /\ go fs' d'
             | [] => False
             end
    end.

Lemma Forall_ztake {A} (P : A -> Prop) n l : Forall P l -> Forall P (ztake n l).
Proof. intros H. rewrite <- (ztake_zdrop n l) in H. apply Forall_app in H. apply H. Qed.

Definition base (t : ctype) : ctype := match t with TArr e _ => e | _ => t end.

Lemma dict_of_keyed t : wf_type t = true -> dictable t = true -> forall v b, rep (base t) v b ->
  keyed (base t) (dict_of (base t) v).
Proof.
  induction t as [sg sz| | |e n IH|name fs lims IH] using ctype_rect'; intros W D v b R; cbn [base] in *.
  - destruct R as (z & -> & _). exists z. reflexivity.
  - destruct R as (x & -> & _). exists x. reflexivity.
  - destruct R as (c & -> & _). eexists. reflexivity.
  - cbn [wf_type] in W. apply andb_prop in W as [_ W].
    assert (base e = e) as B by (destruct e; reflexivity || discriminate D).
    assert (dictable e = true) as De by (destruct e; exact D || reflexivity || discriminate D).
    rewrite B in IH. eapply IH; eassumption.
  - apply rep_struct in R. destruct R as (vs & -> & R). rewrite dict_of_struct.
    pose proof (wf_struct _ _ _ W) as [_ Wf]. cbn [dictable] in D. apply andb_prop in D as [D _]. rewrite forallb_forall in D.
    exists (dict_fields lims vs fs vs). split; [reflexivity|].
    change (keyed_go fs (dict_fields lims vs fs vs)).
    assert (forall lims0 vs0 fs' ws al off b, (forall f, In f fs' -> In f fs) -> rep_fields al fs' ws off b ->
            keyed_go fs' (dict_fields lims0 vs0 fs' ws)) as G.
    { intros lims0 vs0. induction fs' as [|[n ft] fs' IHf]; intros ws al off b0 Hi R'.
      - destruct ws; [reflexivity|destruct R'].
      - destruct ws as [|[n' w] ws]; [destruct R'|]. destruct R' as (_ & pad & fb & rest & -> & _ & _ & R1 & R2).
        cbn [keyed_go dict_fields]. assert (forall f, In f fs' -> In f fs) as Hi' by (intros; apply Hi; right; assumption).
        destruct (placeholder (n, ft)) eqn:P; [cbn [app]; eapply IHf; eassumption|]. cbn [app].
        split; [reflexivity|]. split; [|eapply IHf; eassumption].
        assert (In (n, ft) fs) as Hf by (apply Hi; left; reflexivity).
        rewrite Forall_forall in IH. pose proof (IH _ Hf) as IHt. cbn [snd] in IHt.
        specialize (Wf _ _ Hf). specialize (D _ Hf). cbn [snd] in D. specialize (IHt Wf D).
        destruct ft as [sg sz| | |e cap|nm fs2 l2]; cbn [base] in IHt.
        + destruct w; eapply IHt; exact R1.
        + destruct w; eapply IHt; exact R1.
        + destruct w; eapply IHt; exact R1.
        + destruct (is_char e) eqn:Ec.
          * destruct e; try discriminate Ec. destruct R1 as (s & -> & _). cbn [dict_of keyed]. eexists. reflexivity.
          * apply rep_array in R1; [|exact Ec]. destruct R1 as (l & bs & -> & Hn & -> & F2).
            assert (Forall (fun v => keyed e (dict_of e v)) l) as FK.
            { clear - IHt F2. induction F2; constructor; eauto. }
            assert (forall l', Forall (fun v => keyed e (dict_of e v)) l' -> keyed (TArr e cap) (JList (map (dict_of e) l'))) as FJ.
            { intros l' Hl'. rewrite <- Forall_map in Hl'. destruct e; try discriminate Ec; (eexists; split; [reflexivity|exact Hl']). }
            destruct (count_for lims0 vs0 n); apply FJ; [apply Forall_ztake|]; exact FK.
        + destruct w; eapply IHt; exact R1. }
    eapply G; eauto.
Qed.

Theorem C26_keys c name fs lims b :
  In c versions -> type_in c (TStruct name fs lims) -> zlen b = sizeof (TStruct name fs lims) ->
  exists d, struct_to_dict (mkObj (TStruct name fs lims) b) = Ok (JDict d) /\
    map fst d = map fst (filter (fun f => negb (placeholder f)) fs) /\
    keyed (TStruct name fs lims) (JDict d).
Proof.
  intros Hc Ht L. destruct (type_in_ok c _ Hc Ht) as [W D]. destruct (image_total _ b W L) as (v & R).
  pose proof (dict_of_keyed _ W D v b R) as K. pose proof (struct_to_dict_rep _ v b W D eq_refl R) as E.
  cbn [base] in K. apply rep_struct in R. destruct R as (vs & -> & R). rewrite dict_of_struct in *.
  eexists. split; [exact E|]. split; [|exact K]. eapply dict_fields_keys. exact R.
Qed.

(** The fields left out are exactly the ones named "...future..." that are not structs. *)
Theorem C26_placeholders n t : placeholder (n, t) = true <->
  (forall name fs lims, t <> TStruct name fs lims) /\ exists a b, n = String.append a (String.append "future" b).
Proof.
  rewrite placeholder_spec. unfold has_future. split; intros [H K]; split; try exact K.
  - intros name fs lims ->. discriminate H.
  - destruct t; try reflexivity. exfalso. eapply H. reflexivity.
Qed.

(** ** C27, C28 *)

Definition array_ok (lims : list (string * string)) (f : string * ctype) : bool :=
  match snd f with
  | TArr TChar _ => true
  | TArr e _ => placeholder f || (is_struct e && match assoc (fst f) lims with
                | Some l => match assoc (fst f) count_names with Some l' => String.eqb l l' | None => false end
                | None => false
                end)
  | _ => true
  end.

Fixpoint arrays_ok (t : ctype) : bool :=
  match t with
  | TStruct _ fs lims => forallb (fun f => array_ok lims f && arrays_ok (snd f)) fs
  | TArr e _ => arrays_ok e
  | _ => true
  end.

Lemma arrays_ok_b : forallb (fun c => forallb arrays_ok (class_types c)) versions = true.
Proof. vm_compute. reflexivity. Qed.

Lemma arrays_ok_part t u : part_of u t -> arrays_ok t = true -> arrays_ok u = true.
Proof.
  induction 1 as [t|u e n _ IH|u name fs lims n ft Hin _ IH]; intros H; [exact H|apply IH; exact H|].
  cbn [arrays_ok] in H. rewrite forallb_forall in H. specialize (H _ Hin). apply andb_prop in H as [_ H]. apply IH, H.
Qed.

(** Every array of a struct that is not text or a placeholder is an array of structs with the
    count field the specification gives it. *)
Lemma array_counted c name fs lims n e cap : In c versions -> type_in c (TStruct name fs lims) ->
  In (n, TArr e cap) fs -> e <> TChar -> ~ has_future n ->
  exists lim, assoc n lims = Some lim /\ assoc n count_names = Some lim /\ is_struct e = true.
Proof.
  intros Hc Ht Hin Hne Hf. apply type_in_class in Ht as (t & Hc2 & Hp). pose proof arrays_ok_b as B.
  rewrite forallb_forall in B. specialize (B c Hc). rewrite forallb_forall in B. specialize (B t Hc2).
  pose proof (arrays_ok_part _ _ Hp B) as A. cbn [arrays_ok] in A. rewrite forallb_forall in A. specialize (A _ Hin).
  apply andb_prop in A as [A _]. unfold array_ok in A. cbn [snd fst] in A.
  assert (placeholder (n, TArr e cap) = false) as P.
  { destruct (placeholder (n, TArr e cap)) eqn:P; [|reflexivity]. apply placeholder_spec in P as [_ P]. contradiction. }
  rewrite P in A. cbn [orb] in A.
  assert ((is_struct e && match assoc n lims with
     | Some l => match assoc n count_names with Some l' => String.eqb l l' | None => false end | None => false end) = true) as A'
    by (destruct e; congruence || exact A).
  apply andb_prop in A' as [A1 A2]. destruct (assoc n lims) as [l|]; [|discriminate A2].
  destruct (assoc n count_names) as [l'|]; [|discriminate A2]. apply String.eqb_eq in A2. subst l'. eauto.
Qed.

Lemma shows_fields_in o vs : shows_fields o vs -> forall n v, In (n, v) vs -> exists q, getattr o n = Ok q /\ shows v q.
Proof.
  induction vs as [|[m w] vs IH]; intros H n v []; cbn [shows_fields] in H.
  - injection H0 as -> ->. apply H.
  - apply IH; [apply H|assumption].
Qed.

Lemma fields_assoc al fs : NoDup (map fst fs) -> forall vs off b n ft lims vs0,
  rep_fields al fs vs off b -> In (n, ft) fs -> placeholder (n, ft) = false ->
  exists w, assoc n vs = Some w /\
    assoc n (dict_fields lims vs0 fs vs) =
    Some (match ft, w with
          | TArr e cap, VArr l =>
              JList (map (dict_of e) (match count_for lims vs0 n with Some k => ztake (listed k cap) l | None => l end))
          | _, _ => dict_of ft w
          end).
Proof.
  induction fs as [|[m mt] fs IH]; intros Nd vs off b n ft lims vs0 R Hin P; [destruct Hin|].
  destruct vs as [|[m' w] vs]; [destruct R|]. destruct R as (<- & pad & fb & rest & -> & _ & _ & R1 & R2).
  cbn [map fst] in Nd. inversion Nd as [|? ? Nm Nd']; subst. cbn [assoc dict_fields].
  destruct Hin as [E|Hin].
  - injection E as -> ->. rewrite String.eqb_refl, P. cbn [app assoc]. rewrite String.eqb_refl. eauto.
  - destruct (String.eqb_spec n m) as [->|Ne].
    + exfalso. apply Nm. change m with (fst (m, ft)). apply in_map, Hin.
    + destruct (IH Nd' vs _ _ n ft lims vs0 R2 Hin P) as (w' & E1 & E2). exists w'. split; [exact E1|].
      destruct (placeholder (m, mt)); cbn [app assoc]; [exact E2|].
      destruct (String.eqb_spec n m); [contradiction|]. exact E2.
Qed.

Lemma nth_error_Forall2 {A B} (R : A -> B -> Prop) l m i x : Forall2 R l m -> nth_error l i = Some x ->
  exists y, nth_error m i = Some y /\ R x y.
Proof.
  intros H. revert i. induction H as [|a b l m Hab _ IH]; intros [|i] E; try discriminate E.
  - injection E as <-. exists b. auto.
  - apply IH. exact E.
Qed.

Lemma nth_error_ztake {A} n (l : list A) i x : nth_error (ztake n l) i = Some x -> nth_error l i = Some x.
Proof.
  unfold ztake. revert l i. induction (Z.to_nat n) as [|k IH]; intros l i H.
  - destruct i; discriminate H.
  - destruct l as [|a l]; [destruct i; discriminate H|]. destruct i as [|i]; [exact H|]. cbn in H |- *. apply IH. exact H.
Qed.

Lemma counted_array c name fs lims n e cap b :
  In c versions -> type_in c (TStruct name fs lims) -> In (n, TArr e cap) fs -> e <> TChar -> ~ has_future n ->
  zlen b = sizeof (TStruct name fs lims) ->
  exists lim k arr d js,
    assoc n count_names = Some lim /\
    getattr (mkObj (TStruct name fs lims) b) lim = Ok (PInt k) /\
    getattr (mkObj (TStruct name fs lims) b) n = Ok (PObj arr) /\ zlen (array_items arr) = cap /\
    struct_to_dict (mkObj (TStruct name fs lims) b) = Ok (JDict d) /\ assoc n d = Some (JList js) /\
    zlen js = listed k cap /\
    forall i j, nth_error js i = Some j ->
      exists o, nth_error (array_items arr) i = Some (PObj o) /\ struct_to_dict o = Ok j.
Proof.
  intros Hc Ht Hin Hne Hnf L. destruct (type_in_ok c _ Hc Ht) as [W D]. destruct (image_total _ b W L) as (v & R0).
  destruct (array_counted c name fs lims n e cap Hc Ht Hin Hne Hnf) as (lim & El & Ec & Se).
  pose proof (struct_to_dict_rep _ v b W D eq_refl R0) as E.
  pose proof R0 as R. apply rep_struct in R. destruct R as (vs & -> & R). rewrite dict_of_struct in E.
  pose proof (wf_struct _ _ _ W) as [Nd Wf].
  pose proof D as D'. cbn [dictable] in D'. apply andb_prop in D' as [Df Dl]. rewrite forallb_forall in Df, Dl.
  pose proof (Dl _ (assoc_some_in _ _ _ El)) as Dlim. cbn [snd] in Dlim.
  destruct (assoc lim fs) as [ft|] eqn:Ef; [|discriminate Dlim]. destruct ft as [sg sz| | | |]; try discriminate Dlim.
  destruct (assoc_types_rep _ fs vs 0 b lim sg sz R Nd Ef) as (k & Ek).
  pose proof (rep_shows _ _ _ W R0) as S. cbn [shows fetch] in S. destruct S as (o & Eo & _ & S). injection Eo as <-.
  change (shows_fields (mkObj (TStruct name fs lims) b) vs) in S. pose proof (shows_fields_in _ _ S) as SF.
  destruct (SF lim _ (assoc_some_in _ _ _ Ek)) as (q & Gq & Sq). cbn [shows] in Sq. subst q.
  assert (placeholder (n, TArr e cap) = false) as P.
  { destruct (placeholder (n, TArr e cap)) eqn:P; [|reflexivity]. apply placeholder_spec in P as [_ P]. contradiction. }
  destruct (fields_assoc _ fs Nd vs 0 b n _ lims vs R Hin P) as (w & Ew & Ed).
  assert (exists off, In (n, (off, TArr e cap)) (layout (TStruct name fs lims))) as (off & Hl).
  { pose proof Hin as Hin'. rewrite <- (layout_types 0 fs) in Hin'. apply in_map_iff in Hin' as ([m [o t]] & X & K). cbn in X. injection X as -> ->.
    exists o. exact K. }
  pose proof (field_at_in (TStruct name fs lims) n off (TArr e cap) Nd Hl) as Fa.
  pose proof (getattr_field _ b n off (TArr e cap) Fa) as Ga.
  pose proof (rep_fields_at _ fs Wf vs [] b R) as F2. cbn [app] in F2. change (zlen (@nil byte)) with 0 in F2.
  assert (rep (TArr e cap) w (sub_bytes off (sizeof (TArr e cap)) b)) as Rw.
  { destruct (Forall2_in_r' _ _ _ (n, (off, TArr e cap)) F2 Hl) as ([n' w'] & Hw' & E1 & E2). cbn [fst snd] in E1, E2. subst n'.
    assert (NoDup (map fst vs)) as Ndv by (rewrite <- (rep_names _ _ _ _ _ R); exact Nd).
    rewrite (assoc_in n w' vs Ndv Hw') in Ew. injection Ew as ->. exact E2. }
  assert (is_char e = false) as Ce by (destruct e; reflexivity || discriminate Se).
  apply rep_array in Rw; [|exact Ce]. destruct Rw as (l & bs & -> & Hn & Eb & Fr).
  pose proof (Wf _ _ Hin) as We. cbn [wf_type] in We. apply andb_prop in We as [Hcap We].
  assert (count_for lims vs n = Some k) as Ck by (unfold count_for; rewrite El, Ek; reflexivity).
  rewrite Ck in Ed.
  set (arr := mkObj (TArr e cap) (sub_bytes off (sizeof (TArr e cap)) b)) in *.
  assert (array_items arr = map (fetch e) bs) as Ai.
  { unfold arr, array_items. cbn [o_type o_buf]. rewrite Eb.
    replace (Z.to_nat cap) with (List.length bs) by (apply Forall2_zlen in Fr; unfold zlen in *; lia).
    rewrite chunks_concat; [reflexivity|]. clear - Fr We. induction Fr; constructor; [eapply rep_size; eassumption|assumption]. }
  exists lim, k, arr, (dict_fields lims vs fs vs), (map (dict_of e) (ztake (listed k cap) l)).
  split; [exact Ec|]. split; [exact Gq|].
  split; [rewrite Ga; destruct e; try discriminate Ce; reflexivity|].
  split; [rewrite Ai, zlen_map; apply Forall2_zlen in Fr; lia|].
  split; [exact E|]. split; [exact Ed|]. split.
  - rewrite zlen_map, zlen_ztake. unfold listed. pose proof (zlen_nonneg l). destruct (Z.leb_spec 0 k); lia.
  - intros i j Hj. rewrite nth_error_map in Hj. destruct (nth_error (ztake (listed k cap) l) i) as [x|] eqn:Ex; [|discriminate Hj].
    cbn [option_map] in Hj. injection Hj as <-. apply nth_error_ztake in Ex.
    destruct (nth_error_Forall2 _ _ _ _ _ Fr Ex) as (bi & Ebi & Rx).
    exists (mkObj e bi). rewrite Ai, nth_error_map, Ebi. cbn [option_map]. split.
    + destruct e; try discriminate Se. reflexivity.
    + unfold struct_to_dict. cbn [o_type o_buf]. apply struct_to_dict_rep; [exact We| |exact Se|exact Rx].
      specialize (Df _ Hin). cbn [snd dictable] in Df. destruct e; try discriminate Se. exact Df.
Qed.

Theorem C27_counted_arrays c name fs lims n e cap b :
  In c versions -> type_in c (TStruct name fs lims) -> In (n, TArr e cap) fs -> e <> TChar -> ~ has_future n ->
  zlen b = sizeof (TStruct name fs lims) ->
  exists lim k arr d js,
    assoc n count_names = Some lim /\
    getattr (mkObj (TStruct name fs lims) b) lim = Ok (PInt k) /\
    getattr (mkObj (TStruct name fs lims) b) n = Ok (PObj arr) /\ zlen (array_items arr) = cap /\
    struct_to_dict (mkObj (TStruct name fs lims) b) = Ok (JDict d) /\ assoc n d = Some (JList js) /\
    (0 <= k -> zlen js = Z.min k cap) /\
    forall i j, nth_error js i = Some j ->
      exists o, nth_error (array_items arr) i = Some (PObj o) /\ struct_to_dict o = Ok j.
Proof.
  intros Hc Ht Hin Hne Hnf L. destruct (counted_array c name fs lims n e cap b Hc Ht Hin Hne Hnf L)
    as (lim & k & arr & d & js & A & B & C & D & E & F & G & H).
  exists lim, k, arr, d, js. repeat (split; [assumption|]). split; [|exact H].
  intros K. rewrite G. unfold listed. destruct (Z.leb_spec 0 k); lia.
Qed.

(** A negative count -k lists all but the last k slots. *)
Theorem C28_negative_counts c name fs lims n e cap b :
  In c versions -> type_in c (TStruct name fs lims) -> In (n, TArr e cap) fs -> e <> TChar -> ~ has_future n ->
  zlen b = sizeof (TStruct name fs lims) ->
  exists lim k d js, assoc n count_names = Some lim /\
    getattr (mkObj (TStruct name fs lims) b) lim = Ok (PInt k) /\
    struct_to_dict (mkObj (TStruct name fs lims) b) = Ok (JDict d) /\ assoc n d = Some (JList js) /\
    (k < 0 -> zlen js = Z.max 0 (cap + k)).
Proof.
  intros Hc Ht Hin Hne Hnf L. destruct (counted_array c name fs lims n e cap b Hc Ht Hin Hne Hnf L)
    as (lim & k & arr & d & js & A & B & C & D & E & F & G & H).
  exists lim, k, d, js. repeat (split; [assumption|]). intros K. rewrite G. unfold listed. destruct (Z.leb_spec 0 k); lia.
Qed.

Definition negative_count_image : list byte := repeat xff 8 ++ zeros 7352.

Lemma cpustat_1_26 : exists name fs lims e cap,
  a1_26_CPUStat = TStruct name fs lims /\ In ("cpu"%string, TArr e cap) fs /\ e <> TChar /\ cap = 64 /\
  type_in a1_26_class (TStruct name fs lims) /\ sizeof (TStruct name fs lims) = 7360 /\
  getattr (mkObj (TStruct name fs lims) negative_count_image) "nrcpu" = Ok (PInt (-1)).
Proof.
  do 5 eexists. split; [reflexivity|]. split; [repeat (first [left; reflexivity | right])|].
  split; [discriminate|]. split; [reflexivity|]. split.
  - right. right. left. eapply part_field; [left; reflexivity|]. apply part_refl.
  - split; vm_compute; reflexivity.
Qed.

Theorem C28_negative_count_lists_nothing_refuted :
  ~ (forall c name fs lims n e cap b lim k d js,
       In c versions -> type_in c (TStruct name fs lims) -> In (n, TArr e cap) fs -> e <> TChar ->
       zlen b = sizeof (TStruct name fs lims) -> assoc n count_names = Some lim ->
       getattr (mkObj (TStruct name fs lims) b) lim = Ok (PInt k) -> k < 0 ->
       struct_to_dict (mkObj (TStruct name fs lims) b) = Ok (JDict d) -> assoc n d = Some (JList js) -> js = []).
Proof.
  intros H. destruct cpustat_1_26 as (name & fs & lims & e & cap & _ & Hin & Hne & Hcap & Ht & Hs & Hg).
  assert (In a1_26_class versions) as Hc by (left; reflexivity).
  assert (zlen negative_count_image = sizeof (TStruct name fs lims)) as L by (rewrite Hs; vm_compute; reflexivity).
  assert (~ has_future "cpu") as Hnf by (intros K; apply str_contains_spec in K; vm_compute in K; discriminate K).
  destruct (C28_negative_counts _ _ _ _ _ _ _ _ Hc Ht Hin Hne Hnf L) as (lim & k & d & js & A & B & C & D & E).
  assert (lim = "nrcpu"%string) as -> by (vm_compute in A; congruence).
  rewrite Hg in B. injection B as <-.
  specialize (E ltac:(lia)). subst cap.
  rewrite (H _ _ _ _ _ _ _ _ _ _ _ _ Hc Ht Hin Hne L A Hg ltac:(lia) C D) in E. vm_compute in E. discriminate E.
Qed.

(** ** C29 *)

(** Text attributes: the bytes before the first NUL; in the dictionary, that text read leniently. *)
Theorem C29_text_fields c name fs lims n cap b :
  In c versions -> type_in c (TStruct name fs lims) -> In (n, TArr TChar cap) fs ->
  zlen b = sizeof (TStruct name fs lims) ->
  exists off s, field_at (TStruct name fs lims) n = Some (off, TArr TChar cap) /\
    c_string s (sub_bytes off cap b) /\
    getattr (mkObj (TStruct name fs lims) b) n = Ok (PBytes s) /\
    (~ has_future n -> exists d text,
       struct_to_dict (mkObj (TStruct name fs lims) b) = Ok (JDict d) /\
       assoc n d = Some (JStr text) /\ lenient_text s text).
Proof.
  intros Hc Ht Hin L. destruct (type_in_ok c _ Hc Ht) as [W D]. destruct (image_total _ b W L) as (v & R0).
  pose proof (struct_to_dict_rep _ v b W D eq_refl R0) as E.
  pose proof R0 as R. apply rep_struct in R. destruct R as (vs & -> & R). rewrite dict_of_struct in E.
  pose proof (wf_struct _ _ _ W) as [Nd Wf].
  assert (exists off, In (n, (off, TArr TChar cap)) (layout (TStruct name fs lims))) as (off & Hl).
  { pose proof Hin as Hin'. rewrite <- (layout_types 0 fs) in Hin'. apply in_map_iff in Hin' as ([m [o t]] & X & K). cbn in X. injection X as -> ->.
    exists o. exact K. }
  pose proof (field_at_in (TStruct name fs lims) n off (TArr TChar cap) Nd Hl) as Fa.
  pose proof (getattr_field _ b n off (TArr TChar cap) Fa) as Ga.
  assert (sizeof (TArr TChar cap) = cap) as Sc by (cbn [sizeof]; lia). rewrite Sc in Ga.
  exists off, (until_nul (sub_bytes off cap b)). split; [exact Fa|]. split; [apply until_nul_c_string|]. split; [exact Ga|].
  intros Hnf.
  assert (placeholder (n, TArr TChar cap) = false) as P.
  { destruct (placeholder (n, TArr TChar cap)) eqn:P; [|reflexivity]. apply placeholder_spec in P as [_ P]. contradiction. }
  destruct (fields_assoc _ fs Nd vs 0 b n _ lims vs R Hin P) as (w & Ew & Ed).
  pose proof (rep_fields_at _ fs Wf vs [] b R) as F2. cbn [app] in F2. change (zlen (@nil byte)) with 0 in F2.
  assert (rep (TArr TChar cap) w (sub_bytes off (sizeof (TArr TChar cap)) b)) as Rw.
  { destruct (Forall2_in_r' _ _ _ (n, (off, TArr TChar cap)) F2 Hl) as ([n' w'] & Hw' & E1 & E2). cbn [fst snd] in E1, E2. subst n'.
    assert (NoDup (map fst vs)) as Ndv by (rewrite <- (rep_names _ _ _ _ _ R); exact Nd).
    rewrite (assoc_in n w' vs Ndv Hw') in Ew. injection Ew as ->. exact E2. }
  rewrite Sc in Rw. destruct Rw as (s & -> & _ & Cs). rewrite (c_string_until_nul _ _ Cs).
  eexists _, (decode_ignore s). split; [exact E|]. split; [exact Ed|]. apply decode_is_lenient.
Qed.

(** What the lenient reading gives, whatever the bytes: Unicode text whose encoding is a
    subsequence of the bytes; valid text unchanged; of text cut inside a character, all but that
    character.  There is exactly one reading. *)
Theorem C29_lenient_reading s :
  exists! text, lenient_text s text.
Proof. exists (decode_ignore s). split; [apply decode_is_lenient|]. intros t H. apply lenient_is_decode in H. auto. Qed.

Theorem C29_only_unicode s text : lenient_text s text -> Forall scalar text /\ subseq (utf8 text) s.
Proof. intros H. apply lenient_is_decode in H as ->. split; [apply decode_ignore_scalar|apply decode_ignore_subseq]. Qed.

Theorem C29_valid_text_preserved t text : Forall scalar t -> lenient_text (utf8 t) text -> text = t.
Proof. intros Ht H. apply lenient_is_decode in H as ->. apply decode_ignore_utf8, Ht. Qed.

Theorem C29_cut_character_dropped t ch p q text : Forall scalar t -> scalar ch -> utf8_char ch = p ++ q -> q <> [] ->
  lenient_text (utf8 t ++ p) text -> text = t.
Proof. intros Ht Hc E Hq H. apply lenient_is_decode in H as ->. eapply decode_ignore_cut; eassumption. Qed.

(** ** C30 *)

Lemma fold_and_map {A} (P : A -> Prop) l : fold_right and True (map P l) <-> Forall P l.
Proof.
  induction l as [|a l IH]; cbn; [split; constructor|]. rewrite IH. split; [intros [? ?]; constructor; assumption|inversion 1; auto].
Qed.

Lemma dict_of_serialisable t : wf_type t = true -> dictable t = true -> forall v b, rep (base t) v b ->
  serialisable (dict_of (base t) v).
Proof.
  induction t as [sg sz| | |e n IH|name fs lims IH] using ctype_rect'; intros W D v b R; cbn [base] in *.
  - destruct R as (z & -> & _). exact I.
  - destruct R as (x & -> & _ & <-). cbn [dict_of serialisable]. apply u32_range.
  - destruct R as (c & -> & _). cbn [dict_of serialisable]. apply decode_ignore_scalar.
  - cbn [wf_type] in W. apply andb_prop in W as [_ W].
    assert (base e = e) as B by (destruct e; reflexivity || discriminate D).
    assert (dictable e = true) as De by (destruct e; exact D || reflexivity || discriminate D).
    rewrite B in IH. eapply IH; eassumption.
  - apply rep_struct in R. destruct R as (vs & -> & R). rewrite dict_of_struct.
    pose proof (wf_struct _ _ _ W) as [_ Wf]. cbn [dictable] in D. apply andb_prop in D as [D _]. rewrite forallb_forall in D.
    cbn [serialisable]. rewrite fold_and_map.
    assert (forall lims0 vs0 fs' ws al off b, (forall f, In f fs' -> In f fs) -> rep_fields al fs' ws off b ->
            Forall (fun p => serialisable (snd p)) (dict_fields lims0 vs0 fs' ws)) as G.
    { intros lims0 vs0. induction fs' as [|[n ft] fs' IHf]; intros ws al off b0 Hi R'.
      - destruct ws; [constructor|destruct R'].
      - destruct ws as [|[n' w] ws]; [destruct R'|]. destruct R' as (_ & pad & fb & rest & -> & _ & _ & R1 & R2).
        cbn [dict_fields]. assert (forall f, In f fs' -> In f fs) as Hi' by (intros; apply Hi; right; assumption).
        destruct (placeholder (n, ft)) eqn:P; [cbn [app]; eapply IHf; eassumption|]. cbn [app].
        constructor; [|eapply IHf; eassumption]. cbn [snd].
        assert (In (n, ft) fs) as Hf by (apply Hi; left; reflexivity).
        rewrite Forall_forall in IH. pose proof (IH _ Hf) as IHt. cbn [snd] in IHt.
        specialize (Wf _ _ Hf). specialize (D _ Hf). cbn [snd] in D. specialize (IHt Wf D).
        destruct ft as [sg sz| | |e cap|nm fs2 l2]; cbn [base] in IHt.
        + destruct w; eapply IHt; exact R1.
        + destruct w; eapply IHt; exact R1.
        + destruct w; eapply IHt; exact R1.
        + destruct (is_char e) eqn:Ec.
          * destruct e; try discriminate Ec. destruct R1 as (s & -> & _). cbn [dict_of serialisable]. apply decode_ignore_scalar.
          * apply rep_array in R1; [|exact Ec]. destruct R1 as (l & bs & -> & Hn & -> & F2).
            assert (Forall (fun v => serialisable (dict_of e v)) l) as FK.
            { clear - IHt F2. induction F2; constructor; eauto. }
            assert (forall l', Forall (fun v => serialisable (dict_of e v)) l' -> serialisable (JList (map (dict_of e) l'))) as FJ.
            { intros l' Hl'. cbn [serialisable]. rewrite fold_and_map, Forall_map. exact Hl'. }
            destruct (count_for lims0 vs0 n); apply FJ; [apply Forall_ztake|]; exact FK.
        + destruct w; eapply IHt; exact R1. }
    eapply G; eauto.
Qed.

Theorem C30_struct_to_dict_total c name fs lims b :
  In c versions -> type_in c (TStruct name fs lims) -> zlen b = sizeof (TStruct name fs lims) ->
  exists d, struct_to_dict (mkObj (TStruct name fs lims) b) = Ok (JDict d) /\ serialisable (JDict d).
Proof.
  intros Hc Ht L. destruct (type_in_ok c _ Hc Ht) as [W D]. destruct (image_total _ b W L) as (v & R).
  pose proof (dict_of_serialisable _ W D v b R) as K. pose proof (struct_to_dict_rep _ v b W D eq_refl R) as E.
  cbn [base] in K. apply rep_struct in R. destruct R as (vs & -> & R). rewrite dict_of_struct in *.
  eexists. split; [exact E|exact K].
Qed.

Lemma class_type_in c t : In t (class_types c) -> type_in c t.
Proof.
  unfold class_types, type_in. rewrite in_app_iff. intros [H|H].
  - destruct H as [<-|[<-|[<-|[<-|[]]]]]; eauto using part_refl; try (right; left; apply part_refl);
      try (right; right; left; apply part_refl); right; right; right; left; apply part_refl.
  - right. right. right. right. destruct (hc_cstat c) as [ct|]; [|destruct H]. destruct H as [<-|[]]. exists ct. split; [reflexivity|apply part_refl].
Qed.

Lemma sized_to_dict c t o : In c versions -> In t (class_types c) -> sized t o ->
  exists j, struct_to_dict o = Ok j /\ serialisable j.
Proof.
  intros Hc Ht [E L]. destruct (class_types_ok c t Hc Ht) as (_ & _ & S). apply class_type_in in Ht.
  destruct o as [ot ob]. cbn [o_type o_buf] in *. subst ot. destruct t as [| | | |name fs lims]; try discriminate S.
  destruct (C30_struct_to_dict_total c name fs lims ob Hc Ht L) as (d & A & B). eauto.
Qed.

(** Everything the reader ever returns, from any file, converts to a dictionary. *)
Theorem C30_everything_read_converts dec h f0 f0' check strict max_samples f ss e f' :
  get_header check f0 = (Ok h, f0') -> run dec (Some h) strict max_samples f = (ss, e, f') ->
  (exists j, struct_to_dict (h_obj h) = Ok j /\ serialisable j) /\
  Forall (fun s =>
    (exists j, struct_to_dict (s_record s) = Ok j /\ serialisable j) /\
    (exists j, struct_to_dict (s_sstat s) = Ok j /\ serialisable j) /\
    Forall (fun t => exists j, struct_to_dict t = Ok j /\ serialisable j) (s_tstats s) /\
    Forall (fun k => exists j, chainer_to_dict k = Ok j /\ serialisable j) (s_cgroups s)) ss.
Proof.
  intros Hh R.
  assert (In (h_class h) versions /\ zlen (h_buf h) = 480) as [Hc Lh] by (eapply get_header_class; exact Hh).
  split.
  - apply (sized_to_dict (h_class h) (hc_header (h_class h))); [exact Hc|left; reflexivity|].
    split; [reflexivity|]. cbn [h_obj o_buf]. destruct (class_table _ Hc) as (vs & Hvs).
    destruct (table_sizes _ _ Hvs) as (_ & X & _). rewrite X. exact Lh.
  - pose proof (run_sized dec h strict max_samples f ss e f' Hc R) as S. eapply Forall_impl; [|exact S].
    intros s (S1 & S2 & S3 & S4).
    split; [apply (sized_to_dict (h_class h) (hc_record (h_class h))); [exact Hc|cbn; tauto|exact S1]|].
    split; [apply (sized_to_dict (h_class h) (hc_sstat (h_class h))); [exact Hc|cbn; tauto|exact S2]|].
    split.
    + eapply Forall_impl; [|exact S3]. intros t St. apply (sized_to_dict (h_class h) (hc_tstat (h_class h))); [exact Hc|cbn; tauto|exact St].
    + eapply Forall_impl; [|exact S4]. intros k (ct & E & K1 & K2 & K3).
      destruct (sized_to_dict (h_class h) ct (cg_cstat k) Hc) as (j & Ej & Sj);
        [unfold class_types; rewrite E; cbn; tauto|exact K1|].
      unfold chainer_to_dict. rewrite Ej. cbn [rbind]. eexists. split; [reflexivity|].
      cbn [serialisable map fold_right snd]. split; [exact Sj|]. split; [|exact I].
      destruct K3 as [K3 _]. rewrite K3. apply fold_and_map. rewrite Forall_map. apply Forall_forall. intros x _. exact I.
Qed.

(** ** Examples: the hypotheses are met *)

(** The network interface of 1.26, inside an array inside a struct inside the sstat. *)
Lemma interface_1_26 : exists name fs lims, a1_26_PerIntf = TStruct name fs lims /\
  In a1_26_class versions /\ type_in a1_26_class (TStruct name fs lims) /\ sizeof (TStruct name fs lims) = 256.
Proof.
  do 3 eexists. split; [reflexivity|]. split; [left; reflexivity|]. split; [|vm_compute; reflexivity].
  right. right. left. eapply part_field; [do 3 right; left; reflexivity|].
  eapply part_field; [right; left; reflexivity|]. apply part_elt. apply part_refl.
Qed.

Definition eth0_image (pad : byte) : list byte :=
  [x65; x74; x68; x30] ++ zeros 12 ++ [xff; x01; x00; x00; x00; x00; x00; x80] ++ zeros 192 ++ [x01] ++ repeat pad 7 ++ zeros 32.

(** C22-C24, C26, C29, C30: its attributes and its dictionary. *)
Example C23_example :
  zlen (eth0_image x00) = sizeof a1_26_PerIntf /\
  (exists v, rep a1_26_PerIntf v (eth0_image x00)) /\
  getattr (mkObj a1_26_PerIntf (eth0_image x00)) "name" = Ok (PBytes [x65; x74; x68; x30]) /\
  getattr (mkObj a1_26_PerIntf (eth0_image x00)) "rbyte" = Ok (PInt (-9223372036854775297)) /\
  exists d, struct_to_dict (mkObj a1_26_PerIntf (eth0_image x00)) = Ok (JDict d) /\
    assoc "name" d = Some (JStr [101; 116; 104; 48]) /\ assoc "rfuture" d = None /\ List.length d = 19%nat.
Proof.
  destruct interface_1_26 as (name & fs & lims & E & Hc & Ht & S). rewrite <- E in *.
  split; [vm_compute; reflexivity|]. split; [apply (C23_every_image_has_a_value _ _ _ Hc Ht); vm_compute; reflexivity|].
  split; [vm_compute; reflexivity|]. split; [vm_compute; reflexivity|].
  eexists. split; [vm_compute; reflexivity|]. repeat apply conj; vm_compute; reflexivity.
Qed.

(** C25: two different images that differ in padding only. *)
Example C25_example : eth0_image x00 <> eth0_image xff /\ same_data a1_26_PerIntf (eth0_image x00) (eth0_image xff).
Proof.
  split; [intros X; vm_compute in X; discriminate X|]. split; [reflexivity|].
  assert (T : forallb (fun n => let i := Z.of_nat n in negb (data_byte a1_26_PerIntf i) || (at8 (eth0_image x00) i =? at8 (eth0_image xff) i))
              (seq 0 256) = true) by (vm_compute; reflexivity).
  intros i Hi D. change (zlen (eth0_image x00)) with 256 in Hi. rewrite forallb_forall in T.
  specialize (T (Z.to_nat i) ltac:(apply in_seq; lia)). cbn zeta in T. rewrite Z2Nat.id in T by lia. rewrite D in T.
  apply Z.eqb_eq. exact T.
Qed.

(** C27: two of 64 CPUs are listed. *)
Example C27_example : exists name fs lims e cap d js,
  type_in a1_26_class (TStruct name fs lims) /\ In ("cpu"%string, TArr e cap) fs /\ e <> TChar /\ ~ has_future "cpu" /\
  cap = 64 /\ zlen (x02 :: zeros 7359) = sizeof (TStruct name fs lims) /\
  struct_to_dict (mkObj (TStruct name fs lims) (x02 :: zeros 7359)) = Ok (JDict d) /\ assoc "cpu" d = Some (JList js) /\
  zlen js = 2.
Proof.
  destruct cpustat_1_26 as (name & fs & lims & e & cap & E & Hin & Hne & Hcap & Ht & Hs & _).
  assert (Hnf : ~ has_future "cpu") by (intros K; apply str_contains_spec in K; vm_compute in K; discriminate K).
  assert (L : zlen (x02 :: zeros 7359) = sizeof (TStruct name fs lims)) by (rewrite Hs; vm_compute; reflexivity).
  destruct (C27_counted_arrays _ _ _ _ _ _ _ _ (or_introl eq_refl) Ht Hin Hne Hnf L) as (lim & k & arr & d & js & A & B & _ & _ & D & F & G & _).
  exists name, fs, lims, e, cap, d, js. split; [exact Ht|]. split; [exact Hin|]. split; [exact Hne|]. split; [exact Hnf|].
  split; [exact Hcap|]. split; [exact L|]. split; [exact D|]. split; [exact F|].
  assert (lim = "nrcpu"%string) as -> by (vm_compute in A; congruence).
  assert (getattr (mkObj (TStruct name fs lims) (x02 :: zeros 7359)) "nrcpu" = Ok (PInt 2)) as K by (rewrite <- E; vm_compute; reflexivity).
  rewrite B in K. injection K as ->. rewrite G by lia. subst cap. reflexivity.
Qed.

(** C22: the layout of the CPU statistics of 1.26: four bytes of padding before "cfuture". *)
Example C22_example : exists name fs lims e cap,
  type_in a1_26_class (TStruct name fs lims) /\ In ("cpu"%string, TArr e cap) fs /\
  field_at (TStruct name fs lims) "lavg15" = Some (40, TFloat) /\
  (exists t, field_at (TStruct name fs lims) "cfuture" = Some (48, t)).
Proof.
  destruct cpustat_1_26 as (name & fs & lims & e & cap & E & Hin & _ & _ & Ht & _).
  exists name, fs, lims, e, cap. split; [exact Ht|]. split; [exact Hin|].
  rewrite <- E. split; [vm_compute; reflexivity|]. eexists. vm_compute. reflexivity.
Qed.

(** C24: the extreme values of a signed field, and the largest unsigned one. *)
Example C24_example :
  fetch (TInt true 8) [x00; x00; x00; x00; x00; x00; x00; x80] = PInt (- 2 ^ 63) /\
  fetch (TInt true 8) [xff; xff; xff; xff; xff; xff; xff; x7f] = PInt (2 ^ 63 - 1) /\
  fetch (TInt false 4) [xff; xff; xff; xff] = PInt (2 ^ 32 - 1) /\ fetch (TInt true 4) [xff; xff; xff; xff] = PInt (-1).
Proof. repeat apply conj; vm_compute; reflexivity. Qed.

(** C26: the keys of the interface, in order, without "rfuture" and "sfuture". *)
Example C26_example : exists d, struct_to_dict (mkObj a1_26_PerIntf (eth0_image x00)) = Ok (JDict d) /\
  map fst d = ["name"; "rbyte"; "rpack"; "rerrs"; "rdrop"; "rfifo"; "rframe"; "rcompr"; "rmultic"; "sbyte"; "spack"; "serrs"; "sdrop";
               "sfifo"; "scollis"; "scarrier"; "scompr"; "speed"; "duplex"]%string.
Proof. eexists. split; [vm_compute; reflexivity|reflexivity]. Qed.

(** C28: a count of -1 lists 63 of the 64 CPUs. *)
Example C28_example : exists name fs lims d js,
  type_in a1_26_class (TStruct name fs lims) /\ zlen negative_count_image = sizeof (TStruct name fs lims) /\
  struct_to_dict (mkObj (TStruct name fs lims) negative_count_image) = Ok (JDict d) /\
  assoc "cpu" d = Some (JList js) /\ zlen js = 63.
Proof.
  destruct cpustat_1_26 as (name & fs & lims & e & cap & _ & Hin & Hne & Hcap & Ht & Hs & Hg).
  assert (In a1_26_class versions) as Hc by (left; reflexivity).
  assert (zlen negative_count_image = sizeof (TStruct name fs lims)) as L by (rewrite Hs; vm_compute; reflexivity).
  assert (~ has_future "cpu") as Hnf by (intros K; apply str_contains_spec in K; vm_compute in K; discriminate K).
  destruct (C28_negative_counts _ _ _ _ _ _ _ _ Hc Ht Hin Hne Hnf L) as (lim & k & d & js & A & B & C & D & E).
  assert (lim = "nrcpu"%string) as -> by (vm_compute in A; congruence).
  rewrite Hg in B. injection B as <-. specialize (E ltac:(lia)). subst cap. exists name, fs, lims, d, js. auto.
Qed.

(** C29: "é" cut after its first byte disappears; so do stray continuation bytes, and an encoded
    surrogate. *)
Example C29_example :
  lenient_text [x61; xc3] [97] /\ lenient_text [x61; xc3; xa9; x62] [97; 233; 98] /\
  lenient_text [x80; x61; xed; xa0; x80; x62] [97; 98].
Proof.
  assert (forall s, lenient_text s (decode_ignore s)) as K by (intros s; apply decode_is_lenient).
  repeat apply conj; match goal with |- lenient_text ?s ?t => change (lenient_text s t); replace t with (decode_ignore s) by (vm_compute; reflexivity); apply K end.
Qed.

(** C30: a cgroup with two pids converts. *)
Example C30_example : exists t d, hc_cstat S_2_12.a2_12_class = Some t /\
  chainer_to_dict (mkChain (mkObj t (zeros 432)) (mkObj (TArr (TInt true 4) 2) [x01; x00; x00; x00; xff; xff; xff; xff])) = Ok (JDict d) /\
  assoc "proclist" d = Some (JList [JInt 1; JInt (-1)]) /\ serialisable (JDict d).
Proof.
  eexists. eexists. split; [reflexivity|]. split; [vm_compute; reflexivity|]. split; [reflexivity|].
  cbn [serialisable map fold_right snd]. repeat apply conj; try exact I; try (repeat constructor).
Qed.
