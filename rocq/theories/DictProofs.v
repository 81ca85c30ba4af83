(** * struct_to_dict against the specification *)
From Coq Require Import List ZArith Lia Bool String.
From Coq Require Import Init.Byte.
From Coq Require Import ZifyBool.
From Verif Require Import PyBase Utf8 CTypes Model Spec SpecDict BaseProofs LayoutProofs RepProofs.
Import ListNotations.
Open Scope list_scope.
Open Scope Z_scope.

(** ** Substring search *)

Lemma prefix_spec a b : String.prefix a b = true <-> exists c, b = String.append a c.
Proof.
  revert b. induction a as [|x a IH]; intros b; cbn [String.append].
  - split; [eauto|]. intros _. destruct b; reflexivity.
  - destruct b as [|y b].
    + split; [discriminate|]. intros [c H]. discriminate.
    + simpl. destruct (Ascii.ascii_dec x y) as [E|Hne].
      * subst y. rewrite IH. split; intros [c Hc]; exists c; congruence.
      * split; [discriminate|]. intros [c H]. congruence.
Qed.

Lemma str_contains_spec needle hay :
  str_contains needle hay = true <-> exists a b, hay = String.append a (String.append needle b).
Proof.
  induction hay as [|x hay IH]; cbn [str_contains].
  - rewrite orb_false_r, prefix_spec. split.
    + intros [c H]. exists EmptyString, c. exact H.
    + intros (a & b & H). destruct a; [exists b; exact H|discriminate].
  - rewrite orb_true_iff, prefix_spec, IH. split.
    + intros [[c H]|(a & b & ->)]; [exists EmptyString, c; exact H|exists (String x a), b; reflexivity].
    + intros (a & b & H). destruct a as [|y a]; [left; exists b; exact H|].
      right. cbn [String.append] in H. injection H as -> H. eauto.
Qed.

Lemma placeholder_spec n t : placeholder (n, t) = true <-> is_struct t = false /\ has_future n.
Proof.
  unfold placeholder, has_future. cbn [fst snd]. rewrite andb_true_iff, negb_true_iff, str_contains_spec.
  reflexivity.
Qed.

(** ** The loop over the fields *)

Definition dict_go (t : ctype) (buf : list byte) :
  list (string * ctype) -> Z -> list (string * json) -> res json :=
  fix go (rest : list (string * ctype)) (off : Z) (acc : list (string * json)) {struct rest}
         : res json :=
         match rest with
         | [] => Ok (JDict acc)
         | (name, ft) :: r =>
             let o := align_up off (alignof ft) in
             let fb := sub_bytes o (sizeof ft) buf in
             let next := o + sizeof ft in
             match ft with
             | TStruct _ _ _ =>
                 let? j := struct_to_dict_ ft fb in go r next (dict_set acc name j)
             | _ =>
                 if str_contains "future" name then go r next acc else
                 match ft with
                 | TArr TChar _ =>
                     go r next (dict_set acc name (JStr (decode_ignore (until_nul fb))))
                 | TArr e n =>
                     let? sel := limited (mkObj t buf) name (chunks (Z.to_nat n) (sizeof e) fb) in
                     let? js := rmap (fun b => match e with
                                               | TStruct _ _ _ => struct_to_dict_ e b
                                               | _ => Ok (elem_json e b)
                                               end) sel in
                     go r next (dict_set acc name (JList js))
                 | TChar => go r next (dict_set acc name (JStr (decode_ignore fb)))
                 | TInt sg sz => go r next (dict_set acc name (JInt (int_value sg sz fb)))
                 | TFloat => go r next (dict_set acc name (JFloat (le_uint fb)))
                 | TStruct _ _ _ => go r next acc
                 end
             end
         end.

Lemma struct_to_dict_go name fs lims buf :
  struct_to_dict_ (TStruct name fs lims) buf = dict_go (TStruct name fs lims) buf fs 0 [].
Proof. reflexivity. Qed.

Definition dict_fields (lims : list (string * string)) (vs : list (string * cval)) :
  list (string * ctype) -> list (string * cval) -> list (string * json) :=
  fix go (fs : list (string * ctype)) (ws : list (string * cval)) {struct fs}
              : list (string * json) :=
                match fs, ws with
                | (n, ft) :: fs', (_, w) :: ws' =>
                    (if placeholder (n, ft) then []
                     else [(n, match ft, w with
                               | TArr e cap, VArr l =>
                                   JList (map (dict_of e)
                                              (match count_for lims vs n with
                                               | Some k => ztake (listed k cap) l
                                               | None => l
                                               end))
                               | _, _ => dict_of ft w
                               end)])
                    ++ go fs' ws'
                | _, _ => []
                end.

Lemma dict_of_struct name fs lims vs :
  dict_of (TStruct name fs lims) (VStruct vs) = JDict (dict_fields lims vs fs vs).
Proof. reflexivity. Qed.

Lemma dict_set_new {V} (d : list (string * V)) k v : ~ In k (map fst d) -> dict_set d k v = d ++ [(k, v)].
Proof.
  induction d as [|[k' v'] d IH]; cbn [dict_set map fst In app]; intros H; [reflexivity|].
  destruct (String.eqb_spec k k') as [->|Hne]; [tauto|]. f_equal. apply IH. tauto.
Qed.

Lemma pyslice_to_listed {A} n (l : list A) cap : zlen l = cap -> pyslice_to n l = ztake (listed n cap) l.
Proof.
  intros <-. unfold listed. destruct (0 <=? n) eqn:E.
  - rewrite pyslice_to_pos by lia. destruct (Z_le_gt_dec n (zlen l)).
    + rewrite Z.min_l by lia. reflexivity.
    + rewrite Z.min_r, !ztake_all by lia. reflexivity.
  - rewrite pyslice_to_neg by lia. destruct (Z_le_gt_dec 0 (zlen l + n)).
    + rewrite Z.max_r by lia. reflexivity.
    + rewrite !ztake_0 by lia. reflexivity.
Qed.

Lemma rmap_Forall2 {A B C} (f : A -> res B) (g : C -> B) (R : C -> A -> Prop) cs l :
  Forall2 R cs l -> (forall c a, R c a -> f a = Ok (g c)) -> rmap f l = Ok (map g cs).
Proof.
  intros H Hf. induction H as [|c a cs l Hca _ IH]; cbn [rmap map]; [reflexivity|].
  rewrite (Hf _ _ Hca), IH. reflexivity.
Qed.

Lemma Forall2_ztake {A B} (R : A -> B -> Prop) l m n : Forall2 R l m -> Forall2 R (ztake n l) (ztake n m).
Proof.
  unfold ztake. intros H. revert H. generalize (Z.to_nat n). intros k H. revert k.
  induction H as [|a b l m Hab _ IH]; intros [|k]; cbn [firstn]; constructor; auto.
Qed.

(** What the induction carries: the dictionary of an image of a struct. *)
Definition dict_ok (t : ctype) : Prop :=
  forall v b, wf_type t = true -> dictable t = true -> is_struct t = true -> rep t v b ->
  struct_to_dict_ t b = Ok (dict_of t v).

Lemma elem_dict e v b : wf_type e = true -> is_struct e = false -> is_char e = false ->
  match e with TArr _ _ => false | _ => true end = true -> rep e v b -> elem_json e b = dict_of e v.
Proof.
  intros Hw Hs Hc Ha H. destruct e as [sg sz| | | |]; try discriminate.
  - destruct H as (z & -> & H1 & H2 & H3). cbn [elem_json dict_of]. f_equal.
    exact (rep_int_value sg sz z b Hw H1 H2 H3).
  - pose proof (rep_shows TFloat v b Hw H) as S. destruct H as (x & -> & _). cbn [shows fetch] in S.
    injection S as S. cbn [elem_json dict_of]. congruence.
Qed.

Lemma assoc_types_rep al fs vs off b lim sg sz :
  rep_fields al fs vs off b -> NoDup (map fst fs) -> assoc lim fs = Some (TInt sg sz) ->
  exists n, assoc lim vs = Some (VInt n).
Proof.
  revert vs off b. induction fs as [|[n ft] fs IH]; intros vs off b H Hn E; [discriminate|].
  destruct vs as [|[n' v'] vs]; [destruct H|].
  destruct H as (-> & pad & fb & rest & -> & _ & _ & H3 & H4).
  cbn [assoc] in *. destruct (String.eqb_spec lim n') as [->|Hne].
  - injection E as ->. destruct H3 as (z & -> & _). eauto.
  - inversion Hn; subst. eapply IH; eassumption.
Qed.

Lemma limited_spec name fs lims vs buf n e cap items :
  wf_type (TStruct name fs lims) = true -> dictable (TStruct name fs lims) = true ->
  rep (TStruct name fs lims) (VStruct vs) buf -> zlen items = cap ->
  limited (mkObj (TStruct name fs lims) buf) n items =
  Ok (match count_for lims vs n with Some k => ztake (listed k cap) items | None => items end) /\
  e = e :> ctype.
Proof.
  intros Hw Hd Hr Hl. split; [|reflexivity].
  unfold limited, count_for. cbn [o_type struct_limiters].
  destruct (assoc n lims) as [lim|] eqn:El; [|reflexivity].
  cbn [dictable] in Hd. apply andb_prop in Hd as [_ Hd]. rewrite forallb_forall in Hd.
  specialize (Hd _ (assoc_some_in _ _ _ El)). cbn [snd] in Hd.
  destruct (assoc lim fs) as [ft|] eqn:Ef; [|discriminate]. destruct ft as [sg sz| | | |]; try discriminate.
  pose proof (wf_struct _ _ _ Hw) as [Hnd Hwf].
  pose proof Hr as Hr'. apply rep_struct in Hr'. destruct Hr' as (vs' & E & Hf). injection E as <-.
  destruct (assoc_types_rep _ _ _ _ _ _ _ _ Hf Hnd Ef) as [k Hk]. rewrite Hk.
  pose proof (rep_shows _ _ _ Hw Hr) as S. destruct S as (o & Eo & _ & S). injection Eo as <-.
  change (shows_fields (mkObj (TStruct name fs lims) buf) vs) in S.
  assert (getattr (mkObj (TStruct name fs lims) buf) lim = Ok (PInt k)) as G.
  { clear -S Hk. induction vs as [|[m w] vs IH]; [discriminate|]. cbn [assoc] in Hk. destruct S as [[q [S1 S2]] S].
    destruct (String.eqb_spec lim m) as [->|Hne]; [|auto].
    injection Hk as ->. cbn [shows] in S2. subst q. exact S1. }
  unfold getint. rewrite G. cbn [rbind]. f_equal. apply pyslice_to_listed. exact Hl.
Qed.

Lemma dict_go_spec name fs0 lims vs0 buf :
  wf_type (TStruct name fs0 lims) = true -> dictable (TStruct name fs0 lims) = true ->
  rep (TStruct name fs0 lims) (VStruct vs0) buf ->
  forall fs vs off acc,
  Forall (fun f => dict_ok (snd f)) fs ->
  Forall (fun f => match snd f with TArr e _ => dict_ok e | _ => True end) fs ->
  (forall n t, In (n, t) fs -> wf_type t = true /\ dictable t = true) ->
  NoDup (map fst fs) -> (forall n, In n (map fst fs) -> ~ In n (map fst acc)) ->
  Forall2 (fun l nv => fst l = fst nv /\
             rep (snd (snd l)) (snd nv) (sub_bytes (fst (snd l)) (sizeof (snd (snd l))) buf))
          (layout_from off fs) vs ->
  dict_go (TStruct name fs0 lims) buf fs off acc = Ok (JDict (acc ++ dict_fields lims vs0 fs vs)).
Proof.
  intros Hw0 Hd0 Hr0. induction fs as [|[n ft] fs IH]; intros vs off acc Hok Hoka Hwd Hnd Hacc H.
  - inversion H; subst. cbn [dict_go dict_fields]. rewrite app_nil_r. reflexivity.
  - cbn [layout_from] in H. inversion H as [|? [n' w] ? vs' [E Hr] H']; subst. cbn [fst snd] in E, Hr. subst n'.
    inversion Hok as [|? ? Hokf Hok']; subst. inversion Hoka as [|? ? Hokaf Hoka']; subst.
    cbn [snd] in Hokf, Hokaf. cbn [map fst] in Hnd, Hacc. inversion Hnd as [|? ? Hn Hnd']; subst.
    destruct (Hwd n ft ltac:(left; reflexivity)) as [Hwf Hdf].
    assert (forall n t, In (n, t) fs -> wf_type t = true /\ dictable t = true) as Hwd'
      by (intros; eapply Hwd; right; eassumption).
    set (o := align_up off (alignof ft)) in *.
    set (fb := sub_bytes o (sizeof ft) buf) in *.
    (* one step that stores [j] under [n] *)
    assert (forall j, dict_go (TStruct name fs0 lims) buf fs (o + sizeof ft) (dict_set acc n j) =
                      Ok (JDict (acc ++ [(n, j)] ++ dict_fields lims vs0 fs vs'))) as Hstep.
    { intros j. rewrite dict_set_new by (apply Hacc; left; reflexivity).
      rewrite (IH vs' (o + sizeof ft) (acc ++ [(n, j)])).
      - rewrite <- app_assoc. reflexivity.
      - exact Hok'.
      - exact Hoka'.
      - exact Hwd'.
      - exact Hnd'.
      - intros m Hm. rewrite map_app, in_app_iff. cbn [map fst In]. intros [Hc|[<-|[]]].
        + revert Hc. apply Hacc. right. exact Hm.
        + apply Hn. exact Hm.
      - exact H'. }
    assert (dict_go (TStruct name fs0 lims) buf fs (o + sizeof ft) acc =
            Ok (JDict (acc ++ dict_fields lims vs0 fs vs'))) as Hskip.
    { apply IH; try assumption. intros m Hm. apply Hacc. right. exact Hm. }
    cbn [dict_go]. fold o. fold fb. cbn [dict_fields].
    destruct ft as [sg sz| | |e cap|sn sfs slims].
    + unfold placeholder. cbn [is_struct snd fst negb andb].
      destruct (str_contains "future" n); [exact Hskip|]. rewrite Hstep. do 4 f_equal.
      destruct Hr as (z & -> & H1 & H2 & H3). cbn [dict_of].
      rewrite (rep_int_value sg sz z fb Hwf H1 H2 H3). reflexivity.
    + unfold placeholder. cbn [is_struct snd fst negb andb].
      destruct (str_contains "future" n); [exact Hskip|]. rewrite Hstep. do 4 f_equal.
      rewrite <- (elem_dict TFloat w fb) by (try reflexivity; exact Hr). reflexivity.
    + unfold placeholder. cbn [is_struct snd fst negb andb].
      destruct (str_contains "future" n); [exact Hskip|]. rewrite Hstep. do 4 f_equal.
      destruct Hr as (c & -> & Hr). cbn [dict_of]. rewrite Hr. reflexivity.
    + unfold placeholder. cbn [is_struct snd fst negb andb].
      destruct (is_char e) eqn:Ec.
      * destruct e; try discriminate.
        destruct (str_contains "future" n); [exact Hskip|]. rewrite Hstep. do 4 f_equal.
        destruct Hr as (s & -> & _ & Hr). cbn [dict_of]. rewrite (c_string_until_nul _ _ Hr). reflexivity.
      * apply rep_array in Hr; [|exact Ec]. destruct Hr as (ws & bs & -> & Hcap & Hb & H2).
        cbn [wf_type] in Hwf. apply andb_prop in Hwf as [_ Hwf].
        assert (Forall (fun b => zlen b = sizeof e) bs) as Hbs.
        { clear -H2 Hwf. induction H2; constructor; [eapply rep_size; eassumption|assumption]. }
        assert (chunks (Z.to_nat cap) (sizeof e) fb = bs) as Hch.
        { rewrite Hb. replace (Z.to_nat cap) with (List.length bs); [apply chunks_concat; exact Hbs|].
          apply Forall2_zlen in H2. unfold zlen in *. lia. }
        assert (dictable e = true /\ match e with TArr _ _ => false | _ => true end = true) as [Hde Hae]
          by (cbn [dictable] in Hdf; destruct e; auto; discriminate).
        assert (forall l m, Forall2 (rep e) l m ->
                  rmap (fun b => match e with
                                 | TStruct _ _ _ => struct_to_dict_ e b
                                 | _ => Ok (elem_json e b)
                                 end) m = Ok (map (dict_of e) l)) as Hmap.
        { intros l m Hlm. apply (rmap_Forall2 _ _ (rep e)); [exact Hlm|]. intros v b Hvb.
          destruct (is_struct e) eqn:Es.
          - destruct e; try discriminate. apply Hokaf; assumption.
          - rewrite <- (elem_dict e v b) by assumption. destruct e; try discriminate; reflexivity. }
        rewrite Hch.
        assert (zlen bs = cap) as Hlb by (rewrite <- (Forall2_zlen _ _ _ H2); exact Hcap).
        destruct (limited_spec name fs0 lims vs0 buf n e cap bs Hw0 Hd0 Hr0 Hlb) as [Hlim _].
        destruct (str_contains "future" n).
        -- destruct e; try discriminate; exact Hskip.
        -- assert (forall X, match e with TChar => X | _ =>
             let? sel := limited (mkObj (TStruct name fs0 lims) buf) n bs in
             let? js := rmap (fun b => match e with
                                 | TStruct _ _ _ => struct_to_dict_ e b
                                 | _ => Ok (elem_json e b)
                                 end) sel in
             dict_go (TStruct name fs0 lims) buf fs (o + sizeof (TArr e cap)) (dict_set acc n (JList js)) end =
             Ok (JDict (acc ++ [(n, JList (map (dict_of e) (match count_for lims vs0 n with
                                               | Some k => ztake (listed k cap) ws
                                               | None => ws
                                               end)))] ++ dict_fields lims vs0 fs vs'))) as G.
           { intros X. rewrite Hlim. cbn [rbind].
             rewrite (Hmap (match count_for lims vs0 n with Some k => ztake (listed k cap) ws | None => ws end)).
             - cbn [rbind]. rewrite Hstep. destruct e; try discriminate; reflexivity.
             - destruct (count_for lims vs0 n); [apply Forall2_ztake|]; exact H2. }
           destruct e; try discriminate; exact (G (Raise TypeError)).
    + unfold placeholder. cbn [is_struct snd fst negb andb].
      rewrite (Hokf w fb Hwf Hdf eq_refl Hr). cbn [rbind]. apply Hstep.
Qed.

Theorem struct_to_dict_rep t : forall v b,
  wf_type t = true -> dictable t = true -> is_struct t = true -> rep t v b ->
  struct_to_dict_ t b = Ok (dict_of t v).
Proof.
  change (dict_ok t).
  assert (dict_ok t /\ match t with TArr e _ => dict_ok e | _ => True end) as [H _]; [|exact H].
  induction t as [sg sz| | |e n IH|name fs lims IH] using ctype_rect';
    try (split; [intros v b _ _ Hs; discriminate|exact I]).
  - split; [intros v b _ _ Hs; discriminate|apply IH].
  - split; [|exact I]. intros v b Hw Hd _ Hr.
    pose proof Hr as Hr'. apply rep_struct in Hr'. destruct Hr' as (vs & -> & Hf).
    rewrite struct_to_dict_go, dict_of_struct.
    pose proof (wf_struct _ _ _ Hw) as [Hnd Hwf].
    rewrite (dict_go_spec name fs lims vs b Hw Hd Hr fs vs 0 []).
    + reflexivity.
    + eapply Forall_impl; [|exact IH]. cbn beta. tauto.
    + eapply Forall_impl; [|exact IH]. cbn beta. tauto.
    + intros n t Hin. split; [eapply Hwf; exact Hin|].
      cbn [dictable] in Hd. apply andb_prop in Hd as [Hd _]. rewrite forallb_forall in Hd. exact (Hd _ Hin).
    + exact Hnd.
    + intros n _ [].
    + pose proof (rep_fields_at _ fs Hwf vs [] b Hf) as Hat. cbn [app] in Hat. exact Hat.
Qed.

(** ** Keys *)

Definition keys (j : json) : list string := match j with JDict d => map fst d | _ => [] end.

Lemma dict_fields_keys lims vs0 al fs : forall vs off b, rep_fields al fs vs off b ->
  map fst (dict_fields lims vs0 fs vs) = map fst (filter (fun f => negb (placeholder f)) fs).
Proof.
  induction fs as [|[n ft] fs IH]; intros [|[n' v'] vs] off b H; cbn [rep_fields] in H;
    try (destruct H; fail); [reflexivity|].
  destruct H as (-> & pad & fb & rest & -> & H1 & H2 & H3 & H4).
  cbn [dict_fields filter]. destruct (placeholder (n', ft)); cbn [negb app map fst].
  - eapply IH. exact H4.
  - f_equal. eapply IH. exact H4.
Qed.
