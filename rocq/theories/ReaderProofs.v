(** * Facts about the reader.py model *)
From Coq Require Import List ZArith Lia Bool String.
From Coq Require Import Init.Byte.
From Coq Require Import ZifyBool.
From Verif Require Import PyBase Utf8 CTypes S_shared S_1_26 Model Parsers Json Inflate Gzip Reader.
From Verif Require Import Spec SpecDict SpecLog SpecRows SpecReader.
From Verif Require Import BaseProofs LayoutProofs RepProofs DictProofs TableProofs HeaderProofs GenProofs RunProofs SizedProofs
  ParserProofs JsonProofs GzipProofs.
From Verif Require Import PropHeader PropLog PropStruct PropRows.
Import ListNotations.
Local Open Scope list_scope.
Local Open Scope Z_scope.

(** ** Paths *)

Lemma starts_with_spec p l : starts_with p l = true <-> exists b, l = p ++ b.
Proof.
  revert l. induction p as [|a p IH]; intros l; cbn [starts_with].
  - split; [intros _; exists l; reflexivity|reflexivity].
  - destruct l as [|b l]; [split; [discriminate|intros (q & E); discriminate E]|].
    rewrite andb_true_iff, Z.eqb_eq, IH. split.
    + intros (-> & q & ->). exists q. reflexivity.
    + intros (q & E). injection E as -> ->. split; [reflexivity|exists q; reflexivity].
Qed.

Lemma contains_spec p l : contains p l = true <-> exists a b, l = a ++ p ++ b.
Proof.
  induction l as [|c l IH]; cbn [contains]; rewrite orb_true_iff, starts_with_spec.
  - split.
    + intros [(b & E)|H]; [exists [], b; exact E|discriminate H].
    + intros (a & b & E). destruct a; [left; exists b; exact E|discriminate E].
  - rewrite IH. split.
    + intros [(b & E)|(a & b & E)]; [exists [], b; exact E|exists (c :: a), b; cbn; congruence].
    + intros (a & b & E). destruct a as [|d a]; [left; exists b; exact E|].
      injection E as -> E. right. exists a, b. exact E.
Qed.

Lemma uses_gzip_spec path : uses_gzip path = true <-> gz_path path.
Proof. unfold uses_gzip, gz_path. apply contains_spec. Qed.

(** ** The loop over the generator *)

Section Loop.
Variable dec : list byte -> option (list byte).

Definition outcome (entries : sample -> res (list json)) (ss : list sample) (e : ending) : res (list json) :=
  match rmap entries ss with
  | Ok l => match e with None => Ok (List.concat l) | Some x => Raise x end
  | Raise x => Raise x
  end.

Lemma collect_drain entries fuel g f ss e f' :
  drain dec fuel g f = (ss, Some e, f') -> fst (collect dec entries fuel g f) = outcome entries ss e.
Proof.
  revert g f ss e f'. induction fuel as [|k IH]; intros g f ss e f' H; cbn [drain collect] in *; [discriminate H|].
  destruct (gnext dec g f) as [[[s| |x] g1] f1].
  - destruct (drain dec k g1 f1) as [[ss1 e1] f2] eqn:E. injection H as <- -> <-.
    specialize (IH _ _ _ _ _ E). unfold outcome in *. cbn [rmap].
    destruct (entries s) as [es|x]; [|reflexivity]. cbn [rbind].
    destruct (collect dec entries k g1 f1) as [[l|x] f3]; cbn [fst] in *.
    + destruct (rmap entries ss1) as [ls|y]; [|discriminate IH]. destruct e; [discriminate IH|]. cbn [rbind List.concat].
      injection IH as ->. reflexivity.
    + destruct (rmap entries ss1) as [ls|y]; [|exact IH]. cbn [rbind]. destruct e; [exact IH|discriminate IH].
  - injection H as <- <- <-. reflexivity.
  - injection H as <- <- <-. reflexivity.
Qed.

(** reader.py:91-111 sees exactly the samples of [run], bounded by the default. *)
Lemma collect_run entries h f ss e f' :
  run dec (Some h) false MAX_SAMPLES_PER_FILE f = (ss, Some e, f') ->
  fst (collect dec entries (S (Z.to_nat MAX_SAMPLES_PER_FILE))
             (generate_statistics (Some h) false MAX_SAMPLES_PER_FILE) f) = outcome entries ss e.
Proof. intros H. eapply collect_drain. exact H. Qed.

(** The fuel is enough: any larger fuel gives the same result. *)
Lemma collect_enough entries h f fuel : (S (Z.to_nat MAX_SAMPLES_PER_FILE) <= fuel)%nat ->
  fst (collect dec entries fuel (generate_statistics (Some h) false MAX_SAMPLES_PER_FILE) f) =
  fst (collect dec entries (S (Z.to_nat MAX_SAMPLES_PER_FILE)) (generate_statistics (Some h) false MAX_SAMPLES_PER_FILE) f).
Proof.
  intros L. destruct (run_ends dec (Some h) false MAX_SAMPLES_PER_FILE f) as (ss & e & f' & E).
  rewrite (collect_run _ _ _ _ _ _ E). eapply collect_drain. rewrite C13_run_is_complete by exact L. exact E.
Qed.

Lemma outcome_ok entries ss l : outcome entries ss None = Ok l <->
  exists ls, Forall2 (fun s es => entries s = Ok es) ss ls /\ l = List.concat ls.
Proof.
  unfold outcome. assert (forall ls, rmap entries ss = Ok ls <-> Forall2 (fun s es => entries s = Ok es) ss ls) as K.
  { induction ss as [|s ss IH]; intros ls; cbn [rmap].
    - split; [intros H; injection H as <-; constructor|inversion 1; reflexivity].
    - destruct (entries s) as [es|x] eqn:E; cbn [rbind].
      + destruct (rmap entries ss) as [r|x]; cbn [rbind].
        * split; [intros H; injection H as <-; constructor; [exact E|apply IH; reflexivity]|].
          inversion 1; subst. match goal with X : Forall2 _ ss _ |- _ => apply IH in X; injection X as -> end. congruence.
        * split; [intros H; discriminate H|]. inversion 1; subst.
          match goal with X : Forall2 _ ss _ |- _ => apply IH in X; discriminate X end.
      + split; [intros H; discriminate H|]. inversion 1; congruence. }
  destruct (rmap entries ss) as [ls|x].
  - split; [intros H; injection H as <-; exists ls; split; [apply K; reflexivity|reflexivity]|].
    intros (ls' & H & ->). apply K in H. injection H as ->. reflexivity.
  - split; [intros H; discriminate H|]. intros (ls' & H & _). apply K in H. discriminate H.
Qed.

(** ** Files that fail after some bytes *)

(** [m] on a file that fails after [p]: the same as on any file that starts with [p], or the
    failure, and then it needs more than [p]. *)
Definition agrees {A} (m : M A) : Prop :=
  forward m /\
  forall p e, (exists p', snd (m (mkFile p (Some e))) = mkFile p' (Some e) /\
                 forall x, m (plain (p ++ x)) = (fst (m (mkFile p (Some e))), plain (p' ++ x))) \/
              (m (mkFile p (Some e)) = (Raise e, mkFile [] (Some e)) /\
               forall x, x <> [] -> zlen (f_rem (snd (m (plain (p ++ x))))) < zlen x).

Lemma agrees_ret {A} (a : A) : agrees (mret a).
Proof. split; [apply forward_ret|]. intros p e. left. exists p. split; reflexivity. Qed.
Lemma agrees_lift {A} (r : res A) : agrees (mlift r).
Proof. split; [apply forward_lift|]. intros p e. left. exists p. split; reflexivity. Qed.

Lemma forward_len {A} (m : M A) f : forward m -> zlen (f_rem (snd (m f))) <= zlen (f_rem f).
Proof. intros H. destruct (H f) as (pre & E). rewrite E, zlen_app. pose proof (zlen_nonneg pre). lia. Qed.

Lemma agrees_bind {A B} (m : M A) (k : A -> M B) : agrees m -> (forall a, agrees (k a)) -> agrees (mbind m k).
Proof.
  intros [Fm Hm] Hk. split; [apply forward_bind; [exact Fm|intros a; apply Hk]|].
  intros p e. unfold mbind. destruct (Hm p e) as [(p1 & S1 & X1)|[R1 X1]].
  - destruct (m (mkFile p (Some e))) as [[a|y] f1]; cbn [fst snd] in *; subst f1.
    + destruct (Hk a) as [Fk Ka]. destruct (Ka p1 e) as [(p2 & S2 & X2)|[R2 X2]].
      * left. exists p2. split; [exact S2|]. intros x. rewrite X1. apply X2.
      * right. split; [exact R2|]. intros x Hx. rewrite X1. apply X2, Hx.
    + left. exists p1. split; [reflexivity|]. intros x. rewrite X1. reflexivity.
  - right. rewrite R1. split; [reflexivity|]. intros x Hx. specialize (X1 x Hx).
    destruct (m (plain (p ++ x))) as [[a|y] f1]; cbn [snd] in *; [|exact X1].
    destruct (Hk a) as [Fk _]. pose proof (forward_len (k a) f1 Fk). lia.
Qed.

Lemma agrees_fread n : agrees (fread n).
Proof.
  split; [apply forward_fread|]. intros p e. unfold fread, plain. cbn [f_rem f_fault].
  destruct (Z.leb_spec n (zlen p)) as [L|L].
  - left. exists (zdrop n p). split; [reflexivity|]. intros x. rewrite zlen_app. pose proof (zlen_nonneg x).
    replace (n <=? zlen p + zlen x) with true by lia. cbn [fst]. f_equal.
    + f_equal. unfold ztake. rewrite firstn_app. replace (Z.to_nat n - List.length p)%nat with O by (unfold zlen in L; lia).
      cbn [firstn]. rewrite app_nil_r. reflexivity.
    + f_equal. unfold zdrop. rewrite skipn_app. replace (Z.to_nat n - List.length p)%nat with O by (unfold zlen in L; lia). reflexivity.
  - right. split; [reflexivity|]. intros x Hx. assert (0 < zlen x) as Lx.
    { destruct x; [congruence|]. rewrite zlen_cons. pose proof (zlen_nonneg x). lia. }
    pose proof (zlen_nonneg p). destruct (n <=? zlen (p ++ x)); cbn [snd f_rem]; [|exact Lx].
    rewrite zlen_zdrop, zlen_app. lia.
Qed.

Lemma agrees_freadinto n : agrees (freadinto n).
Proof.
  assert (forall f, freadinto n f = mbind (fread n) (fun b => mret (b ++ zeros (n - zlen b))) f) as E.
  { intros f. unfold freadinto, mbind, mret. destruct (fread n f) as [[b|x] f1]; reflexivity. }
  destruct (agrees_bind (fread n) (fun b => mret (b ++ zeros (n - zlen b))) (agrees_fread n) (fun b => agrees_ret _)) as [F K].
  split; [intros f; rewrite E; apply F|]. intros p e. rewrite E. destruct (K p e) as [(p' & S & X)|[R X]].
  - left. exists p'. split; [exact S|]. intros x. rewrite E. apply X.
  - right. split; [exact R|]. intros x Hx. rewrite E. apply X, Hx.
Qed.

Ltac agree := repeat first
  [ apply agrees_bind; [|intros ?] | apply agrees_fread | apply agrees_freadinto | apply agrees_ret | apply agrees_lift
  | match goal with |- agrees (if ?b then _ else _) => destruct b end ].

Lemma agrees_read_sample h gate : agrees (read_sample dec h gate).
Proof. unfold read_sample, get_record, get_sstat, get_tstat, get_cstat. agree. Qed.

Section Fault.
Variables (vs : vspec) (c : hclass) (hb : list byte).
Hypothesis Hc : In (vs, c) table.
Hypothesis Hv : is_version vs hb.
Hypothesis Hsz : sizes_match vs hb.
Let h := mkHdr c hb.

Lemma read_sample_fault_nil e : read_sample dec h (gate_of vs) (mkFile [] (Some e)) = (Raise e, mkFile [] (Some e)).
Proof.
  unfold read_sample, get_record, h. cbn [h_class]. destruct (table_sizes _ _ Hc) as (_ & _ & -> & _).
  pose proof (spec_sizes vs c Hc) as (Z1 & _). unfold mbind, freadinto, fread. cbn [f_rem f_fault].
  change (zlen (@nil byte)) with 0. replace (vs_rec vs <=? 0) with false by lia. reflexivity.
Qed.

Lemma D_fault strict ss p q todo e : Forall (wf_sample dec vs) ss -> zlen ss < todo -> samples_bytes ss = p ++ q ->
  D dec h (gate_of vs) strict todo (mkFile p (Some e)) =
  (map (view c) (complete (zlen p) ss), Some (exn_end strict e), mkFile [] (Some e)).
Proof.
  intros Hw. revert p todo. induction Hw as [|s ss Hs _ IH]; intros p todo L E.
  - cbn [samples_bytes map List.concat] in E. destruct p; [|discriminate E].
    change (zlen (@nil lsample)) with 0 in L. rewrite D_pos by lia.
    rewrite read_sample_fault_nil. reflexivity.
  - rewrite zlen_cons in L. pose proof (zlen_nonneg ss). rewrite samples_bytes_cons in E. rewrite D_pos by lia.
    destruct (agrees_read_sample h (gate_of vs)) as [_ A].
    apply prefix_cases in E as [(Lp & a2 & E & N)|(p2 & -> & E)].
    + cbn [complete]. replace (zlen (sample_bytes s) <=? zlen p) with false by lia.
      destruct (A p e) as [(p' & S & X)|[R _]]; [|rewrite R; reflexivity].
      exfalso. specialize (X a2). rewrite <- E in X.
      pose proof (read_sample_ok dec vs c hb Hc Hv Hsz s [] Hs) as G. rewrite app_nil_r in G. fold h in G.
      rewrite G in X. injection X as _ X. destruct p'; destruct a2; try discriminate X. congruence.
    + cbn [complete]. rewrite zlen_app. pose proof (zlen_nonneg p2).
      replace (zlen (sample_bytes s) <=? zlen (sample_bytes s) + zlen p2) with true by lia.
      replace (zlen (sample_bytes s) + zlen p2 - zlen (sample_bytes s)) with (zlen p2) by lia.
      destruct (A (sample_bytes s ++ p2) e) as [(p' & S & X)|[_ X]].
      * specialize (X []). rewrite !app_nil_r in X.
        pose proof (read_sample_ok dec vs c hb Hc Hv Hsz s p2 Hs) as G. fold h in G. rewrite G in X.
        injection X as X1 X2. rewrite (surjective_pairing (read_sample dec h (gate_of vs) _)), S, <- X1, <- X2.
        rewrite (IH p2 (todo - 1)) by (lia || exact E). reflexivity.
      * exfalso. specialize (X [x00] ltac:(discriminate)). rewrite <- app_assoc in X.
        pose proof (read_sample_ok dec vs c hb Hc Hv Hsz s (p2 ++ [x00]) Hs) as G. fold h in G. rewrite G in X.
        cbn [snd plain f_rem] in X. rewrite zlen_app in X. lia.
Qed.
End Fault.
End Loop.

(** ** The entry of a sample without parseables *)

Lemma describe c t b : In c versions -> In t (class_types c) -> zlen b = sizeof t ->
  exists j, struct_to_dict (mkObj t b) = Ok j /\ describes t b j /\ serialisable j.
Proof.
  intros Hc Ht L. destruct (class_types_ok c t Hc Ht) as (_ & _ & S). apply class_type_in in Ht.
  destruct (type_in_ok c _ Hc Ht) as [W D]. destruct (image_total _ b W L) as (v & R).
  pose proof (dict_of_serialisable _ W D v b) as K. pose proof (struct_to_dict_rep _ v b W D S R) as E.
  exists (dict_of t v). split; [exact E|]. split; [exists v; auto|].
  destruct t as [| | | |name fs lims]; try discriminate S. apply K. exact R.
Qed.

Lemma describes_fun c t b j j' : In c versions -> In t (class_types c) -> describes t b j -> describes t b j' -> j = j'.
Proof.
  intros Hc Ht (v & R & ->) (v' & R' & ->). destruct (class_types_ok c t Hc Ht) as (_ & _ & S). apply class_type_in in Ht.
  destruct (type_in_ok c _ Hc Ht) as [W D]. pose proof (struct_to_dict_rep _ v b W D S R) as E.
  pose proof (struct_to_dict_rep _ v' b W D S R') as E'. congruence.
Qed.

Lemma rmap_ok {A B} (f : A -> res B) (P : A -> B -> Prop) l :
  Forall (fun x => exists y, f x = Ok y /\ P x y) l -> exists ys, rmap f l = Ok ys /\ Forall2 P l ys.
Proof.
  induction 1 as [|x l (y & E & H) _ (ys & Es & Hs)]; [exists []; split; [reflexivity|constructor]|].
  exists (y :: ys). cbn [rmap]. rewrite E. cbn [rbind]. rewrite Es. split; [reflexivity|constructor; assumption].
Qed.

Lemma proclist_items k pids : array_items (cg_proclist k) = map PInt pids ->
  match o_type (cg_proclist k) with
  | TArr e n => map (elem_json e) (chunks (Z.to_nat n) (sizeof e) (o_buf (cg_proclist k)))
  | _ => []
  end = map JInt pids.
Proof.
  unfold array_items. destruct (o_type (cg_proclist k)) as [| | |e n|].
  1,2,3,5: intros H; destruct pids; [reflexivity|discriminate H].
  generalize (chunks (Z.to_nat n) (sizeof e) (o_buf (cg_proclist k))). intros l. revert pids.
  induction l as [|b l IH]; intros [|p pids] H; try discriminate H; [reflexivity|].
  cbn [map] in *. injection H as H1 H2. f_equal; [|apply IH, H2].
  destruct e as [sg sz| | |e' n'|]; cbn [fetch elem_json] in *; try discriminate H1.
  - injection H1 as ->. reflexivity.
  - destruct e'; discriminate H1.
Qed.

Lemma group_to_dict c ct g k : In c versions -> hc_cstat c = Some ct -> zlen (lg_cstat g) = sizeof ct -> holds_group ct g k ->
  exists j, chainer_to_dict k = Ok j /\ group_entry ct g j /\ serialisable j.
Proof.
  intros Hc Ect L (H1 & H2). destruct (describe c ct (lg_cstat g) Hc) as (jc & E & Dj & Sj).
  { unfold class_types. rewrite Ect. cbn. tauto. } { congruence. }
  unfold chainer_to_dict. rewrite H1, E. cbn [rbind]. rewrite (proclist_items _ _ H2).
  eexists. split; [reflexivity|]. split; [exists jc; auto|].
  cbn [serialisable map fold_right snd]. split; [exact Sj|]. split; [|exact I].
  apply fold_and_map. rewrite Forall_map. apply Forall_forall. intros x _. exact I.
Qed.

Lemma Forall2_Forall_l {A B} (P : A -> Prop) (R : A -> B -> Prop) (Q : B -> Prop) l m :
  Forall P l -> Forall2 R l m -> (forall a b, P a -> R a b -> Q b) -> Forall Q m.
Proof. intros H F K. induction F; inversion H; subst; constructor; eauto. Qed.

Lemma Forall2_of_map {A B C} (f : A -> B) (P : B -> C -> Prop) l m : Forall2 P (map f l) m -> Forall2 (fun a c => P (f a) c) l m.
Proof. revert m. induction l as [|a l IH]; intros m H; cbn [map] in H; inversion H; subst; constructor; auto. Qed.

(** The images of a sample have the sizes of the structs of class [c]. *)
Definition images_ok (c : hclass) (s : lsample) : Prop :=
  zlen (ls_record s) = sizeof (hc_record c) /\ zlen (ls_sstat s) = sizeof (hc_sstat c) /\
  Forall (fun t => zlen t = sizeof (hc_tstat c)) (ls_tstats s) /\
  match hc_cstat c with Some ct => Forall (fun g => zlen (lg_cstat g) = sizeof ct) (ls_groups s) | None => True end.

Lemma wf_images dec vs c s : In (vs, c) table -> wf_sample dec vs s -> images_ok c s.
Proof.
  intros Ht (W1 & _ & _ & _ & W5 & W6 & _ & _ & W9). destruct (table_sizes _ _ Ht) as (_ & S1 & S2 & S3 & S4 & S5).
  split; [congruence|]. split; [congruence|]. split; [rewrite S4; exact W6|].
  destruct (hc_cstat c) as [ct|]; [|exact I]. destruct (vs_cstat vs) as [size|]; [|discriminate S5].
  destruct S5 as (ct' & X & Sz). injection X as <-. destruct W9 as (_ & _ & _ & G & _).
  eapply Forall_impl; [|exact G]. intros g (L & _). congruence.
Qed.

Lemma full_sample_ok c hb st sc s y : In c versions -> zlen hb = header_size -> images_ok c s -> holds_sample c s y ->
  exists j, full_sample st sc (mkHdr c hb) y = Ok j /\ full_entry c hb st sc s j /\ serialisable j.
Proof.
  intros Hc Lh (W1 & W5 & W6 & W9) (H1 & H2 & H3 & H4).
  destruct (class_table _ Hc) as (vs & Ht). destruct (table_sizes _ _ Ht) as (_ & S1 & _).
  destruct (describe c (hc_header c) hb Hc) as (jh & Eh & Dh & Sh); [cbn; tauto|congruence|].
  destruct (describe c (hc_record c) (ls_record s) Hc) as (jr & Er & Dr & Sr); [cbn; tauto|congruence|].
  destruct (describe c (hc_sstat c) (ls_sstat s) Hc) as (js & Es & Ds & Ss); [cbn; tauto|congruence|].
  destruct (rmap_ok struct_to_dict (fun o j => describes (hc_tstat c) (o_buf o) j /\ serialisable j) (s_tstats y)) as (jts & Et & Ft).
  { rewrite H3, Forall_map. eapply Forall_impl; [|exact W6]. intros t Lt. cbn beta in *.
    destruct (describe c (hc_tstat c) t Hc) as (j & E & D & S); [cbn; tauto|congruence|]. exists j. auto. }
  rewrite H3 in Ft. apply Forall2_of_map in Ft.
  assert (exists jgs, rmap chainer_to_dict (s_cgroups y) = Ok jgs /\ Forall serialisable jgs /\
    match hc_cstat c with Some ct => Forall2 (group_entry ct) (ls_groups s) jgs | None => jgs = [] end) as (jgs & Eg & Sg & Fg).
  { destruct (hc_cstat c) as [ct|] eqn:Ect.
    - rename W9 into G. clear -Hc Ect G H4. revert G.
      induction H4 as [|g k gs ks Hg _ IH]; intros G; [exists []; split; [reflexivity|split; constructor]|].
      inversion G as [|? ? G1 G2]; subst. destruct (IH G2) as (jgs & E1 & E2 & E3).
      destruct (group_to_dict c ct g k Hc Ect G1 Hg) as (j & E & Gj & Sj). exists (j :: jgs).
      cbn [rmap]. rewrite E. cbn [rbind]. rewrite E1. split; [reflexivity|]. split; constructor; assumption.
    - rewrite H4. exists []. repeat split. constructor. }
  unfold full_sample, h_obj. cbn [h_class h_buf]. rewrite Eh, H1, H2. cbn [rbind]. rewrite Er. cbn [rbind]. rewrite Es. cbn [rbind].
  rewrite Et. cbn [rbind]. rewrite Eg. cbn [rbind].
  exists (JDict ([("header"%string, jh); ("record"%string, jr); ("sstat"%string, js)] ++
               (if st then [("tstat"%string, JList jts)] else []) ++
               (if sc then [("cgroup"%string, JList jgs)] else []))).
  split; [destruct st, sc; reflexivity|]. split.
  - exists jh, jr, js, jts, jgs. repeat apply conj; try assumption.
    + clear -Ft. induction Ft as [|t j ts js [D _] _ IH]; constructor; auto.
    + destruct st, sc; reflexivity.
  - assert (Forall serialisable jts) as Sts.
    { clear -Ft. induction Ft as [|t j ts js [_ D] _ IH]; constructor; auto. }
    apply fold_and_map in Sts. apply fold_and_map in Sg.
    destruct st, sc; cbn [serialisable map fold_right snd app]; tauto.
Qed.

(** ** Parseable rows *)

Lemma core_rows_of_eq hb rb sb : core_rows hb rb sb = core_rows_of hb rb sb.
Proof.
  unfold core_rows, core_rows_of. apply map_ext_in. intros i Hi. apply in_seq in Hi.
  f_equal. unfold core_slots, slots.
  assert (nth_error (map (fun i => piece sb (192 + 112 * Z.of_nat i) 112) (seq 0 (Z.to_nat 64))) i =
          Some (piece sb (192 + 112 * Z.of_nat i) 112)) as N.
  { rewrite nth_error_map, (nth_error_nth' _ O) by (rewrite seq_length; lia).
    rewrite seq_nth by lia. reflexivity. }
  apply nth_error_nth. exact N.
Qed.

Lemma parseable_rows_of hb rb sb tbs p : zlen sb = 88368 -> Forall (fun t => zlen t = 616) tbs -> In p parseable_names ->
  exists f, assoc p parsers_1_26 = Some f /\ rows_of hb rb sb tbs p (f (h126 hb) (r126 rb) (s126 sb) (map t126 tbs)).
Proof.
  intros L Lt Hp. unfold parseable_names in Hp.
  repeat (destruct Hp as [<- | Hp]; [eexists; split; [reflexivity|]|]); [..|destruct Hp].
  - rewrite C31_core_rows, core_rows_of_eq. constructor.
  - rewrite C34_CPL. constructor.
  - rewrite C34_CPU. constructor.
  - constructor. apply C32_DSK.
  - constructor. apply C32_LVM.
  - constructor. apply C32_MDD.
  - rewrite C34_MEM. constructor.
  - constructor. apply C32_NETL, L.
  - rewrite C34_NETU. constructor.
  - rewrite C34_PAG. constructor.
  - constructor. apply C33_PRC, Lt.
  - constructor. apply C33_PRG, Lt.
  - constructor. apply C33_PRM, Lt.
  - constructor. apply C33_PRN, Lt.
  - rewrite C34_SWP. constructor.
Qed.

(** A row that the tag can be appended to and that can be printed. *)
Definition row_ok (w : list (string * json)) : Prop :=
  ~ In "parseable"%string (map fst w) /\ serialisable (JDict w).

Ltac no_key := let H := fresh in intros H; cbn [map fst app] in H;
  repeat (destruct H as [H | H]; [discriminate H|]); exact H.
Ltac row_ok_tac := split; [no_key|]; cbn [serialisable map fold_right snd app]; repeat apply conj; try exact I;
  try (apply u32_range); try assumption.

Lemma scalar_small c : 0 <= c < 256 -> scalar c.
Proof. unfold scalar. lia. Qed.
Lemma str_scalar s : Forall scalar (map (fun c => Z.of_nat (Ascii.nat_of_ascii c)) (list_ascii_of_string s)).
Proof.
  rewrite Forall_map. apply Forall_forall. intros c _. apply scalar_small. pose proof (Ascii.nat_ascii_bounded c). lia.
Qed.

Lemma rows_spec_rows {A} stop (ok : A -> list (string * json) -> Prop) bad (Q : list (string * json) -> Prop) l o :
  rows_spec stop ok bad l o -> (forall x v, ok x v -> Q v) -> Forall Q (fst o).
Proof. intros H K. induction H; cbn [fst] in *; constructor; eauto. Qed.

Lemma disk_row_ok r slot name : Forall scalar name -> row_ok (disk_spec r slot name).
Proof. intros H. unfold disk_spec, time_of, interval_of, n64. row_ok_tac. Qed.
Lemma intf_row_ok r slot name : Forall scalar name -> row_ok (intf_spec r slot name).
Proof. intros H. unfold intf_spec, time_of, interval_of, n64. row_ok_tac. Qed.
Lemma state_scalar t i : Forall scalar [at8 t i].
Proof. constructor; [apply scalar_small, at8_range|constructor]. Qed.
Lemma flag_scalar h i : serialisable (flag_of h i).
Proof. apply str_scalar. Qed.

Ltac task_ok_tac := intros; unfold prc_spec, prm_spec, prn_spec, prg_spec, task_row_head, time_of, interval_of, hertz_of, pagesize_of, kib, n64, n32;
  split; [no_key|]; cbn [serialisable map fold_right snd app]; repeat apply conj; try exact I; try assumption;
  try apply state_scalar; try apply flag_scalar.
Lemma prc_row_ok h r t name : Forall scalar name -> row_ok (prc_spec h r t name).
Proof. task_ok_tac. Qed.
Lemma prm_row_ok h r t name : Forall scalar name -> row_ok (prm_spec h r t name).
Proof. task_ok_tac. Qed.
Lemma prn_row_ok h r t name : Forall scalar name -> row_ok (prn_spec h r t name).
Proof. task_ok_tac. Qed.
Lemma prg_row_ok h r t name cmd : Forall scalar name -> Forall scalar cmd -> row_ok (prg_spec h r t name cmd).
Proof. task_ok_tac. Qed.

Lemma rows_of_ok h r s ts p o : rows_of h r s ts p o -> Forall row_ok (fst o).
Proof.
  destruct 1 as [| | | | | | |o H|o H|o H|o H|o H|o H|o H|o H]; cbn [fst].
  - unfold core_rows_of. rewrite Forall_map. apply Forall_forall. intros i _.
    unfold core_row, time_of, interval_of, hertz_of, n64. row_ok_tac.
  - constructor; [|constructor]. unfold load_row, time_of, interval_of, n64, f32. row_ok_tac.
  - constructor; [|constructor]. unfold cpu_row, time_of, interval_of, hertz_of, n64. row_ok_tac.
  - constructor; [|constructor]. unfold mem_row, time_of, interval_of, pagesize_of, n64. row_ok_tac.
  - constructor; [|constructor]. unfold swap_row, time_of, interval_of, pagesize_of, n64. row_ok_tac.
  - constructor; [|constructor]. unfold paging_row, time_of, interval_of, pagesize_of, n64. row_ok_tac.
  - constructor; [|constructor]. unfold net_row, time_of, interval_of, n64, n64_sum. row_ok_tac. apply (str_scalar "upper").
  - eapply rows_spec_rows; [exact H|]. intros x v (_ & nm & (Sc & _) & ->). apply disk_row_ok, Sc.
  - eapply rows_spec_rows; [exact H|]. intros x v (_ & nm & (Sc & _) & ->). apply disk_row_ok, Sc.
  - eapply rows_spec_rows; [exact H|]. intros x v (_ & nm & (Sc & _) & ->). apply disk_row_ok, Sc.
  - eapply rows_spec_rows; [exact H|]. intros x v (_ & nm & (Sc & _) & ->). apply intf_row_ok, Sc.
  - eapply rows_spec_rows; [exact H|]. intros x v (_ & nm & (Sc & _) & ->). apply prc_row_ok, Sc.
  - eapply rows_spec_rows; [exact H|]. intros x v (_ & nm & (Sc & _) & ->). apply prm_row_ok, Sc.
  - eapply rows_spec_rows; [exact H|]. intros x v (_ & nm & (Sc & _) & ->). apply prn_row_ok, Sc.
  - eapply rows_spec_rows; [exact H|]. intros x v (_ & nm & cmd & (Sc & _) & (Sc' & _) & ->). apply prg_row_ok; assumption.
Qed.

Lemma rows_of_fun h r s ts p o o' : rows_of h r s ts p o -> rows_of h r s ts p o' -> o = o'.
Proof.
  destruct 1; inversion 1; subst; try reflexivity;
    (eapply C32_spec_determines_rows; eassumption) || (eapply C33_spec_determines_rows; eassumption) ||
    (eapply C33_spec_determines_cmd_rows; eassumption).
Qed.

(** ** The tag *)

Lemma dict_set_new {A} (d : list (string * A)) k v : ~ In k (map fst d) -> dict_set d k v = d ++ [(k, v)].
Proof.
  induction d as [|[k' v'] d IH]; intros H; [reflexivity|]. cbn [dict_set map fst In] in *.
  destruct (String.eqb_spec k k') as [->|N]; [exfalso; apply H; left; reflexivity|].
  rewrite IH by (intros X; apply H; right; exact X). reflexivity.
Qed.

Lemma tag_eq p w : row_ok w -> JDict (dict_set w "parseable" (JStr (text p))) = tagged p w.
Proof. intros [N _]. rewrite dict_set_new by exact N. unfold tagged, SpecRows.str. rewrite text_codes. reflexivity. Qed.

Lemma tagged_serialisable p w : row_ok w -> serialisable (tagged p w).
Proof.
  intros [_ S]. unfold tagged. apply serialisable_dict. apply serialisable_dict in S. apply Forall_app. split; [exact S|].
  constructor; [|constructor]. apply str_scalar.
Qed.

Definition ended (rows : list json) (e : option exn) : res (list json) :=
  match e with None => Ok rows | Some x => Raise x end.

Lemma parseable_rows_ok hb s y ps : Forall (fun p => In p parseable_names) ps ->
  zlen (ls_sstat s) = 88368 -> Forall (fun t => zlen t = 616) (ls_tstats s) -> holds_sample a1_26_class s y ->
  exists rows e, sample_rows hb s ps rows e /\ Forall serialisable rows /\
    parseable_rows parsers_1_26 ps (h126 hb) y = ended rows e.
Proof.
  intros Hp L Lt (H1 & H2 & H3 & _). change (hc_record a1_26_class) with a1_26_Record in H1.
  change (hc_sstat a1_26_class) with a1_26_SStat in H2. change (hc_tstat a1_26_class) with a1_26_TStat in H3.
  induction Hp as [|p ps Hp _ (more & e & M1 & M2 & M3)]; [exists [], None; split; [constructor|split; [constructor|reflexivity]]|].
  destruct (parseable_rows_of hb (ls_record s) (ls_sstat s) (ls_tstats s) p L Lt Hp) as (f & Ef & R).
  cbn [parseable_rows]. rewrite Ef, H1, H2, H3. unfold r126, s126, t126 in R.
  match type of R with rows_of _ _ _ _ _ ?x => set (o := x) in * end.
  change (f (h126 hb) _ _ _) with o. clearbody o. destruct o as [rows [x|]].
  - exists [], (Some x). split; [econstructor; exact R|]. split; [constructor|reflexivity].
  - apply rows_of_ok in R as K. cbn [fst] in K.
    assert (map (fun w => JDict (dict_set w "parseable" (JStr (text p)))) rows = map (tagged p) rows) as Em.
    { apply map_ext_in. intros w Hw. rewrite Forall_forall in K. apply tag_eq, K, Hw. }
    exists (map (tagged p) rows ++ more), e. split; [econstructor; eassumption|]. split.
    + apply Forall_app. split; [|exact M2]. rewrite Forall_map. eapply Forall_impl; [|exact K]. intros w. apply tagged_serialisable.
    + rewrite M3, Em. destruct e; reflexivity.
Qed.

Lemma sample_rows_fun h s ps r1 e1 r2 e2 : sample_rows h s ps r1 e1 -> sample_rows h s ps r2 e2 -> r1 = r2 /\ e1 = e2.
Proof.
  intros H. revert r2 e2. induction H as [|p ps rows more e R _ IH|p ps rows e R]; intros r2 e2 K; inversion K as [|? ? rows' more' ? R' K'|? ? rows' ? R']; subst.
  - auto.
  - pose proof (rows_of_fun _ _ _ _ _ _ _ R R') as X. injection X as ->. destruct (IH _ _ K') as [-> ->]. auto.
  - pose proof (rows_of_fun _ _ _ _ _ _ _ R R') as X. discriminate X.
  - pose proof (rows_of_fun _ _ _ _ _ _ _ R R') as X. discriminate X.
  - pose proof (rows_of_fun _ _ _ _ _ _ _ R R') as X. injection X as _ ->. auto.
Qed.

Lemma log_rows_fun h ps ss r1 e1 r2 e2 : log_rows h ps ss r1 e1 -> log_rows h ps ss r2 e2 -> r1 = r2 /\ e1 = e2.
Proof.
  intros H. revert r2 e2. induction H as [|s ss rows more e R _ IH|s ss rows e R]; intros r2 e2 K; inversion K as [|? ? rows' more' ? R' K'|? ? rows' ? R']; subst.
  - auto.
  - destruct (sample_rows_fun _ _ _ _ _ _ _ R R') as [-> _]. destruct (IH _ _ K') as [-> ->]. auto.
  - destruct (sample_rows_fun _ _ _ _ _ _ _ R R') as [_ X]. discriminate X.
  - destruct (sample_rows_fun _ _ _ _ _ _ _ R R') as [_ X]. discriminate X.
  - destruct (sample_rows_fun _ _ _ _ _ _ _ R R') as [_ X]. injection X as ->. auto.
Qed.

(** The rows of all samples. *)
Lemma log_rows_ok hb ps ss ys : Forall (fun p => In p parseable_names) ps ->
  Forall (fun s => zlen (ls_sstat s) = 88368 /\ Forall (fun t => zlen t = 616) (ls_tstats s)) ss ->
  Forall2 (holds_sample a1_26_class) ss ys ->
  exists rows e, log_rows hb ps ss rows e /\ Forall serialisable rows /\
    outcome (parseable_rows parsers_1_26 ps (h126 hb)) ys None = ended rows e.
Proof.
  intros Hp Hs H. induction H as [|s y ss ys Hy _ IH].
  - exists [], None. split; [constructor|]. split; [constructor|reflexivity].
  - inversion Hs as [|? ? [L Lt] Hs']; subst. destruct (IH Hs') as (more & e & M1 & M2 & M3).
    destruct (parseable_rows_ok hb s y ps Hp L Lt Hy) as (rows & e0 & R1 & R2 & R3).
    unfold outcome in *. cbn [rmap]. rewrite R3. destruct e0 as [x|]; cbn [ended rbind].
    + exists [], (Some x). split; [econstructor; exact R1|]. split; [constructor|reflexivity].
    + exists (rows ++ more), e. split; [econstructor; eassumption|]. split; [apply Forall_app; auto|].
      destruct (rmap _ ys) as [l|x]; cbn [rbind List.concat] in *; destruct e; cbn [ended] in *; congruence.
Qed.

(** The entries of all samples without parseables. *)
Lemma full_rows_ok c hb st sc ss ys : In c versions -> zlen hb = header_size -> Forall (images_ok c) ss ->
  Forall2 (holds_sample c) ss ys ->
  exists js, Forall2 (full_entry c hb st sc) ss js /\ Forall serialisable js /\
    rmap (fun y => let? j := full_sample st sc (mkHdr c hb) y in Ok [j]) ys = Ok (map (fun j => [j]) js).
Proof.
  intros Hc Lh Hs H. induction H as [|s y ss ys Hy _ IH].
  - exists []. split; [constructor|]. split; [constructor|reflexivity].
  - inversion Hs as [|? ? Hs1 Hs']; subst. destruct (IH Hs') as (js & M1 & M2 & M3).
    destruct (full_sample_ok c hb st sc s y Hc Lh Hs1 Hy) as (j & E & F & S).
    exists (j :: js). split; [constructor; assumption|]. split; [constructor; assumption|].
    cbn [rmap map]. rewrite E. cbn [rbind]. rewrite M3. reflexivity.
Qed.

Lemma full_entry_fun c hb st sc s j j' : In c versions -> full_entry c hb st sc s j -> full_entry c hb st sc s j' -> j = j'.
Proof.
  intros Hv (jh & jr & js & jts & jgs & A1 & A2 & A3 & A4 & A5 & ->) (jh' & jr' & js' & jts' & jgs' & B1 & B2 & B3 & B4 & B5 & ->).
  assert (jh = jh') as -> by (eapply describes_fun; [exact Hv| |eassumption|eassumption]; cbn; tauto).
  assert (jr = jr') as -> by (eapply describes_fun; [exact Hv| |eassumption|eassumption]; cbn; tauto).
  assert (js = js') as -> by (eapply describes_fun; [exact Hv| |eassumption|eassumption]; cbn; tauto).
  assert (jts = jts') as ->.
  { clear -A4 B4 Hv. revert jts' B4. induction A4 as [|t j ts js D _ IH]; intros jts' B4; inversion B4; subst; [reflexivity|].
    f_equal; [|apply IH; assumption]. eapply describes_fun; [exact Hv| |eassumption|eassumption]; cbn; tauto. }
  assert (jgs = jgs') as ->; [|reflexivity].
  destruct (hc_cstat c) as [ct|] eqn:Ect; [|congruence].
  clear -A5 B5 Hv Ect. revert jgs' B5. induction A5 as [|g j gs js D _ IH]; intros jgs' B5; inversion B5 as [|? ? ? ? D' ?]; subst; [reflexivity|].
  f_equal; [|apply IH; assumption]. destruct D as (jc & D & ->), D' as (jc' & D' & ->).
  rewrite (describes_fun c ct (lg_cstat g) jc jc' Hv) by (assumption || (unfold class_types; rewrite Ect; cbn; tauto)). reflexivity.
Qed.

(** ** Yielded objects *)

Lemma pid_items n b : 0 <= n ->
  array_items (mkObj (TArr (TInt true 4) n) b) =
  map PInt (map (fun i => i32_at b (4 * Z.of_nat i)) (seq 0 (Z.to_nat n))).
Proof.
  intros Hn. unfold array_items. cbn [o_type o_buf sizeof].
  pose proof (chunks_slots 4 ltac:(lia) (Z.to_nat n) b 0 ltac:(lia)) as E. rewrite zdrop_0 in E by lia. rewrite E.
  rewrite !map_map. apply map_ext. intros i. rewrite Z.add_0_l, piece_sub. cbn [fetch].
  rewrite <- int_at_i32 by lia. reflexivity.
Qed.

Lemma raw_holds c y : sample_sized c y ->
  holds_sample c (raw_sample y) y /\ images_ok c (raw_sample y).
Proof.
  intros ([R1 R2] & [S1 S2] & T & G).
  assert (hc_cstat c = None -> s_cgroups y = []) as G0.
  { intros X. destruct G as [|k ks (ct & E & _) _]; [reflexivity|congruence]. }
  destruct y as [r s ts gs]. unfold raw_sample, holds_sample, images_ok.
  cbn [s_record s_sstat s_tstats s_cgroups ls_record ls_sstat ls_tstats ls_groups] in *. split.
  - split; [destruct r; cbn in *; congruence|]. split; [destruct s; cbn in *; congruence|]. split.
    + rewrite map_map. clear -T. induction T as [|[t b] ts [E _] _ IH]; [reflexivity|]. cbn [map o_buf o_type] in *. congruence.
    + destruct (hc_cstat c) as [ct|] eqn:Ec; [|auto]. clear -G Ec.
      induction G as [|k ks (ct' & X & [K1 _] & K2 & [K3 _]) _ IH]; cbn [map]; constructor; [|exact IH].
      injection X as <-. unfold holds_group, raw_group. cbn [lg_cstat lg_pids].
      split; [destruct (cg_cstat k); cbn in *; congruence|].
      destruct (cg_proclist k) as [pt pb]. cbn [o_type o_buf] in *. subst pt. apply pid_items, K2.
  - split; [exact R2|]. split; [exact S2|]. split; [rewrite Forall_map; eapply Forall_impl; [|exact T]; intros t [_ L]; exact L|].
    destruct (hc_cstat c) as [ct|] eqn:Ec; [|exact I]. rewrite Forall_map. eapply Forall_impl; [|exact G].
    intros k (ct' & X & [_ L] & _). injection X as <-. exact L.
Qed.
