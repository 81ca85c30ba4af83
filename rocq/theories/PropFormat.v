(** * C51: every field at its place in the file *)
From Coq Require Import List ZArith Lia Bool String.
From Coq Require Import Init.Byte.
From Verif Require Import PyBase CTypes S_shared Model Parsers Json FloatRepr Inflate Gzip Reader.
From Verif Require Import Spec SpecDict SpecLog SpecReader SpecFormat SpecFormatTables SpecDocument.
From Verif Require Import BaseProofs LayoutProofs RepProofs DictProofs TableProofs HeaderProofs GenProofs RunProofs SizedProofs LogBuild ReaderProofs.
From Verif Require Import PropHeader PropLog PropStruct PropReader PropFloat.
From Verif Require FormatProofs S_2_12.
Import ListNotations.
Local Open Scope list_scope.
Local Open Scope Z_scope.

(** ** The tables against the struct definitions *)

Definition fkind_eqb (a b : fkind) : bool :=
  match a, b with
  | Num s n, Num s' n' => Bool.eqb s s' && (n =? n')
  | F32, F32 | Chr, Chr => true
  | Text n, Text n' => n =? n'
  | _, _ => false
  end.
Definition step_eqb (a b : step) : bool :=
  match a, b with F n, F n' => String.eqb n n' | E, E => true | _, _ => false end.
Definition dim_eqb (a b : dim) : bool :=
  (d_slots a =? d_slots b) && (d_dist a =? d_dist b) &&
  match d_used a, d_used b with
  | Some (o, k), Some (o', k') => (o =? o') && fkind_eqb k k'
  | None, None => true
  | _, _ => false
  end.
Fixpoint list_eqb {A} (f : A -> A -> bool) (l m : list A) : bool :=
  match l, m with
  | [], [] => true
  | a :: l, b :: m => f a b && list_eqb f l m
  | _, _ => false
  end.
Definition row_eqb (a b : row) : bool :=
  list_eqb step_eqb (r_path a) (r_path b) && (r_off a =? r_off b) && fkind_eqb (r_kind a) (r_kind b) &&
  list_eqb dim_eqb (r_dims a) (r_dims b).

Lemma list_eqb_eq {A} (f : A -> A -> bool) : (forall a b, f a b = true -> a = b) -> forall l m, list_eqb f l m = true -> l = m.
Proof.
  intros Hf. induction l as [|a l IH]; intros [|b m] H; try discriminate H; [reflexivity|].
  cbn [list_eqb] in H. apply andb_prop in H as [H1 H2]. f_equal; auto.
Qed.
Lemma fkind_eqb_eq a b : fkind_eqb a b = true -> a = b.
Proof.
  destruct a, b; cbn [fkind_eqb]; intros H; try discriminate H; try reflexivity.
  - apply andb_prop in H as [H1 H2]. apply eqb_prop in H1. apply Z.eqb_eq in H2. congruence.
  - apply Z.eqb_eq in H. congruence.
Qed.
Lemma step_eqb_eq a b : step_eqb a b = true -> a = b.
Proof. destruct a, b; cbn [step_eqb]; intros H; try discriminate H; try reflexivity. apply String.eqb_eq in H. congruence. Qed.
Lemma dim_eqb_eq a b : dim_eqb a b = true -> a = b.
Proof.
  destruct a as [s d u], b as [s' d' u']. unfold dim_eqb. cbn [d_slots d_dist d_used]. rewrite !andb_true_iff, !Z.eqb_eq.
  intros [[-> ->] H]. destruct u as [[o k]|], u' as [[o' k']|]; try discriminate H; [|reflexivity].
  apply andb_prop in H as [H1 H2]. apply Z.eqb_eq in H1. apply fkind_eqb_eq in H2. congruence.
Qed.
Lemma row_eqb_eq a b : row_eqb a b = true -> a = b.
Proof.
  destruct a as [p o k d], b as [p' o' k' d']. unfold row_eqb. cbn [r_path r_off r_kind r_dims]. rewrite !andb_true_iff, Z.eqb_eq.
  intros [[[H1 ->] H2] H3]. apply (list_eqb_eq _ step_eqb_eq) in H1. apply fkind_eqb_eq in H2. apply (list_eqb_eq _ dim_eqb_eq) in H3. congruence.
Qed.

Definition all_parts : list part := [PHeader; PRecord; PSStat; PTStat; PCStat].

Lemma tables_b :
  forallb (fun x : vspec * hclass => let (vs, c) := x in
    forallb (fun q => match part_type c q with
                      | Some t => list_eqb row_eqb (format q (vs_name vs)) (FormatProofs.rows_of t) && FormatProofs.fut_ok t
                      | None => match format q (vs_name vs) with [] => true | _ => false end
                      end) all_parts) table = true.
Proof. vm_compute. reflexivity. Qed.

Lemma tables vs c q : In (vs, c) table ->
  match part_type c q with
  | Some t => format q (vs_name vs) = FormatProofs.rows_of t /\ FormatProofs.fut_ok t = true
  | None => format q (vs_name vs) = []
  end.
Proof.
  intros H. pose proof tables_b as T. rewrite forallb_forall in T. specialize (T _ H). cbv beta iota in T.
  rewrite forallb_forall in T. assert (In q all_parts) as Hq by (destruct q; cbn; tauto). specialize (T q Hq). cbv beta in T.
  destruct (part_type c q).
  - apply andb_prop in T as [T1 T2]. split; [exact (list_eqb_eq _ row_eqb_eq _ _ T1)|exact T2].
  - destruct (format q (vs_name vs)); [reflexivity|discriminate T].
Qed.

Lemma part_class c q t : part_type c q = Some t -> In t (class_types c).
Proof.
  unfold class_types. destruct q; cbn [part_type]; intros H; try (injection H as <-; cbn; tauto).
  rewrite in_app_iff. right. rewrite H. left. reflexivity.
Qed.

Lemma part_sizes vs c q : In (vs, c) table -> option_map sizeof (part_type c q) = part_size vs q.
Proof.
  intros H. destruct (table_sizes _ _ H) as (_ & A & B & C & D & G). destruct q; cbn [part_type part_size option_map]; try congruence.
  destruct (vs_cstat vs); [destruct G as (t & -> & <-)|rewrite G]; reflexivity.
Qed.

Lemma object_of_part vs c q t b : In (vs, c) table -> part_type c q = Some t -> zlen b = sizeof t ->
  object_is q (vs_name vs) b (mkObj t b).
Proof.
  intros Hc Ht Lb p ix v Hv. destruct (table_class _ _ Hc) as [_ Hcv].
  destruct (class_types_ok c t Hcv (part_class _ _ _ Ht)) as (W & _ & S).
  pose proof (tables vs c q Hc) as T. rewrite Ht in T. destruct T as [T _].
  unfold attribute_is. rewrite T. rewrite <- (FormatProofs.attributes t W b Lb p ix v Hv).
  destruct t; try discriminate S. reflexivity.
Qed.

Lemma dict_of_part vs c q t b j : In (vs, c) table -> part_type c q = Some t -> describes t b j ->
  forall p ix x, json_scalar x -> (json_path j p ix = Some x <-> entry_is q (vs_name vs) b p ix x).
Proof.
  intros Hc Ht (v & Hr & ->) p ix x Hx. destruct (table_class _ _ Hc) as [_ Hcv].
  destruct (class_types_ok c t Hcv (part_class _ _ _ Ht)) as (W & D & S).
  pose proof (tables vs c q Hc) as T. rewrite Ht in T. destruct T as [T Fo].
  unfold entry_is. rewrite T. apply (FormatProofs.dictionary t W D Fo); [destruct t; try discriminate S; reflexivity|exact Hr|exact Hx].
Qed.

(** ** C51 *)

(** Every attribute of every part of a log: the scalar at its place, and no other attributes. *)
Theorem C51_attributes_exact vs c q t b : class_for vs c -> part_type c q = Some t -> part_size vs q = Some (zlen b) ->
  object_is q (vs_name vs) b (mkObj t b).
Proof.
  intros Hcf Ht Hs. pose proof (class_for_table _ _ Hcf) as Hc. apply (object_of_part vs c); [exact Hc|exact Ht|].
  pose proof (part_sizes vs c q Hc) as P. rewrite Ht, Hs in P. injection P as P. lia.
Qed.

(** The dictionary of every part: the scalars at their places, as far as they are listed and not
    reserved, and nothing else. *)
Theorem C51_dictionary_exact vs c q t b : class_for vs c -> part_type c q = Some t -> part_size vs q = Some (zlen b) ->
  exists d, struct_to_dict (mkObj t b) = Ok d /\
    forall p ix x, json_scalar x -> (json_path d p ix = Some x <-> entry_is q (vs_name vs) b p ix x).
Proof.
  intros Hcf Ht Hs. pose proof (class_for_table _ _ Hcf) as Hc. destruct (table_class _ _ Hc) as [_ Hcv].
  pose proof (part_sizes vs c q Hc) as P. rewrite Ht, Hs in P. injection P as P.
  destruct (class_types_ok c t Hcv (part_class _ _ _ Ht)) as (W & D & S).
  destruct (image_total t b W (eq_sym P)) as (v & Hr). exists (dict_of t v). split.
  - unfold struct_to_dict. cbn [o_type o_buf]. apply struct_to_dict_rep; assumption.
  - apply (dict_of_part vs c q t b _ Hc Ht). exists v. auto.
Qed.

(** A path names at most one field. *)
Fixpoint in_b {A} (f : A -> A -> bool) (a : A) (l : list A) : bool :=
  match l with [] => false | b :: l => f a b || in_b f a l end.
Fixpoint distinct {A} (f : A -> A -> bool) (l : list A) : bool :=
  match l with [] => true | a :: l => negb (in_b f a l) && distinct f l end.
Lemma distinct_nodup {A} (f : A -> A -> bool) l : (forall a, f a a = true) -> distinct f l = true -> NoDup l.
Proof.
  intros Hf. induction l as [|a l IH]; intros H; [constructor|]. cbn [distinct] in H. apply andb_prop in H as [H1 H2].
  constructor; [|auto]. intros Hin. apply negb_true_iff in H1. clear -Hf Hin H1.
  induction l as [|b l IH]; [destruct Hin|]. cbn [in_b] in H1. apply orb_false_iff in H1 as [H1 H2].
  destruct Hin as [-> | Hin]; [rewrite Hf in H1; discriminate H1|auto].
Qed.
Lemma step_eqb_refl a : step_eqb a a = true.
Proof. destruct a; [apply String.eqb_refl|reflexivity]. Qed.
Lemma list_eqb_refl {A} (f : A -> A -> bool) : (forall a, f a a = true) -> forall l, list_eqb f l l = true.
Proof. intros Hf. induction l as [|a l IH]; [reflexivity|]. cbn [list_eqb]. rewrite Hf. exact IH. Qed.

Lemma paths_b :
  forallb (fun q => forallb (fun vs => distinct (list_eqb step_eqb) (map r_path (format q (vs_name vs)))) spec_versions) all_parts = true.
Proof. vm_compute. reflexivity. Qed.

Theorem C51_paths_distinct vs q : In vs spec_versions -> NoDup (map r_path (format q (vs_name vs))).
Proof.
  intros H. pose proof paths_b as T. rewrite forallb_forall in T.
  assert (In q all_parts) as Hq by (destruct q; cbn; tauto). specialize (T q Hq). cbv beta in T.
  rewrite forallb_forall in T. specialize (T vs H). cbv beta in T.
  apply distinct_nodup in T; [exact T|]. apply list_eqb_refl, step_eqb_refl.
Qed.

(** What the iterator yields from a log, attribute by attribute. *)
Theorem C51_samples dec vs hb ss strict max_samples :
  wf_log dec vs hb ss -> zlen ss <= max_samples ->
  exists ys, Forall2 (sample_is (vs_name vs)) ss ys /\
    run dec None strict max_samples (plain (log_bytes hb ss)) = (ys, Some None, plain []).
Proof.
  intros Hw L. destruct (C09_log_round_trip dec vs hb ss strict max_samples Hw L) as (c & ys & Hcf & F & R).
  exists ys. split; [|exact R]. pose proof (class_for_table _ _ Hcf) as Hc. destruct Hw as (_ & _ & Hws). clear R L.
  destruct (table_sizes _ _ Hc) as (_ & S0 & S1 & S2 & S3 & S4).
  induction F as [|s y ss ys Hs F IH]; [constructor|]. inversion Hws as [|? ? Hw1 Hw2]; subst. constructor; [|auto].
  destruct Hs as (E1 & E2 & E3 & E4). destruct Hw1 as (W1 & _ & _ & _ & W2 & W3 & _ & _ & W4).
  split; [|split; [|split]].
  - rewrite E1. apply (object_of_part vs c PRecord); [exact Hc|reflexivity|congruence].
  - rewrite E2. apply (object_of_part vs c PSStat); [exact Hc|reflexivity|congruence].
  - rewrite E3. clear -W3 Hc S3. induction W3 as [|b bs Hb _ IH]; [constructor|]. cbn [map]. constructor; [|exact IH].
    apply (object_of_part vs c PTStat); [exact Hc|reflexivity|congruence].
  - destruct (vs_cstat vs) as [n|] eqn:Ec.
    + destruct S4 as (ct & Hct & Sct). rewrite Hct in E4. destruct W4 as (_ & _ & _ & W4 & _).
      clear -E4 W4 Hc Hct Sct. induction E4 as [|g k gs ks [G1 G2] _ IH]; [constructor|]. inversion W4 as [|? ? (A & _) B]; subst.
      constructor; [|auto]. split; [|exact G2]. rewrite G1. apply (object_of_part vs c PCStat); [exact Hc|exact Hct|congruence].
    + rewrite S4 in E4. destruct W4 as (-> & _). rewrite E4. constructor.
Qed.

(** The header too. *)
Theorem C51_header vs hb rest : In vs spec_versions -> atop_header vs hb ->
  exists h, get_header true (plain (hb ++ rest)) = (Ok h, plain rest) /\ object_is PHeader (vs_name vs) hb (h_obj h).
Proof.
  intros Hvs (Hlen & Hmag & Hver & Hsz). destruct (table_spec _ Hvs) as (c & Hc). unfold header_size in Hlen.
  assert (magic_of (hb ++ rest) = magic_number) as M1.
  { unfold magic_of in *. rewrite u32_app_l by lia. exact Hmag. }
  assert (aversion_of (hb ++ rest) = aversion_of hb) as A1 by (unfold aversion_of; rewrite u16_app_l by lia; reflexivity).
  assert (is_version vs (hb ++ rest)) as V1.
  { unfold is_version, major_of, minor_of in *. rewrite A1. exact Hver. }
  assert (sizes_match_b vs (hb ++ rest) = true) as S1.
  { apply sizes_match_b_spec. unfold sizes_match in *. rewrite !u16_app_l, !u32_app_l, i32_app_l by lia. exact Hsz. }
  pose proof (get_header_supported true vs c (hb ++ rest) Hc M1 V1) as G. rewrite S1, orb_true_r in G.
  rewrite padded_exact in G by exact Hlen. rewrite zdrop_exact in G by exact Hlen.
  destruct (table_sizes _ _ Hc) as (_ & Hs & _).
  exists (mkHdr c hb). split; [exact G|]. apply (object_of_part vs c PHeader); [exact Hc|reflexivity|]. cbn [h_buf]. rewrite Hlen. symmetry. exact Hs.
Qed.

(** ** The printed entries *)

Lemma Forall2_nth_r {A B} (P : A -> B -> Prop) l m : Forall2 P l m -> forall i y, nth_error m i = Some y ->
  exists x, nth_error l i = Some x /\ P x y.
Proof.
  induction 1 as [|a b l m H _ IH]; intros [|i] y E; try discriminate E; cbn [nth_error] in *; [|auto].
  injection E as <-. eauto.
Qed.
Lemma Forall2_nth_l {A B} (P : A -> B -> Prop) l m : Forall2 P l m -> forall i x, nth_error l i = Some x ->
  exists y, nth_error m i = Some y /\ P x y.
Proof.
  induction 1 as [|a b l m H _ IH]; intros [|i] y E; try discriminate E; cbn [nth_error] in *; [|auto].
  injection E as <-. eauto.
Qed.

Lemma full_entry_is vs c hb st sc s j : In (vs, c) table ->
  match vs_cstat vs with None => ls_groups s = [] | Some _ => True end ->
  full_entry c hb st sc s j ->
  forall p ix x, json_scalar x -> (json_path j p ix = Some x <-> sample_entry_is (vs_name vs) hb s st sc p ix x).
Proof.
  intros Hc Hg (jh & jr & js & jts & jgs & Dh & Dr & Ds & Dt & Dg & ->) p ix x Hx.
  pose proof (dict_of_part vs c PHeader _ _ _ Hc eq_refl Dh) as Kh.
  pose proof (dict_of_part vs c PRecord _ _ _ Hc eq_refl Dr) as Kr.
  pose proof (dict_of_part vs c PSStat _ _ _ Hc eq_refl Ds) as Ks.
  assert (forall p ix, (json_path (JList jts) p ix = Some x <->
     exists i b p' ix', p = E :: p' /\ ix = Z.of_nat i :: ix' /\ nth_error (ls_tstats s) i = Some b /\ entry_is PTStat (vs_name vs) b p' ix' x)) as Kt.
  { clear p ix. intros p ix. split.
    - intros P. destruct p as [|[n|] p]; [destruct ix; [injection P as <-; destruct Hx|discriminate P]|discriminate P|].
      destruct ix as [|i ix]; [discriminate P|]. cbn [json_path] in P. destruct (0 <=? i) eqn:Ei; [|discriminate P].
      destruct (nth_error jts (Z.to_nat i)) as [w|] eqn:En; [|discriminate P].
      destruct (Forall2_nth_r _ _ _ Dt _ _ En) as (b & Eb & Db).
      exists (Z.to_nat i), b, p, ix. split; [reflexivity|]. split; [f_equal; lia|]. split; [exact Eb|].
      apply (dict_of_part vs c PTStat _ _ _ Hc eq_refl Db); assumption.
    - intros (i & b & p' & ix' & -> & -> & Eb & H). cbn [json_path].
      destruct (Forall2_nth_l _ _ _ Dt _ _ Eb) as (w & Ew & Db).
      replace (0 <=? Z.of_nat i) with true by (symmetry; apply Z.leb_le; lia). rewrite Nat2Z.id, Ew.
      apply (dict_of_part vs c PTStat _ _ _ Hc eq_refl Db); assumption. }
  assert (forall p ix, (json_path (JList jgs) p ix = Some x <->
     exists i g, nth_error (ls_groups s) i = Some g /\
       ((exists p' ix', p = E :: F "cstat" :: p' /\ ix = Z.of_nat i :: ix' /\ entry_is PCStat (vs_name vs) (lg_cstat g) p' ix' x) \/
        (exists k pid, p = [E; F "proclist"; E] /\ ix = [Z.of_nat i; Z.of_nat k] /\ nth_error (lg_pids g) k = Some pid /\ x = JInt pid)))) as Kg.
  { clear p ix. destruct (table_sizes _ _ Hc) as (_ & _ & _ & _ & _ & S4). destruct (vs_cstat vs) as [n|].
    - destruct S4 as (ct & Hct & _). rewrite Hct in Dg. intros p ix. split.
      + intros P. destruct p as [|[n'|] p]; [destruct ix; [injection P as <-; destruct Hx|discriminate P]|discriminate P|].
        destruct ix as [|i ix]; [discriminate P|]. cbn [json_path] in P. destruct (0 <=? i) eqn:Ei; [|discriminate P].
        destruct (nth_error jgs (Z.to_nat i)) as [w|] eqn:En; [|discriminate P].
        destruct (Forall2_nth_r _ _ _ Dg _ _ En) as (g & Eg & jc & Dc & ->). exists (Z.to_nat i), g. split; [exact Eg|].
        rewrite Z2Nat.id by lia.
        destruct p as [|[m|] p]; [destruct ix; [injection P as <-; destruct Hx|discriminate P]| |destruct ix; discriminate P].
        cbn [json_path assoc] in P. destruct (String.eqb m "cstat") eqn:Em.
        * apply String.eqb_eq in Em as ->. left. exists p, ix. split; [reflexivity|]. split; [reflexivity|].
          apply (dict_of_part vs c PCStat ct _ _ Hc Hct Dc); assumption.
        * destruct (String.eqb m "proclist") eqn:Em'; [|discriminate P]. apply String.eqb_eq in Em' as ->. right.
          destruct p as [|[m|] p]; [destruct ix; [injection P as <-; destruct Hx|discriminate P]|discriminate P|].
          destruct ix as [|k ix]; [discriminate P|]. cbn [json_path] in P. destruct (0 <=? k) eqn:Ek; [|discriminate P].
          rewrite nth_error_map in P. destruct (nth_error (lg_pids g) (Z.to_nat k)) as [pid|] eqn:Ep; [|discriminate P]. cbn [option_map] in P.
          destruct p as [|[m|] p]; [|discriminate P|destruct ix; discriminate P]. destruct ix; [|discriminate P]. injection P as <-.
          exists (Z.to_nat k), pid. split; [reflexivity|]. split; [rewrite Z2Nat.id by lia; reflexivity|]. auto.
      + intros (i & g & Eg & [(p' & ix' & -> & -> & H)|(k & pid & -> & -> & Ek & ->)]);
          destruct (Forall2_nth_l _ _ _ Dg _ _ Eg) as (w & Ew & jc & Dc & ->); cbn [json_path];
          (replace (0 <=? Z.of_nat i) with true by (symmetry; apply Z.leb_le; lia)); rewrite Nat2Z.id, Ew; cbn [json_path].
        * change (json_path jc p' ix' = Some x). apply (dict_of_part vs c PCStat ct _ _ Hc Hct Dc); assumption.
        * change (assoc "proclist" [("cstat"%string, jc); ("proclist"%string, JList (map JInt (lg_pids g)))]) with (Some (JList (map JInt (lg_pids g)))).
          cbn [json_path]. replace (0 <=? Z.of_nat k) with true by (symmetry; apply Z.leb_le; lia).
          rewrite Nat2Z.id, nth_error_map, Ek. reflexivity.
    - rewrite S4 in Dg. subst jgs. rewrite Hg. intros p ix. split.
      + intros P. destruct p as [|[n|] p]; [destruct ix; [injection P as <-; destruct Hx|discriminate P]|discriminate P|].
        destruct ix as [|i ix]; [discriminate P|]. cbn [json_path] in P. destruct (0 <=? i); [|discriminate P].
        destruct (Z.to_nat i); discriminate P.
      + intros (i & g & Eg & _). destruct i; discriminate Eg. }
  set (D := _ ++ _).
  assert (assoc "header" D = Some jh /\ assoc "record" D = Some jr /\ assoc "sstat" D = Some js /\
          assoc "tstat" D = (if st then Some (JList jts) else None) /\ assoc "cgroup" D = (if sc then Some (JList jgs) else None)) as (A1 & A2 & A3 & A4 & A5).
  { unfold D. destruct st, sc; repeat split. }
  split.
  - intros P. destruct p as [|[n|] p]; [destruct ix; [injection P as <-; destruct Hx|discriminate P]| |destruct ix; discriminate P].
    cbn [json_path] in P. destruct (assoc n D) as [w|] eqn:Ea; [|discriminate P].
    assert (n = "header" \/ n = "record" \/ n = "sstat" \/ n = "tstat" \/ n = "cgroup")%string as Hn.
    { unfold D in Ea. clear -Ea. revert Ea. destruct st, sc; cbn [app assoc];
        repeat (match goal with |- context [String.eqb ?a ?b] => destruct (String.eqb_spec a b) as [-> | ?] end; [tauto|]); discriminate. }
    destruct Hn as [-> | [-> | [-> | [-> | ->]]]].
    + rewrite A1 in Ea. injection Ea as <-. apply in_header, Kh; assumption.
    + rewrite A2 in Ea. injection Ea as <-. apply in_record, Kr; assumption.
    + rewrite A3 in Ea. injection Ea as <-. apply in_sstat, Ks; assumption.
    + rewrite A4 in Ea. destruct st; [|discriminate Ea]. injection Ea as <-. apply Kt in P as (i & b & p' & ix' & -> & -> & Eb & H).
      eapply in_tstat; [reflexivity|exact Eb|exact H].
    + rewrite A5 in Ea. destruct sc; [|discriminate Ea]. injection Ea as <-.
      apply Kg in P as (i & g & Eg & [(p' & ix' & -> & -> & H)|(k & pid & -> & -> & Ek & ->)]).
      * eapply in_cstat; [reflexivity|exact Eg|exact H].
      * eapply in_pids; [reflexivity|exact Eg|exact Ek].
  - intros H. destruct H as [p ix x H|p ix x H|p ix x H|i b p ix x -> Eb H|i g p ix x -> Eg H|i g k pid -> Eg Ek];
      match goal with |- json_path (JDict D) (F ?n :: ?p) ?ix = _ => change (match assoc n D with Some w => json_path w p ix | None => None end = Some x) || change (match assoc n D with Some w => json_path w p ix | None => None end = Some (JInt pid)) end.
    + rewrite A1. apply Kh; assumption.
    + rewrite A2. apply Kr; assumption.
    + rewrite A3. apply Ks; assumption.
    + rewrite A4. apply Kt. exists i, b, p, ix. auto.
    + rewrite A5. apply Kg. exists i, g. split; [exact Eg|]. left. eauto.
    + rewrite A5. apply Kg. exists i, g. split; [exact Eg|]. right. eauto 10.
Qed.

(** What is printed for a log: a JSON document with one entry for each complete sample (up to
    86400), and in every entry exactly the scalars of that sample under their paths. *)
Theorem C51_document dec disk salvage fault path stored vs hb ss p q pretty st sc :
  disk path = Ok stored -> delivers path stored p ->
  wf_log dec vs hb ss -> log_bytes hb ss = p ++ q -> header_size <= zlen p ->
  exists js t,
    Forall2 (fun s j => forall p ix x, json_scalar x -> (json_path j p ix = Some x <-> sample_entry_is (vs_name vs) hb s st sc p ix x))
            (at_most_default (complete (zlen p - header_size) ss)) js /\
    parse_file dec disk salvage fault repr32 path [] pretty st sc = Ok t /\ document t js.
Proof.
  intros Hd Hdel Hw El Hp. destruct (C49_document dec disk salvage fault path stored vs hb ss p q pretty st sc Hd Hdel Hw El Hp) as (c & js & t & Hcf & Fj & P & Dt).
  exists js, t. split; [|auto]. pose proof (class_for_table _ _ Hcf) as Hc.
  destruct Hw as (_ & _ & Hws). assert (Forall (wf_sample dec vs) (at_most_default (complete (zlen p - header_size) ss))) as Hf by (apply firstn_wf, complete_wf, Hws). clear -Fj Hf Hc.
  revert Hf. induction Fj as [|s j l js H _ IH]; intros Hf; [constructor|]. inversion Hf as [|? ? Hs Hr]; subst.
  constructor; [|auto]. apply (full_entry_is vs c); [exact Hc| |exact H].
  destruct Hs as (_ & _ & _ & _ & _ & _ & _ & _ & W). destruct (vs_cstat vs); [exact I|apply W].
Qed.


(** ** Instances *)

Lemma in_b_in {A} (f : A -> A -> bool) a l : (forall a b, f a b = true -> a = b) -> in_b f a l = true -> In a l.
Proof.
  intros Hf. induction l as [|b l IH]; intros H; [discriminate H|]. cbn [in_b] in H. apply orb_prop in H as [H|H].
  - left. symmetry. apply Hf, H.
  - right. auto.
Qed.

(** Some rows: the load average of a 2.7 log, the command line of a process and the number of
    processes of a cgroup in the 2.12 format, and the name of a disk, of which as many are listed
    as the 32-bit number at 16640 says. *)
Example C51_rows :
  In (R [F "cpu"; F "lavg5"] 36 F32 []) (format PSStat "2.7") /\
  In (R [F "gen"; F "cmdline"] 88 (Text 256) []) (format PTStat "2.12") /\
  In (R [F "gen"; F "nprocs"] 16 I32 []) (format PCStat "2.12") /\
  In (R [F "dsk"; F "dsk"; E; F "name"] 16656 (Text 32) [SpecFormat.D 256 112 (Some (16640, I32))]) (format PSStat "1.26").
Proof. repeat split; apply (in_b_in row_eqb); (exact row_eqb_eq || (vm_compute; reflexivity)). Qed.

(** A cgroup image with 7 processes and a reserved number 9: both are attributes, only the first
    is in the dictionary, and both follow from the tables. *)
Definition group_image : list byte := le32 432 ++ zeros 12 ++ le32 7 ++ zeros 12 ++ le32 9 ++ zeros 396.
Example C51_example :
  part_size (mkVS "2.12" 2 12 96 1064016 968 (Some 432)) PCStat = Some (zlen group_image) /\
  attribute_is PCStat "2.12" group_image [F "gen"; F "nprocs"] [] (PInt 7) /\
  attribute_is PCStat "2.12" group_image [F "gen"; F "ifuture"; E] [0] (PInt 9) /\
  entry_is PCStat "2.12" group_image [F "gen"; F "nprocs"] [] (JInt 7) /\
  (forall ix x, ~ entry_is PCStat "2.12" group_image [F "gen"; F "ifuture"; E] ix x) /\
  exists t, hc_cstat S_2_12.a2_12_class = Some t /\
    py_path (PObj (mkObj t group_image)) [F "gen"; F "nprocs"] [] = Some (PInt 7) /\
    py_path (PObj (mkObj t group_image)) [F "gen"; F "ifuture"; E] [0] = Some (PInt 9) /\
    exists d, struct_to_dict (mkObj t group_image) = Ok d /\
      json_path d [F "gen"; F "nprocs"] [] = Some (JInt 7) /\ json_path d [F "gen"; F "ifuture"; E] [0] = None.
Proof.
  split; [reflexivity|]. split; [|split; [|split; [|split]]].
  - eexists. split; [apply (in_b_in row_eqb (R [F "gen"; F "nprocs"] 16 I32 []) _ row_eqb_eq); vm_compute; reflexivity|].
    split; [reflexivity|]. split; [exact I|]. vm_compute. reflexivity.
  - eexists. split; [apply (in_b_in row_eqb (R [F "gen"; F "ifuture"; E] 32 I32 [SpecFormat.D 4 4 None]) _ row_eqb_eq); vm_compute; reflexivity|].
    split; [reflexivity|]. split; [cbn; lia|]. vm_compute. reflexivity.
  - eexists. split; [apply (in_b_in row_eqb (R [F "gen"; F "nprocs"] 16 I32 []) _ row_eqb_eq); vm_compute; reflexivity|].
    split; [reflexivity|]. split; [|split; [exact I|vm_compute; reflexivity]].
    intros (n & Hn & a & b & E). cbn [r_path In] in Hn.
    assert (str_contains "future" n = true) as K by (apply str_contains_spec; eauto).
    destruct Hn as [Hn | [Hn | []]]; injection Hn as <-; discriminate K.
  - intros ix x (r & _ & Hp & Hr & _). apply Hr. exists "ifuture"%string. rewrite Hp. split; [cbn; tauto|]. exists "i"%string, ""%string. reflexivity.
  - eexists. split; [reflexivity|]. split; [vm_compute; reflexivity|]. split; [vm_compute; reflexivity|].
    eexists. split; [vm_compute; reflexivity|]. split; vm_compute; reflexivity.
Qed.

(** Every supported version: a log with any number of samples, and what is printed for it. *)
Example C51_document_example vs n pretty salvage fault : In vs spec_versions ->
  exists hb ss js t, wf_log zdecompress vs hb ss /\ zlen ss = Z.of_nat n /\
    Forall2 (fun s j => forall p ix x, json_scalar x -> (json_path j p ix = Some x <-> sample_entry_is (vs_name vs) hb s true true p ix x))
            (at_most_default ss) js /\
    parse_file zdecompress (fun _ => Ok (log_bytes hb ss)) salvage fault repr32 log_name [] pretty true true = Ok t /\ document t js.
Proof.
  intros H. pose proof (example_log_wf vs n H) as Hw. pose proof (example_log_len vs n) as L.
  set (hb := make_header vs) in *. set (ss := example_log vs n) in *.
  assert (zlen hb = header_size) as Lh by apply Hw.
  assert (zlen (log_bytes hb ss) - header_size = zlen (samples_bytes ss)) as LL by (unfold log_bytes; rewrite zlen_app; lia).
  destruct (C51_document zdecompress (fun _ => Ok (log_bytes hb ss)) salvage fault log_name _ vs hb ss (log_bytes hb ss) [] pretty true true
    eq_refl (or_intror (conj log_name_plain eq_refl)) Hw) as (js & t & F & P & D).
  { rewrite app_nil_r. reflexivity. }
  { pose proof (zlen_nonneg (samples_bytes ss)). lia. }
  rewrite LL, complete_all in F. exists hb, ss, js, t. auto 10.
Qed.
