(** * C53: logs of versions the library does not know *)
From Coq Require Import List ZArith Lia Bool String.
From Coq Require Import Init.Byte.
From Verif Require Import PyBase BaseProofs CTypes S_shared S_2_12 Model Spec SpecLog SpecForward TableProofs HeaderProofs
  GenProofs RunProofs Inflate InflateProofs LogBuild PropHeader PropLog.
Import ListNotations.
Local Open Scope list_scope.
Local Open Scope Z_scope.

Lemma same_u16 hb hb' i : same_but_version hb hb' -> 0 <= i -> (i + 1 < 4 \/ 5 < i) -> u16_at hb i = u16_at hb' i.
Proof. intros (_ & _ & H) H0 Hi. unfold u16_at. rewrite (H i), (H (i + 1)) by lia. reflexivity. Qed.
Lemma same_u32 hb hb' i : same_but_version hb hb' -> 0 <= i -> (i + 3 < 4 \/ 5 < i) -> u32_at hb i = u32_at hb' i.
Proof. intros S H0 Hi. unfold u32_at. rewrite (same_u16 hb hb' i), (same_u16 hb hb' (i + 2)) by (assumption || lia). reflexivity. Qed.
Lemma same_i32 hb hb' i : same_but_version hb hb' -> 0 <= i -> (i + 3 < 4 \/ 5 < i) -> i32_at hb i = i32_at hb' i.
Proof. intros S H0 Hi. unfold i32_at. rewrite (same_u32 hb hb' i) by (assumption || lia). reflexivity. Qed.

Lemma latest_getint hb n off k : In (n, off, k) (header_fields latest) ->
  getint (h_obj (mkHdr a2_12_class hb)) n = Ok (num_at k hb off).
Proof. intros H. rewrite h_obj_mk. exact (header_getint latest a2_12_class hb n off k latest_in H). Qed.

Section Same.
Variables hb hb' : list byte.
Hypothesis Hs : same_but_version hb hb'.
Hypothesis Hv : 2 <= major_of hb /\ 11 <= minor_of hb.
Hypothesis Hv' : 2 <= major_of hb' /\ 11 <= minor_of hb'.

Lemma same_getint n off k : In (n, off, k) (header_fields latest) -> 5 < off ->
  getint (h_obj (mkHdr a2_12_class hb)) n = getint (h_obj (mkHdr a2_12_class hb')) n.
Proof.
  intros Hn Ho. rewrite !(latest_getint _ n off k Hn). f_equal.
  destruct k; cbn [num_at].
  - apply same_u16; [exact Hs|lia|lia].
  - apply same_u32; [exact Hs|lia|lia].
  - apply same_i32; [exact Hs|lia|lia].
  - unfold i64_at, u64_at. rewrite (same_u32 hb hb' off), (same_u32 hb hb' (off + 4)) by (assumption || lia). reflexivity.
Qed.

Lemma same_at_least n : n <= 11 ->
  version_at_least_2 (mkHdr a2_12_class hb) n = version_at_least_2 (mkHdr a2_12_class hb') n.
Proof.
  intros Hn. rewrite !(version_at_least_spec latest a2_12_class latest_in).
  replace (2 <=? major_of hb) with true by lia. replace (2 <=? major_of hb') with true by lia.
  replace (n <=? minor_of hb) with true by lia. replace (n <=? minor_of hb') with true by lia. reflexivity.
Qed.

Lemma same_check : check_compatibility (mkHdr a2_12_class hb) = check_compatibility (mkHdr a2_12_class hb').
Proof.
  unfold check_compatibility. cbn [h_class].
  rewrite (same_getint _ _ _ (in_hdr_rawheadlen latest)), (same_getint _ _ _ (in_hdr_rawreclen latest)),
    (same_getint _ _ _ (in_hdr_sstatlen latest)) by lia.
  rewrite (same_at_least 3), (same_at_least 11) by lia.
  rewrite (same_getint _ _ _ (in_hdr_tstatlen latest ltac:(cbn; lia))), (same_getint _ _ _ (in_hdr_cstatlen latest 432 eq_refl)) by lia.
  rewrite !(version_at_least_spec latest a2_12_class latest_in). cbn [rbind].
  replace (2 <=? major_of hb') with true by lia. replace (3 <=? minor_of hb') with true by lia. reflexivity.
Qed.

Variable dec : list byte -> option (list byte).

Lemma same_tstat r f : get_tstat dec (mkHdr a2_12_class hb) r f = get_tstat dec (mkHdr a2_12_class hb') r f.
Proof.
  unfold get_tstat. cbn [h_class]. rewrite (same_at_least 3) by lia.
  rewrite !(version_at_least_spec latest a2_12_class latest_in).
  replace (2 <=? major_of hb') with true by lia. replace (3 <=? minor_of hb') with true by lia.
  rewrite (same_getint _ _ _ (in_hdr_tstatlen latest ltac:(cbn; lia))) by lia.
  unfold mbind. destruct (mlift (getint r "pcomplen") f) as [[n|e] f1]; [|reflexivity].
  destruct (fread n f1) as [[b|e] f2]; [|reflexivity].
  destruct (mlift (zlib_decompress dec b) f2) as [[d|e] f3]; [|reflexivity].
  destruct (mlift _ f3) as [[m|e] f4]; reflexivity.
Qed.

Lemma same_cstat r f : get_cstat dec (mkHdr a2_12_class hb) r f = get_cstat dec (mkHdr a2_12_class hb') r f.
Proof.
  unfold get_cstat. cbn [h_class].
  rewrite (same_getint _ _ _ (in_hdr_cstatlen latest 432 eq_refl)) by lia. reflexivity.
Qed.

Lemma same_sample gate f :
  read_sample dec (mkHdr a2_12_class hb) gate f = read_sample dec (mkHdr a2_12_class hb') gate f.
Proof.
  unfold read_sample. unfold mbind at 1 6. 
  change (get_record (mkHdr a2_12_class hb) f) with (get_record (mkHdr a2_12_class hb') f).
  destruct (get_record (mkHdr a2_12_class hb') f) as [[r|e] f1]; [|reflexivity].
  unfold mbind. destruct (mlift (getint r "scomplen") f1) as [[n|e] f2]; [|reflexivity].
  destruct (n <=? 0); [reflexivity|].
  change (get_sstat dec (mkHdr a2_12_class hb) r f2) with (get_sstat dec (mkHdr a2_12_class hb') r f2).
  destruct (get_sstat dec (mkHdr a2_12_class hb') r f2) as [[s|e] f3]; [|reflexivity].
  rewrite same_tstat. destruct (get_tstat dec (mkHdr a2_12_class hb') r f3) as [[t|e] f4]; [|reflexivity].
  destruct gate; [|reflexivity]. rewrite same_cstat. reflexivity.
Qed.

Lemma same_D gate strict todo f :
  D dec (mkHdr a2_12_class hb) gate strict todo f = D dec (mkHdr a2_12_class hb') gate strict todo f.
Proof.
  revert f. induction todo as [n L|n L IH] using todo_ind; intros f.
  - rewrite !D_zero by exact L. reflexivity.
  - rewrite !D_pos by exact L. rewrite same_sample.
    destruct (read_sample dec (mkHdr a2_12_class hb') gate f) as [[[s|]|e] f']; try reflexivity.
    rewrite IH. reflexivity.
Qed.

Lemma same_run strict ms f :
  run dec (Some (mkHdr a2_12_class hb)) strict ms f = run dec (Some (mkHdr a2_12_class hb')) strict ms f.
Proof.
  rewrite !run_some, !(cgroup_gate_spec latest a2_12_class latest_in).
  replace (2 <=? major_of hb) with true by lia. replace (2 <=? major_of hb') with true by lia.
  replace (11 <=? minor_of hb) with true by lia. replace (11 <=? minor_of hb') with true by lia. cbn [andb].
  apply same_D.
Qed.

End Same.

Lemma header_prefix_facts hb rest : zlen hb = 480 ->
  magic_of (hb ++ rest) = magic_of hb /\ major_of (hb ++ rest) = major_of hb /\ minor_of (hb ++ rest) = minor_of hb.
Proof. intros H. unfold major_of, minor_of, magic_of, aversion_of. rewrite u32_app_l, u16_app_l by lia. auto. Qed.

Lemma latest_spec : In latest spec_versions.
Proof. exact (proj1 (table_class _ _ latest_in)). Qed.

(** get_header on a header read with the latest classes. *)
Lemma get_header_latest hb rest : zlen hb = 480 -> magic_of hb = magic_number -> chosen hb a2_12_class ->
  get_header true (plain (hb ++ rest)) =
  (match check_compatibility (mkHdr a2_12_class hb) with Ok _ => Ok (mkHdr a2_12_class hb) | Raise e => Raise e end, plain rest).
Proof.
  intros L M C. rewrite get_header_plain, padded_exact, zdrop_exact by exact L.
  rewrite (get_header_good_magic hb true a2_12_class L M C). destruct (check_compatibility _) as [[]|e]; reflexivity.
Qed.

Theorem C53_read_as_latest dec hb hb' rest strict max_samples :
  same_but_version hb hb' -> unsupported hb -> 2 <= major_of hb -> 11 <= minor_of hb -> says_version hb' 2 12 ->
  run dec None strict max_samples (plain (hb ++ rest)) = run dec None strict max_samples (plain (hb' ++ rest)).
Proof.
  intros S U Ma Mi [V1 V2]. pose proof S as (L & L' & S8).
  assert (magic_of hb = magic_of hb') as EM.
  { unfold magic_of. apply same_u32; [exact S|lia|lia]. }
  rewrite !run_none.
  destruct (Z.eq_dec (magic_of hb) magic_number) as [M|M].
  - rewrite !get_header_latest; [|exact L'|congruence|left; exists latest; split; [exact latest_in|split; assumption]
      |exact L|exact M|right; split; [exact U|reflexivity]].
    rewrite (same_check hb hb' S) by lia. destruct (check_compatibility _) as [u|e]; [|reflexivity].
    apply same_run; [exact S|lia|lia].
  - rewrite !get_header_plain, !padded_exact, !zdrop_exact by assumption.
    rewrite !get_header_bad_magic by congruence. rewrite EM. reflexivity.
Qed.

(** The header with its version replaced. *)
Definition with_version (major minor : Z) (hb : list byte) : list byte :=
  ztake 4 hb ++ [byte_of_Z minor; byte_of_Z (128 + major)] ++ zdrop 6 hb.

Lemma with_version_same major minor hb : zlen hb = header_size -> same_but_version hb (with_version major minor hb).
Proof.
  intros L. unfold header_size in L.
  assert (zlen (ztake 4 hb) = 4) as L4 by (rewrite zlen_ztake; lia).
  split; [exact L|]. split.
  - unfold with_version. rewrite !zlen_app, L4, zlen_zdrop. change (zlen [byte_of_Z minor; byte_of_Z (128 + major)]) with 2. unfold header_size. lia.
  - intros i H0 H4 H5. unfold with_version, at8. f_equal.
    unfold zlen in L4. destruct (Z_lt_ge_dec i 4) as [Hi|Hi].
    + rewrite app_nth1 by lia. unfold ztake. rewrite <- (firstn_skipn (Z.to_nat 4) hb) at 1.
      unfold ztake in L4. rewrite app_nth1 by lia. reflexivity.
    + rewrite app_nth2 by lia. replace (Z.to_nat i - List.length (ztake 4 hb))%nat with (S (S (Z.to_nat (i - 6)))) by lia.
      cbn [app nth]. unfold zdrop. rewrite <- (firstn_skipn (Z.to_nat 6) hb) at 1.
      unfold zlen in L. assert (List.length (firstn (Z.to_nat 6) hb) = 6%nat) as L6 by (rewrite firstn_length; lia).
      rewrite app_nth2 by lia. f_equal. lia.
Qed.

Lemma with_version_says major minor hb : zlen hb = header_size -> 0 <= major < 128 -> 0 <= minor < 256 ->
  says_version (with_version major minor hb) major minor.
Proof.
  intros L H1 H2. unfold header_size in L. assert (zlen (ztake 4 hb) = 4) as L4 by (rewrite zlen_ztake; lia).
  assert (aversion_of (with_version major minor hb) = minor + 256 * (128 + major)) as E.
  { unfold aversion_of. change (with_version major minor hb) with (ztake 4 hb ++ ([byte_of_Z minor; byte_of_Z (128 + major)] ++ zdrop 6 hb)).
    replace [byte_of_Z minor; byte_of_Z (128 + major)] with (le16 (minor + 256 * (128 + major))).
    - apply u16_at_mid; [exact L4|lia].
    - unfold le16. f_equal; [|f_equal]; f_equal.
      + rewrite Z.mul_comm, Z_mod_plus_full. apply Z.mod_small. lia.
      + rewrite Z.mul_comm, Z.div_add, (Z.div_small minor) by lia. apply Z.mod_small. lia. }
  unfold says_version, major_of, minor_of. rewrite E. split.
  - rewrite Z.mul_comm, Z.div_add, (Z.div_small minor) by lia.
    replace (0 + (128 + major)) with (major + 1 * 128) by lia. rewrite Z_mod_plus_full. apply Z.mod_small. lia.
  - rewrite Z.mul_comm, Z_mod_plus_full. apply Z.mod_small. lia.
Qed.

Lemma latest_name vs : In vs spec_versions -> vs_name vs = "2.12"%string -> vs = latest.
Proof. intros H. repeat (destruct H as [<- | H]; [intros E; try discriminate E; reflexivity|]). destruct H. Qed.

Theorem C53_log_round_trip dec vs hb ss strict max_samples :
  In vs spec_versions -> vs_name vs = "2.12"%string ->
  unknown_with_latest_lengths hb -> 2 <= major_of hb -> 11 <= minor_of hb ->
  Forall (wf_sample dec vs) ss -> zlen ss <= max_samples ->
  exists c ys, class_for vs c /\ Forall2 (holds_sample c) ss ys /\
    run dec None strict max_samples (plain (log_bytes hb ss)) = (ys, Some None, plain []).
Proof.
  intros Hvs En (L & M & U & Z1 & Z2 & Z3 & Z4 & Z5) Ma Mi Hw Hl.
  pose proof (latest_name vs Hvs En). subst vs.
  pose proof (with_version_same 2 12 hb L) as S. pose proof (with_version_says 2 12 hb L ltac:(lia) ltac:(lia)) as V.
  set (hb' := with_version 2 12 hb) in *.
  assert (wf_log dec latest hb' ss) as W.
  { split; [exact Hvs|]. split; [|exact Hw]. split; [apply S|]. split.
    - rewrite <- M. unfold magic_of. symmetry. apply same_u32; [exact S|lia|lia].
    - split; [exact V|]. unfold sizes_match. cbn [vs_rec vs_sstat vs_tstat vs_cstat latest].
      rewrite <- !(same_u16 hb hb'), <- !(same_u32 hb hb'), <- (same_i32 hb hb') by (assumption || lia). auto. }
  destruct (C09_log_round_trip dec latest hb' ss strict max_samples W Hl) as (c & ys & C & F & R).
  exists c, ys. split; [exact C|]. split; [exact F|]. unfold log_bytes in *.
  rewrite (C53_read_as_latest dec hb hb' _ _ _ S U Ma Mi V). exact R.
Qed.

Section Low.
Variable dec : list byte -> option (list byte).
Variable hb : list byte.
Hypothesis Hu : unknown_with_latest_lengths hb.
Hypothesis Hma : 2 <= major_of hb.
Hypothesis Hmi : 3 <= minor_of hb < 11.

Lemma low_header rest : get_header true (plain (hb ++ rest)) = (Ok (mkHdr a2_12_class hb), plain rest).
Proof.
  destruct Hu as (L & M & U & Z1 & Z2 & Z3 & Z4 & Z5).
  rewrite get_header_latest; [|exact L|exact M|right; split; [exact U|reflexivity]].
  pose proof (check_fallback hb) as K. replace ((2 <=? major_of hb) && (3 <=? minor_of hb)) with true in K by lia.
  replace (fallback_sizes_b hb) with true in K.
  - rewrite K. reflexivity.
  - unfold fallback_sizes_b. cbn [vs_rec vs_sstat vs_tstat latest]. unfold header_size. replace (11 <=? minor_of hb) with false by lia. lia.
Qed.

Lemma low_gate : cgroup_gate (mkHdr a2_12_class hb) = Ok false.
Proof. rewrite (cgroup_gate_spec latest a2_12_class latest_in). f_equal. replace (11 <=? minor_of hb) with false by lia. apply andb_false_r. Qed.

Lemma low_run strict ms rest :
  run dec None strict ms (plain (hb ++ rest)) = D dec (mkHdr a2_12_class hb) false strict ms (plain rest).
Proof. rewrite run_none, low_header, run_some, low_gate. reflexivity. Qed.

Lemma no_gate_no_groups h f s f' : read_sample dec h false f = (Ok (Some s), f') -> s_cgroups s = [].
Proof.
  unfold read_sample. intros H. apply mbind_inv in H as (r & f1 & _ & H). apply mbind_inv in H as (n & f2 & _ & H).
  destruct (n <=? 0); [unfold mret in H; congruence|].
  apply mbind_inv in H as (x & f3 & _ & H). apply mbind_inv in H as (y & f4 & _ & H). apply mbind_inv in H as (z & f5 & Hz & H).
  unfold mret in *. injection Hz as <- <-. injection H as <- <-. reflexivity.
Qed.

Lemma no_gate_D h strict todo f ss e f' : D dec h false strict todo f = (ss, e, f') -> Forall (fun s => s_cgroups s = []) ss.
Proof.
  revert f ss e f'. induction todo as [n L|n L IH] using todo_ind; intros f ss e f'.
  - rewrite D_zero by exact L. intros [= <- _ _]. constructor.
  - rewrite D_pos by exact L. destruct (read_sample dec h false f) as [[[s|]|x] f1] eqn:E; try (intros [= <- _ _]; constructor).
    destruct (D dec h false strict (n - 1) f1) as [[ss1 e1] f2] eqn:E1. intros [= <- _ _].
    constructor; [eapply no_gate_no_groups; exact E|]. eapply IH. exact E1.
Qed.

(** Reading a sample written by 2.12 stops after the tasks. *)
Lemma low_sample s rest : wf_sample dec latest s ->
  read_sample dec (mkHdr a2_12_class hb) false (plain (sample_bytes s ++ rest)) =
  (Ok (Some (mkSample (mkObj (hc_record a2_12_class) (ls_record s)) (mkObj (hc_sstat a2_12_class) (ls_sstat s))
     (map (mkObj (hc_tstat a2_12_class)) (ls_tstats s)) [])), plain (ls_cc s ++ ls_ci s ++ rest)).
Proof.
  intros (W1 & W2 & W3 & W4 & W5 & W6 & W7 & W8 & W9). destruct Hu as (L & M & U & Z1 & Z2 & Z3 & Z4 & Z5).
  pose proof latest_in as Hc. set (c := a2_12_class) in *.
  unfold read_sample, sample_bytes. rewrite <- !app_assoc.
  erewrite mbind_ok by (apply (get_record_app latest c hb Hc); exact W1).
  rewrite (rec_int latest c Hc _ _ _ _ (in_rec_scomplen latest)). cbn [num_at]. rewrite mbind_lift, W2.
  assert (0 < zlen (ls_cs s)) as Hcs.
  { destruct W7 as (N & _). destruct (ls_cs s); [congruence|rewrite zlen_cons; pose proof (zlen_nonneg l); lia]. }
  replace (zlen (ls_cs s) <=? 0) with false by lia.
  erewrite mbind_ok; cycle 1.
  { rewrite (get_sstat_spec dec latest c hb Hc), W2, ztake_exact, zdrop_exact by reflexivity. rewrite (stream_dec _ _ _ W7), W5.
    replace (vs_sstat latest <? vs_sstat latest) with false by lia. rewrite ztake_all by lia. reflexivity. }
  erewrite mbind_ok; cycle 1.
  { unfold get_tstat. rewrite (rec_int latest c Hc _ _ _ _ (in_rec_pcomplen latest)). cbn [num_at]. rewrite mbind_lift, W3.
    erewrite mbind_ok by apply fread_plain_any. rewrite ztake_exact, zdrop_exact by reflexivity.
    unfold zlib_decompress. rewrite (stream_dec _ _ _ W8), mbind_lift.
    rewrite (is_record_1_26_spec latest c _ Hc). change (vs_major latest =? 1) with false. cbv iota.
    rewrite (rec_int latest c Hc _ _ _ _ (in_rec_ndeviat latest ltac:(cbn; lia))), mbind_lift. cbn [num_at]. rewrite W4.
    rewrite (version_at_least_spec latest c Hc), mbind_lift. replace ((2 <=? major_of hb) && (3 <=? minor_of hb)) with true by lia.
    rewrite h_obj_mk, (header_getint latest c hb _ _ _ Hc (in_hdr_tstatlen latest ltac:(cbn; lia))), mbind_lift. cbn [num_at h_class].
    unfold zlen at 1. rewrite Nat2Z.id, Z4. change 968 with (vs_tstat latest).
    rewrite (tstat_loop_ok0 (hc_tstat c) (vs_tstat latest) (ls_tstats s) (tstat_size latest c Hc) W6). reflexivity. }
  reflexivity.
Qed.

End Low.

(** An unknown version with minor below 11 (so its major is at least 3, e.g. 3.3): accepted when
    the lengths are those of 2.12, but the cgroups of its samples are not read. *)
Theorem C53_minor_below_11 dec hb rest strict max_samples ss e f' :
  unknown_with_latest_lengths hb -> 2 <= major_of hb -> 3 <= minor_of hb < 11 ->
  run dec None strict max_samples (plain (hb ++ rest)) = (ss, e, f') ->
  Forall (fun s => s_cgroups s = []) ss.
Proof. intros U Ma Mi. rewrite (low_run dec hb U Ma Mi). intros H. eapply no_gate_D. exact H. Qed.

(** The first sample is read up to its tasks, and the next record is then looked for at the
    compressed cgroups of that sample. *)
Theorem C53_minor_below_11_position dec vs hb s rest strict max_samples :
  In vs spec_versions -> vs_name vs = "2.12"%string ->
  unknown_with_latest_lengths hb -> 2 <= major_of hb -> 3 <= minor_of hb < 11 ->
  wf_sample dec vs s -> 0 < max_samples ->
  exists c y g, class_for vs c /\
    gnext dec (generate_statistics None strict max_samples) (plain (hb ++ sample_bytes s ++ rest)) =
      (Yield y, g, plain (ls_cc s ++ ls_ci s ++ rest)) /\
    s_record y = mkObj (hc_record c) (ls_record s) /\ s_sstat y = mkObj (hc_sstat c) (ls_sstat s) /\
    s_tstats y = map (mkObj (hc_tstat c)) (ls_tstats s) /\ s_cgroups y = [].
Proof.
  intros Hvs En U Ma Mi W Hm. pose proof (latest_name vs Hvs En). subst vs.
  exists a2_12_class. do 2 eexists. split; [apply table_class_for, latest_in|].
  unfold generate_statistics, gnext. rewrite (low_header hb U Ma Mi). unfold gstart. rewrite (low_gate hb Mi).
  unfold gloop. replace (max_samples <=? 0) with false by lia. rewrite (low_sample dec hb U Ma Mi s rest W).
  repeat split; reflexivity.
Qed.

(** ** Concrete headers *)

Lemma unknown_of_latest major minor : 0 <= major < 128 -> 0 <= minor < 256 ->
  (forall vs, In vs spec_versions -> ~ (vs_major vs = major /\ vs_minor vs = minor)) ->
  unknown_with_latest_lengths (with_version major minor (make_header latest)) /\
  says_version (with_version major minor (make_header latest)) major minor.
Proof.
  intros H1 H2 N. pose proof (make_header_ok latest latest_spec) as (L & M & _ & Z).
  pose proof (with_version_same major minor _ L) as S. pose proof (with_version_says major minor _ L H1 H2) as V.
  set (hb' := with_version major minor (make_header latest)) in *. set (hb := make_header latest) in *.
  split; [|exact V]. destruct Z as (Z1 & Z2 & Z3 & Z4 & Z5). cbn [vs_rec vs_sstat vs_tstat vs_cstat latest] in *.
  unfold unknown_with_latest_lengths.
  rewrite <- !(same_u16 hb hb'), <- !(same_u32 hb hb'), <- (same_i32 hb hb') by (assumption || lia).
  split; [apply S|]. split; [rewrite <- M; unfold magic_of; symmetry; apply same_u32; [exact S|lia|lia]|].
  split; [|auto]. intros vs Hvs [V1 V2]. destruct V as [V3 V4]. apply (N vs Hvs). split; congruence.
Qed.

Lemma not_in_table major minor : 2 <= major -> (3 <= major \/ 13 <= minor) ->
  forall vs, In vs spec_versions -> ~ (vs_major vs = major /\ vs_minor vs = minor).
Proof.
  intros H2 H vs Hvs [E1 E2]. destruct H; repeat (destruct Hvs as [<- | Hvs]; [cbn in *; lia|]); destruct Hvs.
Qed.

(** Is every complete log of an unknown newer version whose struct lengths are those of 2.12 read
    completely?  No: with minor below 11 the cgroups are skipped. *)
Theorem C53_newer_logs_complete_refuted :
  exists vs hb ss, In vs spec_versions /\ vs_name vs = "2.12"%string /\
    unknown_with_latest_lengths hb /\ says_version hb 3 3 /\ Forall (wf_sample zdecompress vs) ss /\ zlen ss = 1 /\
    ~ exists c ys, class_for vs c /\ Forall2 (holds_sample c) ss ys /\
        run zdecompress None false 1 (plain (log_bytes hb ss)) = (ys, Some None, plain []).
Proof.
  destruct (unknown_of_latest 3 3 ltac:(lia) ltac:(lia) (not_in_table 3 3 ltac:(lia) ltac:(lia))) as [U V].
  pose proof (example_log_wf latest 1 latest_spec) as (_ & _ & Hw).
  exists latest, (with_version 3 3 (make_header latest)), (example_log latest 1).
  set (hb := with_version 3 3 (make_header latest)) in *.
  split; [exact latest_spec|]. split; [reflexivity|]. split; [exact U|]. split; [exact V|]. split; [exact Hw|].
  split; [reflexivity|]. intros (c & ys & C & F & R). destruct V as [V1 V2].
  pose proof (C53_minor_below_11 zdecompress hb _ _ _ _ _ _ U ltac:(lia) ltac:(lia) R) as N.
  change (example_log latest 1) with [example_sample latest 0] in F.
  inversion F as [|s y ? ? Hsy F' E1 E2]; subst. inversion N as [|? ? Ny _]; subst.
  destruct Hsy as (_ & _ & _ & G). destruct (table_sizes _ _ (class_for_table _ _ C)) as (_ & _ & _ & _ & _ & S4).
  cbn [vs_cstat latest] in S4. destruct S4 as (ct & Ec & _). rewrite Ec, Ny in G. inversion G.
Qed.

(** C53: a 2.13 log is read like a 2.12 log, sample by sample. *)
Example C53_example n strict : exists hb ss ys, says_version hb 2 13 /\ zlen ys = Z.of_nat n /\
  run zdecompress None strict (Z.of_nat n) (plain (log_bytes hb ss)) = (ys, Some None, plain []).
Proof.
  destruct (unknown_of_latest 2 13 ltac:(lia) ltac:(lia) (not_in_table 2 13 ltac:(lia) ltac:(lia))) as [U V].
  pose proof (example_log_wf latest n latest_spec) as (_ & _ & Hw).
  pose proof V as [V1 V2]. pose proof (example_log_len latest n) as L.
  destruct (C53_log_round_trip zdecompress latest _ (example_log latest n) strict (Z.of_nat n) latest_spec eq_refl U ltac:(lia) ltac:(lia) Hw ltac:(lia))
    as (c & ys & _ & F & R).
  exists (with_version 2 13 (make_header latest)), (example_log latest n), ys. split; [exact V|]. split; [|exact R].
  rewrite <- L. clear -F. induction F as [|a b l m Hab F IH]; [reflexivity|]. rewrite !zlen_cons. lia.
Qed.

(** The two headers of C53_read_as_latest, and an unknown version below minor 11. *)
Example C53_example_headers : exists hb hb' hb3, same_but_version hb hb' /\ unsupported hb /\ says_version hb 7 200 /\ says_version hb' 2 12 /\
  unknown_with_latest_lengths hb3 /\ says_version hb3 4 9.
Proof.
  destruct (unknown_of_latest 7 200 ltac:(lia) ltac:(lia) (not_in_table 7 200 ltac:(lia) ltac:(lia))) as [U V].
  destruct (unknown_of_latest 4 9 ltac:(lia) ltac:(lia) (not_in_table 4 9 ltac:(lia) ltac:(lia))) as [U3 V3].
  pose proof U as (L & _ & Un & _).
  exists (with_version 7 200 (make_header latest)), (with_version 2 12 (with_version 7 200 (make_header latest))), (with_version 4 9 (make_header latest)).
  split; [apply with_version_same; exact L|]. split; [exact Un|]. split; [exact V|]. split; [apply with_version_says; [exact L|lia|lia]|].
  split; [exact U3|exact V3].
Qed.
