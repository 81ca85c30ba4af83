(** * Theorems C48: several iterators over one open, growing log *)
From Coq Require Import List ZArith Lia Bool String.
From Coq Require Import Init.Byte.
From Coq Require Import ZifyBool.
From Verif Require Import PyBase Utf8 CTypes S_shared Model Inflate Spec SpecDict SpecLog SpecFollow
  BaseProofs LayoutProofs RepProofs DictProofs TableProofs HeaderProofs GenProofs RunProofs
  InflateProofs LogBuild PropHeader PropLog.
Import ListNotations.
Open Scope list_scope.
Open Scope Z_scope.

Section Follow.
Variable dec : list byte -> option (list byte).
Variables (vs : vspec) (c : hclass) (hb : list byte).
Hypothesis Hc : In (vs, c) table.
Hypothesis Hv : is_version vs hb.
Hypothesis Hsz : sizes_match vs hb.
Let h := mkHdr c hb.

(** The iterator for a follower. *)
Definition conc (a : follower) : gstate :=
  match a with
  | Fresh strict ms => GInit (Some h) strict ms
  | Live strict todo => GYielded h (gate_of vs) strict todo
  | Finished => GDone
  end.

Lemma deliver_ok strict todo q : Forall (wf_sample dec vs) q ->
  let '(w, a', q') := deliver strict todo q in
  Forall (wf_sample dec vs) q' /\
  exists x, gloop dec h (gate_of vs) strict todo (plain (samples_bytes q)) = (x, conc a', plain (samples_bytes q')) /\
    match w, x with
    | WantSample l, Yield y => y = view c l /\ wf_sample dec vs l
    | WantStop, StopIteration => True
    | _, _ => False
    end.
Proof.
  intros Hq. unfold deliver, gloop. destruct q as [|s q].
  - split; [exact Hq|]. destruct (todo <=? 0); [eexists; split; [reflexivity|exact I]|].
    unfold h. cbn [samples_bytes map List.concat]. rewrite (read_sample_end dec vs c hb Hc [] (u32_nil 16)).
    eexists. split; [rewrite zdrop_all; [reflexivity|]; rewrite zlen_nil; pose proof (spec_sizes vs c Hc); lia|exact I].
  - inversion Hq as [|? ? Hs Hr]; subst. destruct (Z.ltb_spec 0 todo) as [L|L].
    + replace (todo <=? 0) with false by lia. split; [exact Hr|]. rewrite samples_bytes_cons. unfold h.
      rewrite (read_sample_ok dec vs c hb Hc Hv Hsz s _ Hs). eexists. split; [reflexivity|]. cbn beta iota. split; [reflexivity|exact Hs].
    + replace (todo <=? 0) with true by lia. split; [exact Hq|]. eexists. split; [reflexivity|exact I].
Qed.

Lemma follow_ok o a q : Forall (wf_sample dec vs) q ->
  let '(w, a', q') := follow o a q in
  Forall (wf_sample dec vs) q' /\
  exists x, do_op dec o (conc a) (plain (samples_bytes q)) = (x, conc a', plain (samples_bytes q')) /\
    forall i, matches_want c (i, w) (i, x).
Proof.
  intros Hq.
  assert (forall strict todo, let '(w, a', q') := deliver strict todo q in
    Forall (wf_sample dec vs) q' /\
    exists x, do_op dec ONext (GYielded h (gate_of vs) strict todo) (plain (samples_bytes q)) = (x, conc a', plain (samples_bytes q')) /\
    forall i, matches_want c (i, w) (i, x)) as K.
  { intros strict todo. pose proof (deliver_ok strict todo q Hq) as D0.
    destruct (deliver strict todo q) as [[w a'] q']. destruct D0 as (Hq' & x & E & M). split; [exact Hq'|].
    cbn [do_op gnext]. rewrite E. destruct w, x; try destruct M; eexists; (split; [reflexivity|]);
      intros i; (split; [reflexivity|]); cbn [snd]; try exact I.
    subst. eapply view_holds; eassumption. }
  destruct o as [| |e]; destruct a as [strict ms|strict todo|]; cbn [follow].
  - specialize (K strict ms). destruct (deliver strict ms q) as [[w a'] q'].
    destruct K as (Hq' & x & E & M). split; [exact Hq'|]. exists x. split; [|exact M].
    cbn [conc do_op gnext] in *. unfold gstart, h. rewrite (gate_spec vs c hb Hc Hv). exact E.
  - exact (K strict todo).
  - split; [exact Hq|]. eexists. split; [reflexivity|]. intros i. split; [reflexivity|exact I].
  - split; [exact Hq|]. eexists. split; [reflexivity|]. intros i. split; [reflexivity|exact I].
  - split; [exact Hq|]. eexists. split; [reflexivity|]. intros i. split; [reflexivity|exact I].
  - split; [exact Hq|]. eexists. split; [reflexivity|]. intros i. split; [reflexivity|exact I].
  - destruct e; (split; [exact Hq|]; eexists; split; [reflexivity|]; intros i; split; reflexivity).
  - destruct e; try (split; [exact Hq|]; eexists; split; [reflexivity|]; intros i; split; reflexivity).
    destruct strict; (split; [exact Hq|]; eexists; split; [reflexivity|]; intros i; split; [reflexivity|]; exact I || reflexivity).
  - destruct e; (split; [exact Hq|]; eexists; split; [reflexivity|]; intros i; split; reflexivity).
Qed.

Lemma map_put i (a : follower) l : map conc (put i a l) = put i (conc a) (map conc l).
Proof. revert i. induction l as [|y r IH]; intros [|i]; cbn [put map]; [reflexivity..|]. rewrite IH. reflexivity. Qed.

Lemma samples_bytes_app a b : samples_bytes (a ++ b) = samples_bytes a ++ samples_bytes b.
Proof. unfold samples_bytes. rewrite map_app, concat_app. reflexivity. Qed.

Lemma astep_ok o as_ q : Forall (wf_sample dec vs) q -> Forall (wf_sample dec vs) (grown [o]) ->
  let '(ws, as', q') := astep o as_ q in
  Forall (wf_sample dec vs) q' /\
  exists evs, wstep dec h o (map conc as_) (plain (samples_bytes q)) = (evs, map conc as', plain (samples_bytes q')) /\
    Forall2 (matches_want c) ws evs.
Proof.
  intros Hq Hg. destruct o as [strict ms|i o|new]; cbn [astep wstep].
  - split; [exact Hq|]. eexists. split; [rewrite map_app; reflexivity|constructor].
  - rewrite nth_error_map. destruct (nth_error as_ i) as [a|]; cbn [option_map].
    + pose proof (follow_ok o a q Hq) as F. destruct (follow o a q) as [[w a'] q'].
      destruct F as (Hq' & x & E & M). split; [exact Hq'|]. rewrite E. eexists.
      split; [rewrite map_put; reflexivity|]. constructor; [apply M|constructor].
    + split; [exact Hq|]. eexists. split; [reflexivity|constructor].
  - cbn in Hg. rewrite app_nil_r in Hg. split; [apply Forall_app; auto|]. eexists.
    split; [|constructor]. unfold plain. cbn [f_rem f_fault]. rewrite samples_bytes_app. reflexivity.
Qed.

Lemma grown_cons o r : grown (o :: r) = grown [o] ++ grown r.
Proof. unfold grown. cbn [flat_map]. rewrite app_nil_r. reflexivity. Qed.

Lemma arun_ok ops as_ q : Forall (wf_sample dec vs) q -> Forall (wf_sample dec vs) (grown ops) ->
  let '(ws, as', q') := arun ops as_ q in
  Forall (wf_sample dec vs) q' /\
  exists evs, wrun dec h ops (map conc as_) (plain (samples_bytes q)) = (evs, map conc as', plain (samples_bytes q')) /\
    Forall2 (matches_want c) ws evs.
Proof.
  revert as_ q. induction ops as [|o r IH]; intros as_ q Hq Hg; cbn [arun wrun].
  - split; [exact Hq|]. eexists. split; [reflexivity|constructor].
  - rewrite grown_cons in Hg. apply Forall_app in Hg. destruct Hg as [Hg1 Hg2].
    pose proof (astep_ok o as_ q Hq Hg1) as S1. destruct (astep o as_ q) as [[w1 as1] q1].
    destruct S1 as (Hq1 & ev & E1 & F1). rewrite E1.
    specialize (IH as1 q1 Hq1 Hg2). destruct (arun r as1 q1) as [[w2 as2] q2].
    destruct IH as (Hq2 & evs & E2 & F2). split; [exact Hq2|]. rewrite E2. eexists. split; [reflexivity|].
    apply Forall2_app; assumption.
Qed.

(** ** The queue machine delivers every sample once, in order *)

Definition wanted (ws : list (nat * want)) : list lsample :=
  flat_map (fun e => match snd e with WantSample s => [s] | _ => [] end) ws.

Lemma wanted_app a b : wanted (a ++ b) = wanted a ++ wanted b.
Proof. apply flat_map_app. Qed.

Lemma astep_queue o as_ q ws as' q' : astep o as_ q = (ws, as', q') ->
  q ++ grown [o] = wanted ws ++ q'.
Proof.
  destruct o as [strict ms|i o|new]; cbn [astep grown flat_map]; rewrite ?app_nil_r.
  - intros H. injection H as <- _ <-. reflexivity.
  - destruct (nth_error as_ i) as [a|]; [|intros H; injection H as <- _ <-; reflexivity].
    assert (forall strict todo w a' q1, deliver strict todo q = (w, a', q1) -> q = wanted [(i, w)] ++ q1) as K.
    { intros strict todo w a' q1. unfold deliver. destruct q as [|s r]; [|destruct (0 <? todo)]; intros H; injection H as <- _ <-; reflexivity. }
    destruct (follow o a q) as [[w a'] q1] eqn:E. intros H. injection H as <- _ <-.
    destruct o as [| |e]; destruct a as [strict ms|strict todo|]; cbn [follow] in E;
      try (eapply K; exact E); try (injection E as <- _ <-; reflexivity).
    + destruct e; injection E as <- _ <-; reflexivity.
    + destruct e; try (injection E as <- _ <-; reflexivity). destruct strict; injection E as <- _ <-; reflexivity.
    + destruct e; injection E as <- _ <-; reflexivity.
  - intros H. injection H as <- _ <-. reflexivity.
Qed.

Lemma arun_queue ops as_ q ws as' q' : arun ops as_ q = (ws, as', q') ->
  q ++ grown ops = wanted ws ++ q'.
Proof.
  revert as_ q ws as' q'. induction ops as [|o r IH]; intros as_ q ws as' q'; cbn [arun].
  - intros H. injection H as <- _ <-. apply app_nil_r.
  - destruct (astep o as_ q) as [[w1 as1] q1] eqn:E1. destruct (arun r as1 q1) as [[w2 as2] q2] eqn:E2.
    intros H. injection H as <- _ <-. rewrite grown_cons, app_assoc, (astep_queue _ _ _ _ _ _ E1), <- app_assoc, (IH _ _ _ _ _ E2).
    rewrite wanted_app, app_assoc. reflexivity.
Qed.

Lemma want_yields ws evs : Forall2 (matches_want c) ws evs -> Forall2 (holds_sample c) (wanted ws) (yields evs).
Proof.
  induction 1 as [|[i w] [j x] ws evs (_ & F) _ IH]; [constructor|]. cbn [snd] in F.
  unfold wanted, yields. cbn [flat_map snd]. destruct w, x; try (destruct F; fail); cbn [app]; try exact IH; try (exfalso; exact F). constructor; [exact F|exact IH].
Qed.

End Follow.

(** ** C48 *)

(** A log of which [read] was consumed when the program starts with the header it read. *)
Theorem C48_shared_queue dec vs c hb unread ops :
  class_for vs c -> atop_header vs hb ->
  Forall (wf_sample dec vs) unread -> Forall (wf_sample dec vs) (grown ops) ->
  exists ws as_ q evs its,
    arun ops [] unread = (ws, as_, q) /\
    wrun dec (mkHdr c hb) ops [] (plain (samples_bytes unread)) = (evs, its, plain (samples_bytes q)) /\
    Forall2 (matches_want c) ws evs.
Proof.
  intros Hcf (_ & _ & Hv & Hsz) Hu Hg. pose proof (class_for_table _ _ Hcf) as Hc.
  pose proof (arun_ok dec vs c hb Hc Hv Hsz ops [] unread Hu Hg) as A.
  destruct (arun ops [] unread) as [[ws as_] q]. destruct A as (_ & evs & E & F).
  exists ws, as_, q, evs, (map (conc vs c hb) as_). split; [reflexivity|]. split; [exact E|exact F].
Qed.

Theorem C48_exactly_once dec vs c hb unread ops evs its f' :
  class_for vs c -> atop_header vs hb ->
  Forall (wf_sample dec vs) unread -> Forall (wf_sample dec vs) (grown ops) ->
  wrun dec (mkHdr c hb) ops [] (plain (samples_bytes unread)) = (evs, its, f') ->
  exists delivered rest,
    unread ++ grown ops = delivered ++ rest /\
    Forall2 (holds_sample c) delivered (yields evs) /\
    f' = plain (samples_bytes rest).
Proof.
  intros Hcf Ha Hu Hg R. destruct (C48_shared_queue dec vs c hb unread ops Hcf Ha Hu Hg) as (ws & as_ & q & evs' & its' & A & R' & F).
  rewrite R in R'. injection R' as -> _ ->. exists (wanted ws), q. split; [apply (arun_queue _ _ _ _ _ _ A)|].
  split; [apply want_yields; exact F|reflexivity].
Qed.

(** Whatever was done before, a new iterator delivers exactly what is still unread. *)
Theorem C48_resume dec vs c hb unread ops evs its f' strict max_samples :
  class_for vs c -> atop_header vs hb ->
  Forall (wf_sample dec vs) unread -> Forall (wf_sample dec vs) (grown ops) ->
  wrun dec (mkHdr c hb) ops [] (plain (samples_bytes unread)) = (evs, its, f') ->
  zlen unread + zlen (grown ops) <= max_samples ->
  exists ys, run dec (Some (mkHdr c hb)) strict max_samples f' = (ys, Some None, plain []) /\
             Forall2 (holds_sample c) (unread ++ grown ops) (yields evs ++ ys).
Proof.
  intros Hcf Ha Hu Hg R L. destruct (C48_exactly_once _ _ _ _ _ _ _ _ _ Hcf Ha Hu Hg R) as (del & rest & E & F & ->).
  destruct Ha as (_ & _ & Hv & Hsz). pose proof (class_for_table _ _ Hcf) as Hc.
  assert (Forall (wf_sample dec vs) rest) as Hr.
  { assert (Forall (wf_sample dec vs) (unread ++ grown ops)) as X by (apply Forall_app; auto).
    rewrite E in X. apply Forall_app in X. tauto. }
  assert (zlen rest <= max_samples) as Lr.
  { apply (f_equal zlen) in E. rewrite !zlen_app in E. pose proof (zlen_nonneg del). lia. }
  exists (map (view c) rest). split.
  - rewrite run_some, (gate_spec vs c hb Hc Hv).
    rewrite <- (app_nil_r (samples_bytes rest)), (D_samples dec vs c hb Hc Hv Hsz) by assumption.
    rewrite (D_nil dec vs c hb Hc), app_nil_r. reflexivity.
  - rewrite E. apply Forall2_app; [exact F|]. eapply views_hold; eassumption.
Qed.

(** Polling a growing log: every loop yields exactly the samples appended since the last one. *)
Theorem C48_polling dec vs c hb strict max_samples batches :
  class_for vs c -> atop_header vs hb ->
  Forall (fun b => Forall (wf_sample dec vs) b /\ zlen b <= max_samples) batches ->
  Forall2 (fun b r => Forall2 (holds_sample c) b (fst r) /\ snd r = Some None)
          batches (poll dec (mkHdr c hb) strict max_samples (map samples_bytes batches) (plain [])).
Proof.
  intros Hcf (_ & _ & Hv & Hsz) H. pose proof (class_for_table _ _ Hcf) as Hc.
  induction H as [|b r (Hb & L) _ IH]; cbn [map poll]; [constructor|].
  change (mkFile (f_rem (plain []) ++ samples_bytes b) (f_fault (plain []))) with (plain (samples_bytes b)).
  assert (run dec (Some (mkHdr c hb)) strict max_samples (plain (samples_bytes b)) = (map (view c) b, Some None, plain [])) as ->.
  { rewrite run_some, (gate_spec vs c hb Hc Hv).
    rewrite <- (app_nil_r (samples_bytes b)), (D_samples dec vs c hb Hc Hv Hsz) by assumption.
    rewrite (D_nil dec vs c hb Hc), app_nil_r. reflexivity. }
  constructor; [|exact IH]. split; [eapply views_hold; eassumption|reflexivity].
Qed.

(** A poll that comes while atop is still writing the last 16 (or fewer) bytes of a sample loses
    that sample: in lenient mode neither this poll nor the next one yields it or raises. *)
Theorem C48_partial_write_lost dec vs c hb max_samples s p q :
  class_for vs c -> atop_header vs hb -> wf_sample dec vs s -> 0 < max_samples ->
  sample_bytes s = p ++ q -> 0 < zlen q <= 16 ->
  poll dec (mkHdr c hb) false max_samples [p; q] (plain []) = [([], Some None); ([], Some None)].
Proof.
  intros Hcf (_ & _ & Hv & Hsz) Hs Hm E Lq. pose proof (class_for_table _ _ Hcf) as Hc.
  assert (samples_bytes [s] = p ++ q) as E1 by (unfold samples_bytes; cbn [map List.concat]; rewrite app_nil_r; exact E).
  assert (complete (zlen p) [s] = []) as C0.
  { cbn [complete]. apply (f_equal zlen) in E. rewrite zlen_app in E.
    destruct (zlen (sample_bytes s) <=? zlen p) eqn:X; [lia|reflexivity]. }
  destruct (D_cut dec vs c hb Hc Hv Hsz false [s] p q max_samples) as (tail & _ & R);
    [constructor; [exact Hs|constructor]|change (zlen [s]) with 1; lia|exact E1|].
  rewrite C0 in R. cbn [andb map] in R.
  cbn [poll]. change (mkFile (f_rem (plain []) ++ p) (f_fault (plain []))) with (plain p).
  rewrite run_some, (gate_spec vs c hb Hc Hv), R. change (mkFile (f_rem (plain []) ++ q) (f_fault (plain []))) with (plain q).
  rewrite run_some, (gate_spec vs c hb Hc Hv), (D_end dec vs c hb Hc); [reflexivity| |lia].
  unfold u32_at, u16_at. rewrite !at8_out by lia. reflexivity.
Qed.

(** So following a log without losing samples needs whole samples at every poll. *)
Theorem C48_polling_any_time_refuted :
  ~ (forall vs c hb ss batches, class_for vs c -> wf_log zdecompress vs hb ss -> zlen ss <= 86400 ->
       List.concat batches = samples_bytes ss ->
       Forall2 (holds_sample c) ss
         (flat_map fst (poll zdecompress (mkHdr c hb) false 86400 batches (plain [])))).
Proof.
  intros H. set (vs := mkVS "1.26" 1 26 80 88368 616 None).
  assert (In vs spec_versions) as Hvs by (left; reflexivity).
  destruct (table_spec _ Hvs) as (c & Hc). pose proof (table_class_for _ _ Hc) as Hcf.
  pose proof (example_log_wf vs 1 Hvs) as Hw.
  assert (exists s, example_log vs 1 = [s]) as (s & Es) by (eexists; reflexivity). rewrite Es in Hw.
  pose proof Hw as (_ & Ha & Hs). inversion Hs as [|? ? W _]; subst.
  assert (80 <= zlen (sample_bytes s)) as L80.
  { destruct W as (W1 & _). unfold sample_bytes. rewrite !zlen_app, W1. cbn [vs_rec vs].
    pose proof (zlen_nonneg (ls_cs s)). pose proof (zlen_nonneg (ls_ct s)). pose proof (zlen_nonneg (ls_cc s)).
    pose proof (zlen_nonneg (ls_ci s)). lia. }
  set (k := zlen (sample_bytes s) - 10).
  specialize (H vs c (make_header vs) [s] [ztake k (sample_bytes s); zdrop k (sample_bytes s)] Hcf Hw).
  rewrite (C48_partial_write_lost zdecompress vs c (make_header vs) 86400 s) in H;
    [|exact Hcf|exact Ha|exact W|lia|symmetry; apply ztake_zdrop|rewrite zlen_zdrop; unfold k; lia].
  assert (Forall2 (holds_sample c) [s] []) as X; [|inversion X].
  apply H; [change (zlen [s]) with 1; lia|]. cbn [List.concat]. rewrite app_nil_r, ztake_zdrop.
  unfold samples_bytes. cbn [map List.concat]. rewrite app_nil_r. reflexivity.
Qed.

(** The hypotheses are met, for every version: two samples unread, one appended later; two
    iterators take turns; the first finishes and stays finished although the log grows. *)
Example C48_example vs : In vs spec_versions ->
  exists c s1 s2 s3, class_for vs c /\ atop_header vs (make_header vs) /\
    Forall (wf_sample zdecompress vs) [s1; s2; s3] /\
    exists evs its y1 y2 y3,
      wrun zdecompress (mkHdr c (make_header vs))
        [WStart true 5; WStart false 5; WIter 1 ONext; WIter 0 ONext; WIter 0 ONext; WGrow [s3]; WIter 0 ONext; WIter 1 ONext] []
        (plain (samples_bytes [s1; s2])) = (evs, its, plain (samples_bytes [])) /\
      evs = [(1%nat, SawYield y1); (0%nat, SawYield y2); (0%nat, SawStop); (0%nat, SawStop); (1%nat, SawYield y3)] /\
      Forall2 (holds_sample c) [s1; s2; s3] [y1; y2; y3].
Proof.
  intros Hvs. destruct (table_spec _ Hvs) as (c & Hc). pose proof (table_class_for _ _ Hc) as Hcf.
  pose proof (example_log_wf vs 3 Hvs) as Hw.
  assert (exists s1 s2 s3, example_log vs 3 = [s1; s2; s3]) as (s1 & s2 & s3 & Es) by (do 3 eexists; reflexivity).
  rewrite Es in Hw. destruct Hw as (_ & Ha & Hs). exists c, s1, s2, s3.
  split; [exact Hcf|]. split; [exact Ha|]. split; [exact Hs|].
  inversion Hs as [|? ? W1 Hs1]; subst. inversion Hs1 as [|? ? W2 Hs2]; subst.
  destruct (C48_shared_queue zdecompress vs c (make_header vs) [s1; s2]
    [WStart true 5; WStart false 5; WIter 1 ONext; WIter 0 ONext; WIter 0 ONext; WGrow [s3]; WIter 0 ONext; WIter 1 ONext] Hcf Ha)
    as (ws & as_ & q & evs & its & A & R & F).
  { constructor; [exact W1|]. constructor; [exact W2|]. constructor. }
  { exact Hs2. }
  cbn in A. injection A as <- _ <-. exists evs, its. 
  inversion F as [|? [? x1] ? ? (I1 & F1) G1]; subst. inversion G1 as [|? [? x2] ? ? (I2 & F2) G2]; subst.
  inversion G2 as [|? [? x3] ? ? (I3 & F3) G3]; subst. inversion G3 as [|? [? x4] ? ? (I4 & F4) G4]; subst.
  inversion G4 as [|? [? x5] ? ? (I5 & F5) G5]; subst. inversion G5; subst.
  cbn [fst snd] in *. subst.
  destruct x1 as [y1| | |]; try (exfalso; exact F1). destruct x2 as [y2| | |]; try (exfalso; exact F2).
  destruct x3 as [| | |]; try (exfalso; exact F3). destruct x4 as [| | |]; try (exfalso; exact F4). destruct x5 as [y3| | |]; try (exfalso; exact F5).
  exists y1, y2, y3. split; [exact R|]. split; [reflexivity|]. repeat (constructor; [assumption|]). constructor.
Qed.
