(** * Theorems C09-C21, C41, C44: reading the samples of a log *)
From Coq Require Import List ZArith Lia Bool String.
From Coq Require Import Init.Byte.
From Coq Require Import ZifyBool.
From Verif Require Import PyBase Utf8 CTypes S_shared S_1_26 S_2_11 S_2_12 Model Inflate Spec SpecDict SpecLog
  BaseProofs LayoutProofs RepProofs DictProofs TableProofs HeaderProofs GenProofs RunProofs SizedProofs
  InflateProofs LogBuild PropHeader.
Import ListNotations.
Open Scope list_scope.
Open Scope Z_scope.

(** ** Opening a well-formed log *)

Lemma header_of_log vs c hb rest : In (vs, c) table -> atop_header vs hb ->
  get_header true (plain (hb ++ rest)) = (Ok (mkHdr c hb), plain rest).
Proof.
  intros Hc (Hlen & Hmag & Hver & Hsz). unfold header_size in Hlen.
  assert (magic_of (hb ++ rest) = magic_number) as M1.
  { unfold magic_of in *. rewrite u32_app_l by lia. exact Hmag. }
  assert (is_version vs (hb ++ rest)) as V1.
  { unfold is_version, major_of, minor_of, aversion_of in *. rewrite u16_app_l by lia. exact Hver. }
  assert (sizes_match_b vs (hb ++ rest) = true) as S1.
  { apply sizes_match_b_spec. unfold sizes_match in *. rewrite !u16_app_l, !u32_app_l, i32_app_l by lia. exact Hsz. }
  pose proof (get_header_supported true vs c (hb ++ rest) Hc M1 V1) as G. rewrite S1, orb_true_r in G.
  rewrite padded_exact in G by exact Hlen. rewrite zdrop_exact in G by exact Hlen. exact G.
Qed.

Section Dec.
Variable dec : list byte -> option (list byte).

Lemma run_log vs c hb strict ms rest : In (vs, c) table -> atop_header vs hb ->
  run dec None strict ms (plain (hb ++ rest)) = D dec (mkHdr c hb) (gate_of vs) strict ms (plain rest).
Proof.
  intros Hc Ha. rewrite run_none, (header_of_log vs c hb rest Hc Ha), run_some.
  destruct Ha as (_ & _ & Hv & _). rewrite (gate_spec vs c hb Hc Hv). reflexivity.
Qed.

Lemma views_hold vs c ss : In (vs, c) table -> Forall (wf_sample dec vs) ss ->
  Forall2 (holds_sample c) ss (map (view c) ss).
Proof.
  intros Hc. induction 1 as [|s ss Hs _ IH]; cbn [map]; constructor; [|exact IH].
  eapply view_holds; eassumption.
Qed.

(** ** C09 *)

Theorem C09_log_round_trip vs hb ss strict max_samples :
  wf_log dec vs hb ss -> zlen ss <= max_samples ->
  exists c ys, class_for vs c /\ Forall2 (holds_sample c) ss ys /\
    run dec None strict max_samples (plain (log_bytes hb ss)) = (ys, Some None, plain []).
Proof.
  intros (Hvs & Ha & Hw) L. destruct (table_spec _ Hvs) as (c & Hc). exists c, (map (view c) ss).
  split; [apply table_class_for, Hc|]. split; [eapply views_hold; eassumption|].
  unfold log_bytes. rewrite (run_log vs c) by assumption. destruct Ha as (_ & _ & Hv & Hsz).
  rewrite <- (app_nil_r (samples_bytes ss)), (D_samples dec vs c hb Hc Hv Hsz) by assumption.
  rewrite (D_nil dec vs c hb Hc), app_nil_r. reflexivity.
Qed.

(** ** C10, C11 *)

Lemma cut_log vs c hb ss strict ms p q : In (vs, c) table -> wf_log dec vs hb ss -> zlen ss <= ms ->
  log_bytes hb ss = p ++ q -> header_size <= zlen p ->
  exists tail, p = hb ++ samples_bytes (complete (zlen p - header_size) ss) ++ tail /\
    run dec None strict ms (plain p) =
    (map (view c) (complete (zlen p - header_size) ss),
     Some (if strict && negb (u32_at tail 16 =? 0) then Some ZlibError else None), plain []) /\
    Forall2 (holds_sample c) (complete (zlen p - header_size) ss) (map (view c) (complete (zlen p - header_size) ss)) /\
    ((exists s r q', ss = complete (zlen p - header_size) ss ++ s :: r /\ sample_bytes s = tail ++ q' /\ q' <> []) \/
     (tail = [] /\ q = [])).
Proof.
  intros Hc (Hvs & Ha & Hw) L E Hp. pose proof Ha as (Hlen & _ & Hv & Hsz).
  unfold log_bytes in E. destruct (prefix_cases hb (samples_bytes ss) p q E) as [(K & _)|(p2 & -> & E2)]; [lia|].
  rewrite zlen_app in *. replace (zlen hb + zlen p2 - header_size) with (zlen p2) by lia.
  destruct (D_cut dec vs c hb Hc Hv Hsz strict ss p2 q ms Hw L E2) as (tail & Et & R).
  exists tail. split; [rewrite <- Et; reflexivity|]. split; [rewrite (run_log vs c) by assumption; exact R|].
  split; [eapply views_hold; [eassumption|]; eapply complete_wf; eassumption|].
  destruct (cut_samples ss p2 q E2) as (tail' & Et' & K).
  assert (tail' = tail) as ->. { rewrite Et' in Et at 1. apply app_inv_head in Et. exact Et. }
  destruct K as [(-> & -> & _)|K]; [right; auto|left; exact K].
Qed.

Theorem C10_truncation_lenient vs hb ss p q max_samples :
  wf_log dec vs hb ss -> zlen ss <= max_samples ->
  log_bytes hb ss = p ++ q -> header_size <= zlen p ->
  exists c ys, class_for vs c /\
    Forall2 (holds_sample c) (complete (zlen p - header_size) ss) ys /\
    run dec None false max_samples (plain p) = (ys, Some None, plain []).
Proof.
  intros Hw L E Hp. destruct (table_spec vs (proj1 Hw)) as (c & Hc).
  destruct (cut_log vs c hb ss false max_samples p q Hc Hw L E Hp) as (tail & _ & R & H2 & _).
  exists c, (map (view c) (complete (zlen p - header_size) ss)).
  split; [apply table_class_for, Hc|]. split; assumption.
Qed.

(** [complete] is what it should be: the longest run of leading samples that fits. *)
Theorem C10_complete_is_longest k ss :
  exists rest, ss = complete k ss ++ rest /\
    (0 <= k -> zlen (samples_bytes (complete k ss)) <= k) /\
    (forall s r, rest = s :: r -> k < zlen (samples_bytes (complete k ss)) + zlen (sample_bytes s)).
Proof.
  revert k. induction ss as [|s ss IH]; intros k; cbn [complete].
  - exists []. split; [reflexivity|]. split; [intros; change (zlen (samples_bytes [])) with 0; lia|]. intros s r X. discriminate X.
  - destruct (Z.leb_spec (zlen (sample_bytes s)) k) as [L|L].
    + destruct (IH (k - zlen (sample_bytes s))) as (rest & E & A & B). exists rest.
      split; [cbn; rewrite <- E; reflexivity|]. rewrite samples_bytes_cons, zlen_app.
      split; [intros; lia|]. intros s' r X. specialize (B s' r X). lia.
    + exists (s :: ss). split; [reflexivity|]. split; [intros; change (zlen (samples_bytes [])) with 0; lia|].
      intros s' r X. injection X as <- <-. change (zlen (samples_bytes [])) with 0. lia.
Qed.

Theorem C11_truncation_strict vs hb ss p q max_samples :
  wf_log dec vs hb ss -> zlen ss <= max_samples ->
  log_bytes hb ss = p ++ q -> header_size <= zlen p ->
  exists c ys tail, class_for vs c /\
    p = hb ++ samples_bytes (complete (zlen p - header_size) ss) ++ tail /\
    Forall2 (holds_sample c) (complete (zlen p - header_size) ss) ys /\
    run dec None true max_samples (plain p) =
      (ys, Some (if u32_at tail 16 =? 0 then None else Some ZlibError), plain []) /\
    (20 <= zlen tail -> u32_at tail 16 <> 0) /\ (zlen tail <= 16 -> u32_at tail 16 = 0).
Proof.
  intros Hw L E Hp. destruct (table_spec vs (proj1 Hw)) as (c & Hc).
  destruct (cut_log vs c hb ss true max_samples p q Hc Hw L E Hp) as (tail & Ep & R & H2 & K).
  exists c, (map (view c) (complete (zlen p - header_size) ss)), tail.
  split; [apply table_class_for, Hc|]. split; [exact Ep|]. split; [exact H2|]. split; [|split].
  - rewrite R. cbn [andb]. destruct (u32_at tail 16 =? 0); reflexivity.
  - intros L20. destruct K as [(s & r & q' & K1 & K2 & K3)|(-> & _)]; [|change (zlen (@nil byte)) with 0 in L20; lia].
    destruct Hw as (_ & _ & Hw). rewrite Forall_forall in Hw.
    assert (wf_sample dec vs s) as Hs by (apply Hw; rewrite K1; apply in_or_app; right; left; reflexivity).
    destruct Hs as (W1 & W2 & _ & _ & _ & _ & (Wne & _) & _).
    pose proof (spec_sizes vs c Hc) as (Z1 & _).
    assert (u32_at tail 16 = u32_at (sample_bytes s) 16) as ->.
    { rewrite K2, u32_app_l by lia. reflexivity. }
    unfold sample_bytes. rewrite u32_app_l by lia. rewrite W2. intros Z. apply Wne, zlen_zero, Z.
  - intros L16. unfold u32_at, u16_at. rewrite !at8_out by lia. reflexivity.
Qed.

(** ** C12 *)

Theorem C12_modes_with_header h max_samples f ss e f' :
  run dec (Some h) true max_samples f = (ss, Some e, f') ->
  run dec (Some h) false max_samples f = (ss, Some (lenient_end e), f').
Proof.
  rewrite !run_some. destruct (cgroup_gate h) as [gate|x]; [apply D_modes|].
  intros H. injection H as <- <- <-. rewrite exn_end_lenient. reflexivity.
Qed.

Theorem C12_modes_without_header max_samples f :
  match get_header true f with
  | (Raise e, f') => forall strict, run dec None strict max_samples f = ([], Some (Some e), f')
  | (Ok _, _) => forall ss e f', run dec None true max_samples f = (ss, Some e, f') ->
                 run dec None false max_samples f = (ss, Some (lenient_end e), f')
  end.
Proof.
  destruct (get_header true f) as [[h|x] f1] eqn:E.
  - intros ss e f'. rewrite !run_none, E. apply C12_modes_with_header.
  - intros strict. rewrite run_none, E. reflexivity.
Qed.

(** ** C13 *)

Theorem C13_bounded_and_terminates hdr strict max_samples f :
  exists ss e f', run dec hdr strict max_samples f = (ss, Some e, f') /\ zlen ss <= Z.max 0 max_samples.
Proof.
  destruct (run_ends dec hdr strict max_samples f) as (ss & e & f' & E). exists ss, e, f'. split; [exact E|].
  assert (forall h f, run dec (Some h) strict max_samples f = (ss, Some e, f') -> zlen ss <= Z.max 0 max_samples) as K.
  { intros h f0. rewrite run_some. destruct (cgroup_gate h); [apply D_bound|]. intros X. injection X as <- _ _.
    change (zlen (@nil sample)) with 0. lia. }
  destruct hdr as [h|]; [eapply K; exact E|]. rewrite run_none in E.
  destruct (get_header true f) as [[h|x] f1]; [eapply K; exact E|]. injection E as <- _ _.
  change (zlen (@nil sample)) with 0. lia.
Qed.

(** More calls of next than the loop needs change nothing. *)
Theorem C13_run_is_complete hdr strict max_samples f fuel :
  (S (Z.to_nat max_samples) <= fuel)%nat ->
  drain dec fuel (generate_statistics hdr strict max_samples) f = run dec hdr strict max_samples f.
Proof.
  intros H. unfold run. set (k := S (Z.to_nat max_samples)) in *.
  assert (forall g f, (exists ss e f', drain dec k g f = (ss, Some e, f')) -> drain dec fuel g f = drain dec k g f) as K.
  { clear - H. revert fuel H. generalize k. clear k. induction k as [|k IH]; intros fuel H g f (ss & e & f' & E).
    - cbn in E. discriminate E.
    - destruct fuel as [|fuel]; [lia|]. cbn [drain] in *. destruct (gnext dec g f) as [[[s| |x] g'] f1]; try reflexivity.
      rewrite (IH fuel); [reflexivity|lia|]. destruct (drain dec k g' f1) as [[a b] d]. injection E as _ -> _. eauto. }
  apply K. apply (run_ends dec hdr strict max_samples f).
Qed.

Theorem C13_default_bound hdr strict f :
  exists ss e f', run dec hdr strict MAX_SAMPLES_PER_FILE f = (ss, Some e, f') /\ zlen ss <= 86400.
Proof. apply (C13_bounded_and_terminates hdr strict 86400 f). Qed.

Theorem C13_smaller_bound_is_prefix hdr strict a b f : a <= b ->
  exists more, fst (fst (run dec hdr strict b f)) = fst (fst (run dec hdr strict a f)) ++ more.
Proof.
  intros H. assert (forall h f, exists more, fst (fst (run dec (Some h) strict b f)) = fst (fst (run dec (Some h) strict a f)) ++ more) as K.
  { intros h f0. rewrite !run_some. destruct (cgroup_gate h); [apply D_prefix, H|exists []; reflexivity]. }
  destruct hdr as [h|]; [apply K|]. rewrite !run_none. destruct (get_header true f) as [[h|x] f1]; [apply K|exists []; reflexivity].
Qed.

(** A smaller bound cuts the run and changes nothing else. *)
Theorem C13_bound_exact h strict a b f ss e f' :
  In (h_class h) versions -> 0 <= a <= b -> run dec (Some h) strict b f = (ss, Some e, f') ->
  exists f'', run dec (Some h) strict a f =
    (firstn (Z.to_nat a) ss, Some (if a <=? zlen ss then None else e), f'') /\
    (zlen ss < a -> f'' = f').
Proof.
  intros Hc Hab. destruct (class_table _ Hc) as (vs & Ht). destruct h as [c hb].
  rewrite !run_some, (cgroup_gate_spec _ _ Ht). set (gate := _ && _).
  destruct (D dec (mkHdr c hb) gate strict a f) as [[ss1 e1] f1] eqn:E. intros R.
  pose proof (D_bound _ _ _ _ _ _ _ _ _ E) as B.
  replace b with (a + (b - a)) in R by lia.
  rewrite (D_split dec _ gate strict a (b - a) f ss1 e1 f1 ltac:(lia) ltac:(lia) E) in R.
  exists f1. destruct (Z.eqb_spec (zlen ss1) a) as [L|L].
  - rewrite (D_full _ _ _ _ _ _ _ _ _ E L). destruct (D dec _ gate strict (b - a) f1) as [[ss2 e2] f2].
    injection R as <- -> <-. rewrite zlen_app. pose proof (zlen_nonneg ss2).
    replace (a <=? zlen ss1 + zlen ss2) with true by lia. split; [|lia].
    rewrite <- L. unfold zlen. rewrite Nat2Z.id, firstn_app, Nat.sub_diag, firstn_all, firstn_O, app_nil_r. reflexivity.
  - injection R as <- -> <-. replace (a <=? zlen ss1) with false by lia.
    rewrite firstn_all2 by (unfold zlen in *; lia). auto.
Qed.

(** ** C14 *)

Lemma gnext_yielded_shape vs c hb strict todo f s g f' : In (vs, c) table -> is_version vs hb ->
  gnext dec (GYielded (mkHdr c hb) (gate_of vs) strict todo) f = (Yield s, g, f') ->
  g = GYielded (mkHdr c hb) (gate_of vs) strict (todo - 1) /\
  f_rem f' = zdrop (sample_extent vs (o_buf (s_record s))) (f_rem f) /\ 0 < todo.
Proof.
  intros Hc Hv. cbn [gnext]. unfold gloop. destruct (Z.leb_spec todo 0); [intros X; discriminate X|].
  destruct (read_sample dec (mkHdr c hb) (gate_of vs) f) as [[[y|]|x] f1] eqn:E;
    [|intros X; discriminate X|intros X; unfold on_exception in X; destruct x; try discriminate X; destruct strict; discriminate X].
  intros X. injection X as <- <- <-. split; [reflexivity|]. split; [|lia].
  eapply read_sample_consumes; eassumption.
Qed.

Lemma hist_nexts vs c hb strict : In (vs, c) table -> is_version vs hb -> forall k todo f ss g f',
  hist dec (repeat ONext k) (GYielded (mkHdr c hb) (gate_of vs) strict todo) f = (map SawYield ss, g, f') ->
  f_rem f' = zdrop (total_extent vs ss) (f_rem f).
Proof.
  intros Hc Hv. induction k as [|k IH]; intros todo f ss g f' H.
  - cbn in H. destruct ss; [|discriminate H]. injection H as <- <-. cbn. rewrite zdrop_0 by lia. reflexivity.
  - cbn [repeat hist] in H. cbn [do_op] in H.
    destruct (gnext dec (GYielded (mkHdr c hb) (gate_of vs) strict todo) f) as [[o g1] f1] eqn:E.
    destruct o as [s| |x].
    + destruct (gnext_yielded_shape _ _ _ _ _ _ _ _ _ Hc Hv E) as (-> & R & _).
      destruct (hist dec (repeat ONext k) _ f1) as [[xs g2] f2] eqn:E2.
      destruct ss as [|s' ss]; [discriminate H|]. cbn [map] in H. injection H as <- -> <- <-.
      rewrite (IH _ _ _ _ _ E2), R. cbn [total_extent fold_right]. fold (total_extent vs ss).
      pose proof (sample_extent_nonneg vs c (o_buf (s_record s)) Hc). pose proof (total_extent_nonneg vs c ss Hc).
      rewrite zdrop_zdrop by lia. reflexivity.
    + destruct (hist dec (repeat ONext k) g1 f1) as [[xs g2] f2]. destruct ss; discriminate H.
    + destruct (hist dec (repeat ONext k) g1 f1) as [[xs g2] f2]. destruct ss; discriminate H.
Qed.

(** After k successful calls of next exactly the bytes of those k samples have been consumed. *)
Theorem C14_consumption vs c hb strict max_samples f k ss g f' :
  class_for vs c -> is_version vs hb ->
  hist dec (repeat ONext k) (generate_statistics (Some (mkHdr c hb)) strict max_samples) f = (map SawYield ss, g, f') ->
  f_rem f' = zdrop (total_extent vs ss) (f_rem f).
Proof.
  intros Hcf Hv H. pose proof (class_for_table _ _ Hcf) as Hc.
  destruct k as [|k].
  - cbn in H. destruct ss; [|discriminate H]. injection H as <- <-. cbn. rewrite zdrop_0 by lia. reflexivity.
  - apply (hist_nexts vs c hb strict Hc Hv (S k) max_samples f ss g f').
    rewrite <- H. cbn [repeat hist do_op]. unfold generate_statistics. cbn [gnext]. unfold gstart.
    rewrite (gate_spec vs c hb Hc Hv). reflexivity.
Qed.

(** On a well-formed log this is the byte position of sample k+1. *)
Theorem C14_position_in_log vs hb ss k max_samples strict :
  wf_log dec vs hb ss -> (k <= List.length ss)%nat -> Z.of_nat k <= max_samples ->
  exists h ys g, get_header true (plain (log_bytes hb ss)) = (Ok h, plain (samples_bytes ss)) /\
    hist dec (repeat ONext k) (generate_statistics (Some h) strict max_samples) (plain (samples_bytes ss)) =
      (map SawYield ys, g, plain (samples_bytes (skipn k ss))) /\
    zlen ys = Z.of_nat k.
Proof.
  intros (Hvs & Ha & Hw) L M. destruct (table_spec _ Hvs) as (c & Hc). pose proof Ha as (_ & _ & Hv & Hsz).
  exists (mkHdr c hb).
  assert (get_header true (plain (log_bytes hb ss)) = (Ok (mkHdr c hb), plain (samples_bytes ss))) as G
    by (apply (header_of_log vs c hb _ Hc Ha)).
  assert (forall k todo ss, Forall (wf_sample dec vs) ss -> (k <= List.length ss)%nat -> Z.of_nat k <= todo ->
    exists ys g, hist dec (repeat ONext k) (GYielded (mkHdr c hb) (gate_of vs) strict todo) (plain (samples_bytes ss)) =
      (map SawYield ys, g, plain (samples_bytes (skipn k ss))) /\ zlen ys = Z.of_nat k) as K.
  { clear - Hc Hv Hsz. induction k as [|k IH]; intros todo ss Hw L M.
    - exists [], (GYielded (mkHdr c hb) (gate_of vs) strict todo). split; reflexivity.
    - destruct ss as [|s ss]; [cbn in L; lia|]. inversion Hw as [|? ? Hs Hw']; subst.
      cbn [repeat hist do_op gnext]. unfold gloop. replace (todo <=? 0) with false by lia.
      rewrite samples_bytes_cons, (read_sample_ok dec vs c hb Hc Hv Hsz s _ Hs).
      destruct (IH (todo - 1) ss Hw') as (ys & g & E & Ly); [cbn in L; lia|lia|].
      rewrite E. exists (view c s :: ys), g. split; [reflexivity|]. rewrite zlen_cons. lia. }
  destruct (K k max_samples ss Hw L M) as (ys & g & E & Ly).
  destruct k as [|k].
  - exists [], (generate_statistics (Some (mkHdr c hb)) strict max_samples). split; [exact G|]. split; reflexivity.
  - exists ys, g. split; [exact G|]. split; [|exact Ly]. rewrite <- E. cbn [repeat hist do_op].
    unfold generate_statistics. cbn [gnext]. unfold gstart. rewrite (gate_spec vs c hb Hc Hv). reflexivity.
Qed.

Theorem C14_resume h strict a b f ss1 e1 f1 :
  0 <= b -> run dec (Some h) strict a f = (ss1, e1, f1) -> zlen ss1 = a ->
  run dec (Some h) strict (a + b) f =
  (let '(ss2, e2, f2) := run dec (Some h) strict b f1 in (ss1 ++ ss2, e2, f2)).
Proof.
  intros Hb. rewrite !run_some. destruct (cgroup_gate h) as [gate|x].
  - intros H L. pose proof (zlen_nonneg ss1). rewrite (D_split dec h gate strict a b f ss1 e1 f1) by (assumption || lia).
    rewrite (proj2 (Z.eqb_eq _ _) L). reflexivity.
  - intros H L. injection H as <- <- <-. reflexivity.
Qed.

(** ** C15 *)

Theorem C15_header_omitted strict max_samples f :
  run dec None strict max_samples f =
  match get_header true f with
  | (Ok h, f') => run dec (Some h) strict max_samples f'
  | (Raise e, f') => ([], Some (Some e), f')
  end.
Proof. apply run_none. Qed.

(** ** C16 *)

Theorem C16_nothing_read_before_next ops g f : ~ In ONext ops -> snd (hist dec ops g f) = f.
Proof. apply hist_no_next. Qed.

Theorem C16_forward_only ops g f : suffix_of (f_rem (snd (hist dec ops g f))) (f_rem f).
Proof. apply hist_fwd. Qed.

(** Once an operation shows anything but a yield, every later operation shows what a finished
    iterator shows and leaves the file alone. *)
Theorem C16_finished_stays_finished pre o post g f xs x g1 f1 :
  hist dec (pre ++ [o]) g f = (xs ++ [x], g1, f1) -> (forall s, x <> SawYield s) ->
  exists g2, hist dec (pre ++ o :: post) g f = (xs ++ x :: map finished_seen post, g2, f1).
Proof. intros H N. eexists. eapply hist_inert; eassumption. Qed.

Theorem C16_throw_at_yield pre e hdr strict max_samples f xs s g1 f1 :
  hist dec pre (generate_statistics hdr strict max_samples) f = (xs ++ [SawYield s], g1, f1) ->
  exists g2, hist dec (pre ++ [OThrow e]) (generate_statistics hdr strict max_samples) f =
  (xs ++ [SawYield s] ++ [match e, strict with ZlibError, false => SawStop | _, _ => SawRaise e end], g2, f1).
Proof. intros H. eexists. eapply hist_throw. exact H. Qed.

(** ** C17 *)

Theorem C17_natural_end vs c hb strict max_samples b :
  class_for vs c -> is_version vs hb -> u32_at b 16 = 0 -> 0 < max_samples ->
  run dec (Some (mkHdr c hb)) strict max_samples (plain b) = ([], Some None, plain (zdrop (vs_rec vs) b)).
Proof.
  intros Hcf Hv Hz Hm. pose proof (class_for_table _ _ Hcf) as Hc.
  rewrite run_some, (gate_spec vs c hb Hc Hv). apply (D_end dec vs c hb Hc); assumption.
Qed.

(** A log followed by anything whose next compressed length reads as zero: same samples, normal
    end, whatever else is there. *)
Theorem C17_zero_tail vs hb ss tail strict max_samples :
  wf_log dec vs hb ss -> zlen ss <= max_samples -> u32_at tail 16 = 0 ->
  exists c ys f', class_for vs c /\ Forall2 (holds_sample c) ss ys /\
    run dec None strict max_samples (plain (log_bytes hb ss ++ tail)) = (ys, Some None, f').
Proof.
  intros (Hvs & Ha & Hw) L Hz. destruct (table_spec _ Hvs) as (c & Hc).
  pose proof (views_hold vs c ss Hc Hw) as V. apply table_class_for in Hc as Hcf.
  assert (exists f', run dec None strict max_samples (plain (log_bytes hb ss ++ tail)) = (map (view c) ss, Some None, f')) as (f' & R).
  { unfold log_bytes. rewrite <- app_assoc, (run_log vs c hb strict max_samples _ Hc Ha). destruct Ha as (_ & _ & Hv & Hsz).
    rewrite (D_samples dec vs c hb Hc Hv Hsz strict ss max_samples tail Hw L).
    destruct (Z.eq_dec (zlen ss) max_samples) as [E|E].
    - rewrite (D_zero dec) by lia. rewrite app_nil_r. eexists. reflexivity.
    - rewrite (D_end dec vs c hb Hc) by (assumption || lia). rewrite app_nil_r. eexists. reflexivity. }
  exists c, (map (view c) ss), f'. split; [exact Hcf|]. split; [exact V|exact R].
Qed.

(** ** C18 *)

Theorem C18_task_list vs c hb rb b :
  class_for vs c -> is_version vs hb ->
  let n := u32_at rb 28 in
  let len := u32_at hb 32 in
  let size := vs_tstat vs in
  exists f',
  match dec (ztake (u32_at rb 20) b) with
  | None => get_tstat dec (mkHdr c hb) (mkObj (hc_record c) rb) (plain b) = (Raise ZlibError, f')
  | Some d =>
      (n = 0 \/ (size <= len /\ (n - 1) * len + size <= zlen d) ->
       exists ts, get_tstat dec (mkHdr c hb) (mkObj (hc_record c) rb) (plain b) = (Ok ts, f') /\ zlen ts = n /\
         forall i t, nth_error ts i = Some t ->
           t = mkObj (hc_tstat c) (ztake size (zdrop (Z.of_nat i * len) d))) /\
      (~ (n = 0 \/ (size <= len /\ (n - 1) * len + size <= zlen d)) ->
       get_tstat dec (mkHdr c hb) (mkObj (hc_record c) rb) (plain b) = (Raise (ValueError BufferTooSmall), f'))
  end /\ f' = plain (zdrop (u32_at rb 20) b).
Proof.
  intros Hcf Hv n len size. pose proof (class_for_table _ _ Hcf) as Hc.
  exists (plain (zdrop (u32_at rb 20) b)). split; [|reflexivity].
  rewrite (get_tstat_spec dec vs c hb Hc Hv rb b).
  destruct (dec (ztake (u32_at rb 20) b)) as [d|]; [|reflexivity].
  pose proof (tstat_size vs c Hc) as Hsz.
  assert (0 < sizeof (hc_tstat c)) as P.
  { rewrite Hsz. destruct Hcf as (Hvs & _). clear - Hvs. repeat (destruct Hvs as [<- | Hvs]; [cbn; lia|]). destruct Hvs. }
  pose proof (u32_range hb 32) as R1. pose proof (u32_range rb 28) as R2.
  pose proof (tstat_loop_spec (hc_tstat c) len d (Z.to_nat n) 0) as K. unfold len, n, size in *.
  specialize (K ltac:(lia) ltac:(lia) P). rewrite !Z2Nat.id in K by lia. rewrite Z.add_0_l, Hsz in K.
  destruct ((u32_at rb 28 =? 0) || ((vs_tstat vs <=? u32_at hb 32) && ((u32_at rb 28 - 1) * u32_at hb 32 + vs_tstat vs <=? zlen d))) eqn:E.
  - split; [|intros N; exfalso; apply N; lia]. intros _. rewrite K. eexists. split; [reflexivity|]. split.
    + rewrite zlen_map. unfold zlen. rewrite seq_length. lia.
    + intros i t Hi. rewrite nth_error_map in Hi. destruct (nth_error (seq 0 _) i) as [j|] eqn:Ej; [|discriminate Hi].
      cbn in Hi. injection Hi as <-.
      assert (j = i) as ->.
      { apply (nth_error_nth _ _ O) in Ej as Ej'. rewrite seq_nth in Ej'; [lia|].
        assert (nth_error (seq 0 (Z.to_nat (u32_at rb 28))) i <> None) as X by congruence.
        apply nth_error_Some in X. rewrite seq_length in X. exact X. }
      unfold sub_bytes. rewrite Z.add_0_l. reflexivity.
  - split; [intros X; exfalso; lia|]. intros _. rewrite K. reflexivity.
Qed.

(** ** C19 *)

Theorem C19_cgroups_exact vs c hb rb b gs n :
  class_for vs c -> is_version vs hb -> vs_cstat vs = Some n -> i32_at hb 456 = n ->
  u16_at rb 10 = zlen gs -> Forall (wf_group n) gs ->
  dec (ztake (u32_at rb 72) b) = Some (groups_data gs) ->
  dec (ztake (u32_at rb 84) (zdrop (u32_at rb 72) b)) = Some (groups_pids gs) ->
  exists ct ks, hc_cstat c = Some ct /\ Forall2 (holds_group ct) gs ks /\
    get_cstat dec (mkHdr c hb) (mkObj (hc_record c) rb) (plain b) =
    (Ok ks, plain (zdrop (u32_at rb 84) (zdrop (u32_at rb 72) b))).
Proof.
  intros Hcf Hv Hn Hl Hg Hw D1 D2. pose proof (class_for_table _ _ Hcf) as Hc.
  destruct (table_sizes _ _ Hc) as (_ & _ & _ & _ & _ & S5). rewrite Hn in S5. destruct S5 as (ct & Ect & Hsz).
  exists ct, (map (group_view ct) gs). split; [exact Ect|]. split.
  - clear - Hw. induction Hw as [|g gs Hg _ IH]; cbn [map]; constructor; [|exact IH].
    split; [reflexivity|]. cbn [group_view cg_proclist]. apply pids_items. apply Hg.
  - rewrite (get_cstat_spec dec vs c hb Hc rb b ct Ect), D1, D2, Hl, Hg.
    pose proof (cstat_loop_ok c ct n gs [] []) as K. cbn [app] in K. change (zlen (@nil byte)) with 0 in K.
    unfold zlen. rewrite Nat2Z.id. rewrite K; [reflexivity|apply Hcf|exact Ect|exact Hsz| |exact Hw].
    pose proof (spec_sizes vs c Hc) as (_ & _ & _ & _ & X). rewrite Hn in X. lia.
Qed.

(** Whatever the data: as many groups as the record says, each a complete struct with exactly as
    many pids as it says; otherwise zlib.error or ValueError. *)
Theorem C19_cgroups_any_data vs c hb rb b n :
  class_for vs c -> is_version vs hb -> vs_cstat vs = Some n ->
  match fst (get_cstat dec (mkHdr c hb) (mkObj (hc_record c) rb) (plain b)) with
  | Ok ks => zlen ks = u16_at rb 10 /\
             Forall (fun k => exists ct, hc_cstat c = Some ct /\ sized ct (cg_cstat k) /\
               zlen (array_items (cg_proclist k)) = i32_at (o_buf (cg_cstat k)) 16) ks
  | Raise e => e = ZlibError \/ e = ValueError BufferTooSmall \/ e = ValueError NegativeArrayLength
  end.
Proof.
  intros Hcf Hv Hn. pose proof (class_for_table _ _ Hcf) as Hc.
  destruct (table_sizes _ _ Hc) as (_ & _ & _ & _ & _ & S5). rewrite Hn in S5. destruct S5 as (ct & Ect & Hsz).
  rewrite (get_cstat_spec dec vs c hb Hc rb b ct Ect).
  destruct (dec _) as [dc|]; [|left; reflexivity]. cbn [fst]. destruct (dec _) as [dp|]; [|left; reflexivity].
  pose proof (u16_range rb 10).
  destruct (cstat_loop _ _ _ _ _ _ _) as [ks|e] eqn:E.
  - apply (cstat_loop_sized c ct _ _ _ _ _ _ _ (proj1 (proj2 Hcf)) Ect) in E as [L F]. split; [lia|].
    eapply Forall_impl; [|exact F]. intros k (K1 & K2 & K3 & K4). exists ct. split; [exact Ect|]. split; [exact K1|].
    unfold array_items. rewrite K3. rewrite zlen_map, zlen_chunks. lia.
  - right. eapply cstat_loop_raise; [|eassumption..]. apply Hcf.
Qed.

(** ** C20 *)

Theorem C20_cgroup_gating vs c hb strict max_samples f ss e f' :
  class_for vs c -> is_version vs hb ->
  run dec (Some (mkHdr c hb)) strict max_samples f = (ss, e, f') ->
  (vs_cstat vs = None -> Forall (fun s => s_cgroups s = []) ss) /\
  (vs_cstat vs <> None -> Forall (fun s => zlen (s_cgroups s) = u16_at (o_buf (s_record s)) 10) ss) /\
  (zlen ss = Z.max 0 max_samples -> f_rem f' = zdrop (total_extent vs ss) (f_rem f)).
Proof.
  intros Hcf Hv. pose proof (class_for_table _ _ Hcf) as Hc. rewrite run_some, (gate_spec vs c hb Hc Hv).
  intros H. destruct (D_shape dec vs c hb strict max_samples f ss e f' Hc Hv H) as [S L].
  split; [|split; [|exact L]]; intros N; eapply Forall_impl; try exact S; intros s K; apply K; exact N.
Qed.

Theorem C20_versions_with_cgroups vs : In vs spec_versions ->
  (vs_cstat vs <> None <-> vs_name vs = "2.11"%string \/ vs_name vs = "2.12"%string).
Proof.
  intros H. repeat (destruct H as [<- | H]; [cbn; split; [intros N; try congruence; auto|intros [X | X]; congruence]|]). destruct H.
Qed.

(** ** C21 *)

Theorem C21_sstat_validated vs c hb rb b :
  class_for vs c -> is_version vs hb ->
  fst (get_sstat dec (mkHdr c hb) (mkObj (hc_record c) rb) (plain b)) =
  match dec (ztake (u32_at rb 16) b) with
  | None => Raise ZlibError
  | Some d => if zlen d <? vs_sstat vs then Raise (ValueError BufferTooSmall)
              else Ok (mkObj (hc_sstat c) (ztake (vs_sstat vs) d))
  end.
Proof.
  intros Hcf Hv. rewrite (get_sstat_spec dec vs c hb (class_for_table _ _ Hcf) rb b). reflexivity.
Qed.

(** Every struct of every sample ever yielded, from any file, is complete. *)
Theorem C21_no_partial_structs h strict max_samples f ss e f' :
  In (h_class h) versions -> run dec (Some h) strict max_samples f = (ss, e, f') ->
  Forall (sample_sized (h_class h)) ss.
Proof. apply run_sized. Qed.

(** ** C44 *)

Theorem C44_iteration_exceptions h f0 f0' strict max_samples f ss e f' :
  get_header true f0 = (Ok h, f0') ->
  run dec (Some h) strict max_samples f = (ss, Some (Some e), f') ->
  (e = ZlibError \/ (exists v, e = ValueError v) \/ f_fault f = Some e) /\
  (e = ZlibError -> strict = true).
Proof.
  intros H. destruct (accepted_gate h f0 f0' H) as (gate & G). rewrite run_some, G.
  intros R. eapply D_reported; [|exact R]. eapply tame_accepted; eassumption.
Qed.

End Dec.

(** ** C11: the documented expectation is refuted *)

Theorem C11_cut_sample_always_raises_refuted :
  ~ (forall vs hb ss p q, wf_log zdecompress vs hb ss -> zlen ss <= 86400 ->
       log_bytes hb ss = p ++ q -> header_size <= zlen p ->
       (forall k, p <> hb ++ samples_bytes (firstn k ss)) ->
       exists ys f', run zdecompress None true 86400 (plain p) = (ys, Some (Some ZlibError), f')).
Proof.
  intros H.
  set (vs := mkVS "1.26" 1 26 80 88368 616 None).
  assert (In vs spec_versions) as Hvs by (left; reflexivity).
  set (hb := make_header vs). set (ss := example_log vs 1).
  pose proof (example_log_wf vs 1 Hvs) as Hw. fold hb ss in Hw.
  assert (exists ten rest, samples_bytes ss = ten ++ rest /\ zlen ten = 10 /\ zlen rest > 0) as (ten & rest & E & L10 & Lr).
  { exists (ztake 10 (samples_bytes ss)), (zdrop 10 (samples_bytes ss)). split; [symmetry; apply ztake_zdrop|].
    assert (80 <= zlen (samples_bytes ss)) as L80.
    { destruct Hw as (_ & _ & Hw). unfold ss, example_log in *. cbn [seq map] in *. inversion Hw as [|s l Hs _ Es]. rewrite samples_bytes_cons. unfold sample_bytes.
      destruct Hs as (W1 & _). rewrite !zlen_app. cbn [vs_rec vs] in W1. rewrite W1.
      repeat match goal with |- context [zlen ?y] => lazymatch goal with _ : 0 <= zlen y |- _ => fail | _ => pose proof (zlen_nonneg y) end end. lia. }
    rewrite zlen_ztake, zlen_zdrop; lia. }
  assert (zlen hb = 480) as Lh by apply Hw.
  destruct (H vs hb ss (hb ++ ten) rest Hw) as (ys & f' & R).
  - unfold ss. rewrite example_log_len. lia.
  - unfold log_bytes. rewrite E, app_assoc. reflexivity.
  - rewrite zlen_app, Lh, L10. vm_compute. discriminate.
  - intros [|k] X.
    + apply (f_equal zlen) in X. rewrite !zlen_app in X. change (zlen (samples_bytes (firstn 0 ss))) with 0 in X. lia.
    + apply app_inv_head in X. destruct k; rewrite firstn_all2 in X by (cbn; lia); rewrite E in X; apply (f_equal zlen) in X;
        rewrite zlen_app in X; lia.
  - destruct (C11_truncation_strict zdecompress vs hb ss (hb ++ ten) rest 86400 Hw) as (c & ys' & tail & _ & Ep & _ & R' & _ & Z).
    + unfold ss. rewrite example_log_len. lia.
    + unfold log_bytes. rewrite E, app_assoc. reflexivity.
    + rewrite zlen_app, Lh, L10. vm_compute. discriminate.
    + rewrite R in R'. injection R' as _ R' _. rewrite Z in R'; [discriminate R'|].
      apply (f_equal zlen) in Ep. rewrite !zlen_app in Ep. 
      match type of Ep with _ = _ + (zlen ?x + _) => pose proof (zlen_nonneg x) end. lia.
Qed.

(** ** C41 *)

(** The real decompressor: a complete stream cut anywhere fails; bytes after it change nothing;
    every payload has a stream. *)
Theorem C41_cut_stream_fails c x p q :
  inflate c = Some (x, []) -> c = p ++ q -> q <> [] -> zdecompress p = None.
Proof. intros H E Hq. unfold zdecompress. rewrite (inflate_cut c x p q H E Hq). reflexivity. Qed.

Theorem C41_trailing_bytes_ignored c x u more :
  inflate c = Some (x, u) -> zdecompress c = Some x /\ zdecompress (c ++ more) = Some x /\
                             inflate (c ++ more) = Some (x, u ++ more).
Proof.
  intros H. unfold zdecompress. rewrite H, (inflate_extend c x u more H). auto.
Qed.

Theorem C41_every_payload_has_a_stream x : exists c, inflate c = Some (x, []) /\ stream zdecompress c x.
Proof. exists (zstore x). split; [apply zstore_exact|apply zstore_stream]. Qed.

Theorem C41_exact_streams_satisfy_contract c x : inflate c = Some (x, []) -> stream zdecompress c x.
Proof. apply exact_is_stream. Qed.

(** ** Examples: the hypotheses are met *)

(** For every version: its classes, and a header of that version (C14, C17-C21). *)
Example class_example vs : In vs spec_versions -> exists c, class_for vs c /\ is_version vs (make_header vs).
Proof.
  intros H. destruct (table_spec _ H) as (c & Hc). exists c. split; [apply table_class_for, Hc|].
  apply (make_header_ok vs H).
Qed.

(** C09, C13, C15: for every version and number of samples a log that is read completely; with a
    smaller bound, only its first samples. *)
Example C09_example vs n strict : In vs spec_versions ->
  exists hb ss ys, wf_log zdecompress vs hb ss /\ zlen ss = Z.of_nat n /\ zlen ys = Z.of_nat n /\
    run zdecompress None strict (Z.of_nat n) (plain (log_bytes hb ss)) = (ys, Some None, plain []).
Proof.
  intros H. pose proof (example_log_wf vs n H) as Hw. pose proof (example_log_len vs n) as L.
  destruct (C09_log_round_trip zdecompress vs _ _ strict (Z.of_nat n) Hw ltac:(lia)) as (c & ys & _ & F & R).
  exists (make_header vs), (example_log vs n), ys. split; [exact Hw|]. split; [exact L|]. split; [|exact R].
  rewrite <- L. clear -F. induction F as [|a b l m Hab F IH]; [reflexivity|]. rewrite !zlen_cons. lia.
Qed.

(** C10, C11, C12, C44: a log cut 30 bytes after its header; strict mode raises zlib.error. *)
Lemma cut_example vs : In vs spec_versions ->
  exists hb ss p q, wf_log zdecompress vs hb ss /\ zlen ss = 1 /\ log_bytes hb ss = p ++ q /\ zlen p = 510 /\ q <> [] /\
    exists h f1, get_header true (plain p) = (Ok h, f1) /\
      run zdecompress (Some h) true 1 f1 = ([], Some (Some ZlibError), plain []).
Proof.
  intros H. pose proof (example_log_wf vs 1 H) as Hw. pose proof (example_log_len vs 1) as L.
  set (hb := make_header vs) in *. set (ss := example_log vs 1) in *.
  assert (Lh : zlen hb = 480) by apply Hw.
  assert (exists s, ss = [s]) as (s & Es) by (eexists; reflexivity).
  assert (80 <= zlen (sample_bytes s)) as L80.
  { pose proof (proj2 (proj2 Hw)) as Hs. rewrite Es in Hs. inversion Hs as [|? ? (W1 & _) _]; subst.
    unfold sample_bytes. rewrite !zlen_app, W1.
    assert (80 <= vs_rec vs) by (clear -H; repeat (destruct H as [<- | H]; [cbn; lia|]); destruct H).
    pose proof (zlen_nonneg (ls_cs s)). pose proof (zlen_nonneg (ls_ct s)). pose proof (zlen_nonneg (ls_cc s)).
    pose proof (zlen_nonneg (ls_ci s)). lia. }
  assert (B : samples_bytes ss = sample_bytes s) by (rewrite Es; unfold samples_bytes; cbn; apply app_nil_r).
  set (p := hb ++ ztake 30 (samples_bytes ss)). set (q := zdrop 30 (samples_bytes ss)).
  assert (E : log_bytes hb ss = p ++ q).
  { unfold log_bytes, p, q. rewrite <- app_assoc, ztake_zdrop. reflexivity. }
  assert (Lp : zlen p = 510) by (unfold p; rewrite zlen_app, Lh, zlen_ztake, B; lia).
  assert (Lq : q <> []).
  { intros X. apply (f_equal zlen) in X. unfold q in X. rewrite zlen_zdrop, B in X. change (zlen (@nil byte)) with 0 in X. lia. }
  exists hb, ss, p, q. split; [exact Hw|]. split; [exact L|]. split; [exact E|]. split; [exact Lp|]. split; [exact Lq|].
  destruct (C11_truncation_strict zdecompress vs hb ss p q 1 Hw ltac:(lia) E ltac:(unfold header_size; lia))
    as (c & ys & tail & _ & Ep & F & R & T1 & _).
  assert (C0 : complete (zlen p - header_size) ss = []).
  { rewrite Es. cbn [complete]. rewrite Lp. unfold header_size.
    destruct (zlen (sample_bytes s) <=? 510 - 480) eqn:X; [lia|reflexivity]. }
  rewrite C0 in *. inversion F; subst ys.
  assert (Lt : zlen tail = 30).
  { apply (f_equal zlen) in Ep. rewrite !zlen_app, Lh, Lp in Ep. change (zlen (samples_bytes [])) with 0 in Ep. lia. }
  rewrite C15_header_omitted in R.
  destruct (u32_at tail 16 =? 0) eqn:X; [specialize (T1 ltac:(lia)); lia|].
  destruct (get_header true (plain p)) as [[h|e] f1] eqn:G.
  - exists h, f1. split; [reflexivity|exact R].
  - exfalso. injection R as R _. subst e.
    destruct (C06_exact_exceptions p ZlibError) as [(v & V)|(V & _)]; [rewrite G; reflexivity| |]; discriminate V.
Qed.
Example C11_example vs : In vs spec_versions ->
  exists hb ss p q, wf_log zdecompress vs hb ss /\ zlen ss <= 1 /\ log_bytes hb ss = p ++ q /\ header_size <= zlen p /\ q <> [].
Proof.
  intros H. destruct (cut_example vs H) as (hb & ss & p & q & A & B & C & D & E & _). exists hb, ss, p, q.
  split; [exact A|]. split; [lia|]. split; [exact C|]. split; [unfold header_size; lia|exact E].
Qed.
Example C44_example vs : In vs spec_versions ->
  exists b h f1, get_header true (plain b) = (Ok h, f1) /\
    run zdecompress (Some h) true 1 f1 = ([], Some (Some ZlibError), plain []) /\
    run zdecompress (Some h) false 1 f1 = ([], Some None, plain []).
Proof.
  intros H. destruct (cut_example vs H) as (hb & ss & p & q & _ & _ & _ & _ & _ & h & f1 & G & R).
  exists p, h, f1. split; [exact G|]. split; [exact R|]. apply (C12_modes_with_header zdecompress h 1 f1 _ _ _ R).
Qed.

(** C14, C16: a history of [k] calls of next that all yield, and one more throw. *)
Example C14_example vs n k strict : In vs spec_versions -> (k <= n)%nat ->
  exists c hb ss ys g, class_for vs c /\ wf_log zdecompress vs hb ss /\ zlen ss = Z.of_nat n /\ zlen ys = Z.of_nat k /\
    hist zdecompress (repeat ONext k) (generate_statistics (Some (mkHdr c hb)) strict (Z.of_nat n)) (plain (samples_bytes ss)) =
      (map SawYield ys, g, plain (samples_bytes (skipn k ss))).
Proof.
  intros H K. pose proof (example_log_wf vs n H) as Hw. pose proof (example_log_len vs n) as L.
  destruct (table_spec _ H) as (c & Hc). 
  destruct (C14_position_in_log zdecompress vs _ _ k (Z.of_nat n) strict Hw) as (h & ys & g & G & R & Ly).
  - unfold zlen in L. lia.
  - lia.
  - pose proof (header_of_log vs c _ (samples_bytes (example_log vs n)) Hc (make_header_ok vs H)) as G'.
    unfold log_bytes in G. rewrite G in G'. injection G' as ->.
    exists c, (make_header vs), (example_log vs n), ys, g.
    split; [apply table_class_for, Hc|]. auto.
Qed.
Example C16_example vs strict : In vs spec_versions ->
  exists hdr f s g f1, hist zdecompress [ONext] (generate_statistics hdr strict 1) f = ([] ++ [SawYield s], g, f1) /\
    f_rem f1 <> f_rem f.
Proof.
  intros H. destruct (C14_example vs 1 1 strict H (le_n _)) as (c & hb & ss & ys & g & _ & Hw & L & Ly & R).
  destruct ys as [|s [|]]; [discriminate Ly| |unfold zlen in Ly; cbn in Ly; lia].
  exists (Some (mkHdr c hb)), (plain (samples_bytes ss)), s, g. eexists. split; [exact R|].
  destruct ss as [|x [|]]; [discriminate L| |unfold zlen in L; cbn in L; lia]. cbn [skipn plain f_rem samples_bytes map List.concat].
  rewrite app_nil_r. intros X. pose proof (proj2 (proj2 Hw)) as Hs. inversion Hs as [|? ? (W1 & _) _]; subst.
  unfold sample_bytes in X. symmetry in X. apply app_eq_nil in X. destruct X as [X _]. rewrite X in W1.
  clear -H W1. change (zlen (@nil byte)) with 0 in W1. repeat (destruct H as [<- | H]; [discriminate W1|]). destruct H.
Qed.

(** C17: zeros after the last sample. *)
Example C17_example vs n strict : In vs spec_versions ->
  exists hb ss ys f', wf_log zdecompress vs hb ss /\ zlen ss = Z.of_nat n /\ zlen ys = Z.of_nat n /\
    run zdecompress None strict (Z.of_nat n) (plain (log_bytes hb ss ++ zeros 1000)) = (ys, Some None, f').
Proof.
  intros H. pose proof (example_log_wf vs n H) as Hw. pose proof (example_log_len vs n) as L.
  destruct (C17_zero_tail zdecompress vs _ _ (zeros 1000) strict (Z.of_nat n) Hw ltac:(lia) eq_refl) as (c & ys & f' & _ & F & R).
  exists (make_header vs), (example_log vs n), ys, f'. split; [exact Hw|]. split; [exact L|]. split; [|exact R].
  rewrite <- L. clear -F. induction F as [|a b l m Hab F IH]; [reflexivity|]. rewrite !zlen_cons. lia.
Qed.

(** C19: two cgroups with names of different lengths, one with two pids, one with none. *)
Example C19_example vs n : In vs spec_versions -> vs_cstat vs = Some n ->
  exists hb rb b gs, is_version vs hb /\ i32_at hb 456 = n /\ u16_at rb 10 = zlen gs /\ Forall (wf_group n) gs /\
    zlen gs = 2 /\
    zdecompress (ztake (u32_at rb 72) b) = Some (groups_data gs) /\
    zdecompress (ztake (u32_at rb 84) (zdrop (u32_at rb 72) b)) = Some (groups_pids gs).
Proof.
  intros H E. pose proof (example_log_wf vs 1 H) as (_ & (_ & _ & V & S) & Hs).
  assert (exists s, example_log vs 1 = [s] /\ s = example_sample vs (Z.of_nat 0 mod 4294967296)) as (s & E1 & Es) by (eexists; split; reflexivity).
  rewrite E1 in Hs. inversion Hs as [|? ? W _ X1]. clear X1 Hs E1.
  destruct W as (_ & _ & _ & _ & _ & _ & _ & _ & W). rewrite E in W. destruct W as (W1 & W2 & W3 & W4 & W5 & W6).
  exists (make_header vs), (ls_record s), (ls_cc s ++ ls_ci s), (ls_groups s).
  split; [exact V|]. split; [unfold sizes_match in S; rewrite E in S; apply S|]. split; [exact W1|]. split; [exact W4|].
  split. { subst s. unfold example_sample, make_sample. cbn [ls_groups]. rewrite E. reflexivity. }
  rewrite W2, W3, ztake_exact, zdrop_exact by reflexivity. rewrite ztake_all by lia.
  split; [apply W5|apply W6].
Qed.

Lemma same_length {A B} (P : A -> B -> Prop) l m : Forall2 P l m -> List.length l = List.length m.
Proof. induction 1; cbn; congruence. Qed.

(** C10: the samples before the cut. *)
Lemma complete_cut k ss s r m : ss = firstn k ss ++ s :: r -> 0 <= m < zlen (sample_bytes s) ->
  complete (zlen (samples_bytes (firstn k ss)) + m) ss = firstn k ss.
Proof.
  revert ss. induction k as [|k IH]; intros [|x ss] E Hm; cbn [firstn app] in *; try discriminate E.
  - injection E as -> ->. cbn [complete]. change (zlen (samples_bytes [])) with 0.
    destruct (zlen (sample_bytes s) <=? 0 + m) eqn:X; [lia|reflexivity].
  - injection E as E. assert (zlen (samples_bytes (x :: firstn k ss)) = zlen (sample_bytes x) + zlen (samples_bytes (firstn k ss))) as L.
    { unfold samples_bytes. cbn [map List.concat]. apply zlen_app. }
    cbn [complete]. rewrite L. pose proof (zlen_nonneg (samples_bytes (firstn k ss))).
    destruct (zlen (sample_bytes x) <=? zlen (sample_bytes x) + zlen (samples_bytes (firstn k ss)) + m) eqn:X; [|lia].
    f_equal. replace (zlen (sample_bytes x) + zlen (samples_bytes (firstn k ss)) + m - zlen (sample_bytes x))
      with (zlen (samples_bytes (firstn k ss)) + m) by lia. apply IH; assumption.
Qed.

(** A log of [n] samples cut 10 bytes into sample number [k]: exactly [k] samples are read. *)
Example C10_example vs n k : In vs spec_versions -> (k < n)%nat ->
  exists hb ss p q ys, wf_log zdecompress vs hb ss /\ zlen ss = Z.of_nat n /\ log_bytes hb ss = p ++ q /\ q <> [] /\
    run zdecompress None false (Z.of_nat n) (plain p) = (ys, Some None, plain []) /\ zlen ys = Z.of_nat k.
Proof.
  intros H Hk. pose proof (example_log_wf vs n H) as Hw. pose proof (example_log_len vs n) as L.
  set (hb := make_header vs) in *. set (ss := example_log vs n) in *.
  assert (Lh : zlen hb = 480) by apply Hw.
  assert (exists s r, ss = firstn k ss ++ s :: r) as (s & r & Es).
  { destruct (skipn k ss) as [|s r] eqn:X.
    - exfalso. apply (f_equal (@List.length _)) in X. rewrite skipn_length in X. unfold zlen in L. cbn in X. lia.
    - exists s, r. rewrite <- X, firstn_skipn. reflexivity. }
  assert (80 <= zlen (sample_bytes s)) as L80.
  { pose proof (proj2 (proj2 Hw)) as Hs. rewrite Es in Hs. apply Forall_app in Hs as [_ Hs]. inversion Hs as [|? ? (W1 & _) _]; subst.
    unfold sample_bytes. rewrite !zlen_app, W1.
    assert (80 <= vs_rec vs) by (clear -H; repeat (destruct H as [<- | H]; [cbn; lia|]); destruct H).
    pose proof (zlen_nonneg (ls_cs s)). pose proof (zlen_nonneg (ls_ct s)). pose proof (zlen_nonneg (ls_cc s)).
    pose proof (zlen_nonneg (ls_ci s)). lia. }
  set (p := hb ++ samples_bytes (firstn k ss) ++ ztake 10 (sample_bytes s)).
  set (q := zdrop 10 (sample_bytes s) ++ samples_bytes r).
  assert (E : log_bytes hb ss = p ++ q).
  { unfold log_bytes, p, q. rewrite Es at 1. unfold samples_bytes. rewrite map_app, concat_app. cbn [map List.concat].
    rewrite <- (ztake_zdrop 10 (sample_bytes s)) at 1. rewrite !app_assoc. reflexivity. }
  assert (zlen p - header_size = zlen (samples_bytes (firstn k ss)) + 10) as Lp.
  { unfold p. rewrite !zlen_app, Lh, zlen_ztake. unfold header_size. lia. }
  destruct (C10_truncation_lenient zdecompress vs hb ss p q (Z.of_nat n) Hw ltac:(lia) E) as (c & ys & _ & F & R).
  { pose proof (zlen_nonneg (samples_bytes (firstn k ss))). lia. }
  rewrite Lp, (complete_cut k ss s r 10 Es ltac:(lia)) in F.
  exists hb, ss, p, q, ys. split; [exact Hw|]. split; [exact L|]. split; [exact E|]. split.
  { intros X. apply (f_equal zlen) in X. unfold q in X. rewrite zlen_app, zlen_zdrop in X. change (zlen (@nil byte)) with 0 in X.
    pose proof (zlen_nonneg (samples_bytes r)). lia. }
  split; [exact R|]. apply same_length in F. unfold zlen. rewrite <- F, firstn_length. unfold zlen in L. lia.
Qed.

(** C13: with the bound [k], exactly the first [k] of [n] samples. *)
Example C13_example vs n k strict : In vs spec_versions -> (k <= n)%nat ->
  exists h f zs f'', In (h_class h) versions /\ zlen zs = Z.of_nat n /\
    run zdecompress (Some h) strict (Z.of_nat n) f = (zs, Some None, plain []) /\
    run zdecompress (Some h) strict (Z.of_nat k) f = (firstn k zs, Some None, f'').
Proof.
  intros H K. destruct (C09_example vs n strict H) as (hb & ss & zs & Hw & L & Lz & R).
  destruct (table_spec _ H) as (c & Hc). destruct (table_class _ _ Hc) as [_ Hcv].
  rewrite C15_header_omitted in R. unfold log_bytes in R. rewrite (header_of_log vs c hb (samples_bytes ss) Hc (proj1 (proj2 Hw))) in R.
  destruct (C13_bound_exact zdecompress (mkHdr c hb) strict (Z.of_nat k) (Z.of_nat n) _ _ _ _ Hcv ltac:(lia) R) as (f'' & R2 & _).
  exists (mkHdr c hb), (plain (samples_bytes ss)), zs, f''. split; [exact Hcv|]. split; [exact Lz|]. split; [exact R|].
  rewrite R2, Nat2Z.id. destruct (Z.of_nat k <=? zlen zs); reflexivity.
Qed.

(** C18: two processes in a 1.26 record; with the data of only one, a ValueError. *)
Example C18_example :
  let vs := mkVS "1.26" 1 26 80 88368 616 None in
  let data := le32 1 ++ zeros 612 ++ le32 2 ++ zeros 612 in
  let record len := zeros 20 ++ le32 len ++ zeros 4 ++ le32 2 ++ zeros 48 in
  class_for vs S_1_26.a1_26_class /\ is_version vs (make_header vs) /\
  get_tstat zdecompress (mkHdr S_1_26.a1_26_class (make_header vs))
    (mkObj (hc_record S_1_26.a1_26_class) (record (zlen (zstore data)))) (plain (zstore data ++ [x55])) =
    (Ok [mkObj (hc_tstat S_1_26.a1_26_class) (le32 1 ++ zeros 612); mkObj (hc_tstat S_1_26.a1_26_class) (le32 2 ++ zeros 612)], plain [x55]) /\
  get_tstat zdecompress (mkHdr S_1_26.a1_26_class (make_header vs))
    (mkObj (hc_record S_1_26.a1_26_class) (record (zlen (zstore (ztake 616 data))))) (plain (zstore (ztake 616 data))) =
    (Raise (ValueError BufferTooSmall), plain []).
Proof.
  cbv zeta. split; [split; [left; reflexivity|split; [left; reflexivity|reflexivity]]|].
  split; [refine (proj1 (proj2 (proj2 (make_header_ok _ _)))); left; reflexivity|]. split; vm_compute; reflexivity.
Qed.

(** C20: samples with two cgroups each in the versions that have them, none in the others. *)
Example C20_example vs n strict : In vs spec_versions ->
  exists c hb f ys f', class_for vs c /\ is_version vs hb /\ zlen ys = Z.of_nat n /\
    run zdecompress (Some (mkHdr c hb)) strict (Z.of_nat n) f = (ys, Some None, f') /\
    Forall (fun y => zlen (s_cgroups y) = match vs_cstat vs with Some _ => 2 | None => 0 end) ys.
Proof.
  intros H. pose proof (example_log_wf vs n H) as Hw. pose proof (example_log_len vs n) as L.
  destruct (table_spec _ H) as (c & Hc). destruct (table_class _ _ Hc) as [_ Hcv].
  destruct (C09_log_round_trip zdecompress vs _ _ strict (Z.of_nat n) Hw ltac:(lia)) as (c' & ys & Hc' & F & R).
  rewrite C15_header_omitted in R. unfold log_bytes in R. rewrite (header_of_log vs c _ _ Hc (proj1 (proj2 Hw))) in R.
  exists c, (make_header vs), (plain (samples_bytes (example_log vs n))), ys, (plain []).
  split; [apply table_class_for, Hc|]. split; [apply Hw|]. split; [apply same_length in F; unfold zlen in *; lia|].
  split; [exact R|]. destruct (table_sizes _ _ (class_for_table _ _ Hc')) as (_ & _ & _ & _ & _ & S4).
  assert (Forall (fun s => zlen (ls_groups s) = match vs_cstat vs with Some _ => 2 | None => 0 end) (example_log vs n)) as G.
  { unfold example_log. apply Forall_forall. intros s Hs. apply in_map_iff in Hs as (i & <- & _). unfold example_sample, make_sample.
    cbn [ls_groups]. destruct (vs_cstat vs); reflexivity. }
  clear -F G S4. induction F as [|s y ss ys (_ & _ & _ & Hg) _ IH]; [constructor|]. inversion G as [|? ? G1 G2]; subst.
  constructor; [|auto]. destruct (vs_cstat vs).
  - destruct S4 as (ct & E & _). rewrite E in Hg. apply same_length in Hg. unfold zlen in *. lia.
  - rewrite S4 in Hg. rewrite Hg. reflexivity.
Qed.

(** C21: ten bytes of system statistics are not enough. *)
Example C21_example vs : In vs spec_versions ->
  exists c, class_for vs c /\ is_version vs (make_header vs) /\
    get_sstat zdecompress (mkHdr c (make_header vs))
      (mkObj (hc_record c) (zeros 16 ++ le32 (zlen (zstore (zeros 10))) ++ zeros (vs_rec vs - 20))) (plain (zstore (zeros 10))) =
    (Raise (ValueError BufferTooSmall), plain []).
Proof.
  intros H. pose proof (proj1 (proj2 (proj2 (make_header_ok vs H)))) as V. unfold spec_versions in H. cbn [In] in H.
  repeat (destruct H as [<- | H]; [eexists; split; [apply table_class_for; unfold table; cbn [combine spec_versions versions In]; eauto 20|
    split; [exact V|vm_compute; reflexivity]]|]).
  destruct H.
Qed.
