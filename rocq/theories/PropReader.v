(** * The command line: C36-C39, C43 *)
From Coq Require Import List ZArith Lia Bool String.
From Coq Require Import Init.Byte.
From Coq Require Import ZifyBool.
From Verif Require Import PyBase Utf8 CTypes S_shared S_1_26 Model Parsers Json Inflate Gzip Reader.
From Verif Require Import Spec SpecDict SpecLog SpecRows SpecReader SpecJson SpecGzip.
From Verif Require Import BaseProofs LayoutProofs RepProofs DictProofs TableProofs HeaderProofs GenProofs RunProofs SizedProofs
  InflateProofs LogBuild ParserProofs JsonProofs GzipProofs ReaderProofs.
From Verif Require Import GzipExact.
From Verif Require Import PropHeader PropLog PropStruct PropRows PropJson.
Import ListNotations.
Local Open Scope list_scope.
Local Open Scope Z_scope.

Section Reader.
Variable dec : list byte -> option (list byte).
Variable disk : list Z -> res (list byte).
Variable salvage : list byte -> list byte.
Variable fault : list byte -> exn.
Variable float_repr : Z -> list Z.
Let open := open_file disk salvage fault.
Let samples := samples_of_file dec.
Let parse := parse_file dec disk salvage fault float_repr.
Let loop := main_loop dec disk salvage fault float_repr.
Let printed pretty js := dumps float_repr pretty 0 (JList js).

(** ** Opening (C39) *)

Theorem C39_gzip_iff_gz_in_path path : uses_gzip path = true <-> gz_path path.
Proof. apply uses_gzip_spec. Qed.

Theorem C39_open path stored data : disk path = Ok stored -> delivers path stored data -> open path = Ok (plain data).
Proof.
  intros Hd H. unfold open, open_file. rewrite Hd. cbn [rbind].
  destruct H as [[Hg Hu]|[Hg ->]].
  - apply gunzip_exact in Hu. rewrite (proj2 (uses_gzip_spec path) Hg). unfold gzip_file. destruct stored as [|b r].
    + change (gunzip []) with (Some (@nil byte)) in Hu. injection Hu as <-. reflexivity.
    + destruct (gunzip_start _ _ Hu) as [E|(q & E)]; [discriminate E|]. rewrite E in *. 
      change (gz_magic (x1f :: x8b :: q)) with true. rewrite Hu. reflexivity.
  - destruct (uses_gzip path) eqn:E; [exfalso; apply Hg, uses_gzip_spec, E|]. reflexivity.
Qed.

(** ** What is printed, for every file, from what the iterator yields (C37, C38) *)

Lemma accepted_version h f f1 : get_header true f = (Ok h, f1) ->
  In (h_class h) versions /\ zlen (h_buf h) = 480 /\
  semantic_version h = Ok (dotted (major_of (h_buf h)) (minor_of (h_buf h))).
Proof.
  intros H. destruct (get_header_class _ _ _ _ H) as [Hc L]. split; [exact Hc|]. split; [exact L|].
  destruct (class_table _ Hc) as (vs & Ht). destruct h as [c b]. apply (semantic_version_spec vs c Ht).
Qed.

Lemma header_chosen check f h f' : get_header check f = (Ok h, f') -> chosen (h_buf h) (h_class h).
Proof.
  intros H. unfold get_header in H. apply mbind_inv in H as (b & f1 & H1 & H). unfold mlift in H. injection H as H _.
  apply freadinto_sized in H1; [|vm_compute; discriminate].
  change (sizeof (hc_header default_class)) with 480 in H1.
  destruct (Z.eq_dec (magic_of b) magic_number) as [M|M].
  2:{ rewrite get_header_bad_magic in H by exact M. discriminate H. }
  destruct (chosen_exists b) as (c & Ch). rewrite (get_header_good_magic b check c H1 M Ch) in H.
  destruct check; [|injection H as <-; exact Ch].
  destruct (check_compatibility (mkHdr c b)) as [[]|x] eqn:E; cbn [rbind] in H; [|discriminate H]. injection H as <-. exact Ch.
Qed.

Lemma map_lookup a b : 0 <= a < 256 -> 0 <= b < 256 ->
  assoc (dotted a b) PARSEABLE_MAP = if (a =? 1) && (b =? 26) then Some parsers_1_26 else None.
Proof.
  intros Ha Hb. unfold PARSEABLE_MAP. cbn [assoc].
  destruct (String.eqb_spec (dotted a b) "1.26") as [E|N].
  - change "1.26"%string with (dotted 1 26) in E. apply dotted_inj in E; [|lia..]. destruct E as [-> ->]. reflexivity.
  - destruct (Z.eqb_spec a 1) as [->|]; [|reflexivity]. destruct (Z.eqb_spec b 26) as [->|]; [|reflexivity].
    exfalso. apply N. reflexivity.
Qed.

(** [ss] are contents of the yielded [ys]. *)
Definition contents (c : hclass) (ss : list lsample) (ys : list sample) : Prop :=
  Forall2 (holds_sample c) ss ys /\ Forall (images_ok c) ss.

Lemma raw_contents h strict ms f ys e f' : In (h_class h) versions -> run dec (Some h) strict ms f = (ys, e, f') ->
  contents (h_class h) (map raw_sample ys) ys.
Proof.
  intros Hc R. pose proof (run_sized dec h strict ms f ys _ f' Hc R) as Sz. split.
  - clear -Sz. induction Sz as [|y ys Hy _ IH]; cbn [map]; constructor; [apply raw_holds, Hy|exact IH].
  - rewrite Forall_map. eapply Forall_impl; [|exact Sz]. intros y Hy. apply raw_holds, Hy.
Qed.

Lemma samples_full path st sc f h f1 ys e f2 ss :
  get_header true f = (Ok h, f1) -> run dec (Some h) false 86400 f1 = (ys, Some e, f2) -> contents (h_class h) ss ys ->
  exists js, Forall2 (full_entry (h_class h) (h_buf h) st sc) ss js /\ Forall serialisable js /\
    fst (samples path [] st sc f) = ended js e.
Proof.
  intros Hh R [C1 C2]. destruct (accepted_version _ _ _ Hh) as (Hc & Lh & Sv).
  destruct (full_rows_ok (h_class h) (h_buf h) st sc ss ys Hc Lh C2 C1) as (js & J1 & J2 & J3).
  exists js. split; [exact J1|]. split; [exact J2|].
  unfold samples, samples_of_file. rewrite Hh, Sv.
  assert (forall parsers, fst (collect dec (sample_entries parsers [] st sc h) (S (Z.to_nat MAX_SAMPLES_PER_FILE))
            (generate_statistics (Some h) false MAX_SAMPLES_PER_FILE) f1) = ended js e) as K.
  { intros parsers. rewrite (collect_run dec _ h f1 ys e f2 R). unfold outcome.
    change (sample_entries parsers [] st sc h) with (fun y => let? j := full_sample st sc h y in Ok [j]).
    destruct h as [c hb]. cbn [h_class h_buf] in J3. rewrite J3.
    destruct e as [x|]; [reflexivity|]. cbn [ended]. f_equal. clear. induction js as [|j js IH]; [reflexivity|].
    cbn [map List.concat app]. rewrite IH. reflexivity. }
  destruct (assoc _ PARSEABLE_MAP); apply K.
Qed.

Lemma printed_total pretty js : Forall serialisable js -> exists t, printed pretty js = Some t.
Proof. intros H. apply dumps_total. apply serialisable_list, H. Qed.

Lemma parse_full path pretty st sc f h f1 ys e f2 ss :
  open path = Ok f -> get_header true f = (Ok h, f1) -> run dec (Some h) false 86400 f1 = (ys, Some e, f2) ->
  contents (h_class h) ss ys ->
  match e with
  | Some x => parse path [] pretty st sc = Raise x
  | None => exists js t, Forall2 (full_entry (h_class h) (h_buf h) st sc) ss js /\
              printed pretty js = Some t /\ parse path [] pretty st sc = Ok t
  end.
Proof.
  intros Ho Hh R C. destruct (samples_full path st sc f h f1 ys e f2 ss Hh R C) as (js & J1 & J2 & J3).
  unfold parse, parse_file. fold open. rewrite Ho. cbn [rbind]. fold samples. rewrite J3.
  destruct e as [x|]; [reflexivity|]. cbn [ended rbind].
  destruct (printed_total pretty js J2) as (t & Et). exists js, t. split; [exact J1|]. split; [exact Et|].
  unfold printed in Et. rewrite Et. reflexivity.
Qed.

(** Without parseables: one entry per yielded sample, in order; an exception of the iterator
    comes out of parse_file and nothing is printed. *)
Theorem C37_full_output_any_file path pretty st sc f h f1 ys e f2 :
  open path = Ok f -> get_header true f = (Ok h, f1) -> run dec (Some h) false 86400 f1 = (ys, Some e, f2) ->
  match e with
  | Some x => parse path [] pretty st sc = Raise x
  | None => exists js t, Forall2 (full_entry (h_class h) (h_buf h) st sc) (map raw_sample ys) js /\
              printed pretty js = Some t /\ parse path [] pretty st sc = Ok t
  end.
Proof.
  intros Ho Hh R. eapply parse_full; try eassumption.
  eapply raw_contents; [|exact R]. apply (accepted_version _ _ _ Hh).
Qed.

(** What [samples_of_file] does with parseables on a 1.26 log. *)
Lemma class_1_26 check f h f1 : get_header check f = (Ok h, f1) -> major_of (h_buf h) = 1 -> minor_of (h_buf h) = 26 ->
  h_class h = a1_26_class.
Proof.
  intros Hh M1 M2. destruct (get_header_class _ _ _ _ Hh) as [Hc _].
  assert (hc_version (h_class h) = "1.26"%string) as Hs.
  { destruct (header_chosen _ _ _ _ Hh) as [(ws & Hw & Hwv)|(N & _)].
    - destruct (table_class _ _ Hw) as (Hws & _). destruct (table_sizes _ _ Hw) as (E & _). rewrite E.
      rewrite <- (is_version_unique (mkVS "1.26" 1 26 80 88368 616 None) ws (h_buf h)); [reflexivity|left; reflexivity|exact Hws|split; assumption|exact Hwv].
    - exfalso. apply (N (mkVS "1.26" 1 26 80 88368 616 None)); [left; reflexivity|split; assumption]. }
  clear -Hs Hc. unfold versions in Hc. cbn [In] in Hc.
  repeat (destruct Hc as [Hc | Hc]; [rewrite <- Hc in *; try reflexivity; discriminate Hs|]). destruct Hc.
Qed.

Lemma samples_parseable path p ps st sc f h f1 ys e f2 ss :
  Forall (fun p => In p parseable_names) (p :: ps) ->
  get_header true f = (Ok h, f1) -> major_of (h_buf h) = 1 -> minor_of (h_buf h) = 26 ->
  run dec (Some h) false 86400 f1 = (ys, Some e, f2) -> contents (h_class h) ss ys ->
  exists rows e', log_rows (h_buf h) (p :: ps) ss rows e' /\ Forall serialisable rows /\
    fst (samples path (p :: ps) st sc f) = match e' with Some x => Raise x | None => ended rows e end.
Proof.
  intros Hp Hh M1 M2 R [C1 C2]. destruct (accepted_version _ _ _ Hh) as (Hc & Lh & Sv).
  pose proof (class_1_26 _ _ _ _ Hh M1 M2) as Ec. rewrite Ec in C1, C2.
  destruct (log_rows_ok (h_buf h) (p :: ps) ss ys Hp) as (rows & e' & L1 & L2 & L3); [|exact C1|].
  { eapply Forall_impl; [|exact C2]. intros y (_ & I2 & I3 & _). split; assumption. }
  exists rows, e'. split; [exact L1|]. split; [exact L2|].
  unfold samples, samples_of_file. rewrite Hh, Sv, M1, M2.
  change (assoc (dotted 1 26) PARSEABLE_MAP) with (Some parsers_1_26). cbn iota beta.
  rewrite (collect_run dec _ h f1 ys e f2 R). unfold outcome in *.
  change (sample_entries parsers_1_26 (p :: ps) st sc h) with (parseable_rows parsers_1_26 (p :: ps) h).
  destruct h as [c hb]. cbn [h_class h_buf] in *. subst c. change (mkHdr a1_26_class hb) with (h126 hb).
  destruct (rmap _ ys) as [l|x]; destruct e' as [y|]; cbn [ended] in L3; try discriminate L3; try congruence.
  injection L3 as ->. destruct e; reflexivity.
Qed.

Lemma parse_parseable path pretty p ps st sc f h f1 ys e f2 ss :
  Forall (fun p => In p parseable_names) (p :: ps) ->
  open path = Ok f -> get_header true f = (Ok h, f1) -> major_of (h_buf h) = 1 -> minor_of (h_buf h) = 26 ->
  run dec (Some h) false 86400 f1 = (ys, Some e, f2) -> contents (h_class h) ss ys ->
  exists rows e', log_rows (h_buf h) (p :: ps) ss rows e' /\
    match e', e with
    | Some x, _ => parse path (p :: ps) pretty st sc = Raise x
    | None, Some x => parse path (p :: ps) pretty st sc = Raise x
    | None, None => exists t, printed pretty rows = Some t /\ parse path (p :: ps) pretty st sc = Ok t
    end.
Proof.
  intros Hp Ho Hh M1 M2 R C.
  destruct (samples_parseable path p ps st sc f h f1 ys e f2 ss Hp Hh M1 M2 R C) as (rows & e' & L1 & L2 & L3).
  exists rows, e'. split; [exact L1|].
  unfold parse, parse_file. fold open. rewrite Ho. cbn [rbind]. fold samples. rewrite L3.
  destruct e' as [x|]; [reflexivity|]. destruct e as [x|]; [reflexivity|]. cbn [ended rbind].
  destruct (printed_total pretty rows L2) as (t & Et). exists t. split; [exact Et|]. unfold printed in Et. rewrite Et. reflexivity.
Qed.

(** With parseables on a 1.26 file: the rows of each yielded sample, in order. *)
Theorem C37_parseable_output_any_file path pretty p ps st sc f h f1 ys e f2 :
  Forall (fun p => In p parseable_names) (p :: ps) ->
  open path = Ok f -> get_header true f = (Ok h, f1) -> major_of (h_buf h) = 1 -> minor_of (h_buf h) = 26 ->
  run dec (Some h) false 86400 f1 = (ys, Some e, f2) ->
  exists rows e', log_rows (h_buf h) (p :: ps) (map raw_sample ys) rows e' /\
    match e', e with
    | Some x, _ => parse path (p :: ps) pretty st sc = Raise x
    | None, Some x => parse path (p :: ps) pretty st sc = Raise x
    | None, None => exists t, printed pretty rows = Some t /\ parse path (p :: ps) pretty st sc = Ok t
    end.
Proof.
  intros Hp Ho Hh M1 M2 R. eapply parse_parseable; try eassumption.
  eapply raw_contents; [|exact R]. apply (accepted_version _ _ _ Hh).
Qed.

(** The specification fixes the entries. *)
Theorem C37_entries_determined c hb st sc ss js js' : In c versions ->
  Forall2 (full_entry c hb st sc) ss js -> Forall2 (full_entry c hb st sc) ss js' -> js = js'.
Proof.
  intros Hc H. revert js'. induction H as [|s j ss js Hj _ IH]; intros js' H'; inversion H'; subst; [reflexivity|].
  f_equal; [eapply full_entry_fun; eassumption|apply IH; assumption].
Qed.
Theorem C37_rows_determined hb ps ss rows rows' e e' :
  log_rows hb ps ss rows e -> log_rows hb ps ss rows' e' -> rows = rows' /\ e = e'.
Proof. apply log_rows_fun. Qed.

(** ** C36 *)

Theorem C36_unsupported_parseables path p ps pretty st sc f h f1 :
  open path = Ok f -> get_header true f = (Ok h, f1) ->
  ~ (major_of (h_buf h) = 1 /\ minor_of (h_buf h) = 26) ->
  let error := JDict [("error"%string, str ("Atop version " ++ dotted (major_of (h_buf h)) (minor_of (h_buf h)) ++
                                            " does not support parseables, only full raw output."));
                      ("file"%string, JStr path)] in
  samples path (p :: ps) st sc f = (Ok [error], f1) /\
  exists t, printed pretty [error] = Some t /\ parse path (p :: ps) pretty st sc = Ok t.
Proof.
  intros Ho Hh Hv error. destruct (accepted_version _ _ _ Hh) as (Hc & Lh & Sv).
  assert (samples path (p :: ps) st sc f = (Ok [error], f1)) as E.
  { unfold samples, samples_of_file. rewrite Hh, Sv.
    rewrite map_lookup by (pose proof (major_range (h_buf h)); pose proof (minor_range (h_buf h)); lia).
    replace ((major_of (h_buf h) =? 1) && (minor_of (h_buf h) =? 26)) with false by lia.
    rewrite text_codes. reflexivity. }
  split; [exact E|].
  assert (exists t, printed pretty [error] = Some t) as (t & Et) by (unfold printed, error; cbn [dumps]; eexists; reflexivity).
  exists t. split; [exact Et|]. unfold parse, parse_file. fold open. rewrite Ho. cbn [rbind]. fold samples.
  rewrite E. cbn [fst rbind]. unfold printed in Et. rewrite Et. reflexivity.
Qed.

(** ** Well-formed logs, complete or cut: C37, C38 *)

Definition at_most_default (ss : list lsample) : list lsample := firstn (Z.to_nat 86400) ss.

Lemma wf_contents vs c ss : In (vs, c) table -> Forall (wf_sample dec vs) ss -> contents c ss (map (view c) ss).
Proof.
  intros Hc Hw. split; [eapply views_hold; eassumption|]. eapply Forall_impl; [|exact Hw].
  intros s Hs. eapply wf_images; eassumption.
Qed.

Lemma firstn_wf {A} (P : A -> Prop) n l : Forall P l -> Forall P (firstn n l).
Proof. intros H. revert n. induction H; intros [|n]; cbn [firstn]; constructor; auto. Qed.

Lemma default_run vs c hb p ss tail : In (vs, c) table -> wf_log dec vs hb ss ->
  log_bytes hb ss = p ++ tail -> header_size <= zlen p ->
  exists f1 f2, get_header true (plain p) = (Ok (mkHdr c hb), f1) /\
    run dec (Some (mkHdr c hb)) false 86400 f1 =
      (map (view c) (at_most_default (complete (zlen p - header_size) ss)), Some None, f2).
Proof.
  intros Hc Hw E Hp.
  destruct (cut_log dec vs c hb ss false (Z.max (zlen ss) 86400) p tail Hc Hw ltac:(lia) E Hp) as (tl & Ep & R & _).
  pose proof Hw as (Hvs & Ha & Hws).
  assert (get_header true (plain p) = (Ok (mkHdr c hb), plain (samples_bytes (complete (zlen p - header_size) ss) ++ tl))) as G.
  { rewrite Ep at 1. apply (header_of_log vs c hb _ Hc Ha). }
  rewrite run_none, G in R. cbn [andb] in R.
  destruct (C13_bound_exact dec (mkHdr c hb) false 86400 (Z.max (zlen ss) 86400) _ _ _ _ (proj2 (table_class _ _ Hc)) ltac:(lia) R)
    as (f2 & R2 & _).
  eexists; exists f2. split; [exact G|]. rewrite R2. unfold at_most_default. rewrite firstn_map.
  destruct (_ <=? _); reflexivity.
Qed.

Theorem C38_truncated_full path stored vs hb ss p q pretty st sc :
  disk path = Ok stored -> delivers path stored p ->
  wf_log dec vs hb ss -> log_bytes hb ss = p ++ q -> header_size <= zlen p ->
  exists c js t, class_for vs c /\
    Forall2 (full_entry c hb st sc) (at_most_default (complete (zlen p - header_size) ss)) js /\
    printed pretty js = Some t /\ parse path [] pretty st sc = Ok t.
Proof.
  intros Hd Hdel Hw E Hp. pose proof Hw as (Hvs & Ha & Hws). destruct (table_spec _ Hvs) as (c & Hc). exists c.
  destruct (default_run vs c hb p ss q Hc Hw E Hp) as (f1 & f2 & G & R).
  pose proof (parse_full path pretty st sc _ _ _ _ _ _ _ (C39_open _ _ _ Hd Hdel) G R
    (wf_contents vs c _ Hc (firstn_wf _ _ _ (complete_wf _ _ _ _ Hws)))) as (js & t & J1 & J2 & J3).
  exists js, t. split; [apply table_class_for, Hc|]. auto.
Qed.

Theorem C38_truncated_parseable path stored vs hb ss p q pretty st sc k ps :
  disk path = Ok stored -> delivers path stored p ->
  wf_log dec vs hb ss -> vs_name vs = "1.26"%string -> log_bytes hb ss = p ++ q -> header_size <= zlen p ->
  Forall (fun k => In k parseable_names) (k :: ps) ->
  exists rows e, log_rows hb (k :: ps) (at_most_default (complete (zlen p - header_size) ss)) rows e /\
    match e with
    | Some x => parse path (k :: ps) pretty st sc = Raise x
    | None => exists t, printed pretty rows = Some t /\ parse path (k :: ps) pretty st sc = Ok t
    end.
Proof.
  intros Hd Hdel Hw Hn E Hp Hk. pose proof Hw as (Hvs & Ha & Hws). destruct (table_spec _ Hvs) as (c & Hc).
  destruct (default_run vs c hb p ss q Hc Hw E Hp) as (f1 & f2 & G & R).
  assert (major_of hb = 1 /\ minor_of hb = 26) as [M1 M2].
  { destruct Ha as (_ & _ & [-> ->] & _). clear -Hvs Hn. cbn [spec_versions In] in Hvs.
    repeat (destruct Hvs as [<- | Hvs]; [try discriminate Hn; auto|]). destruct Hvs. }
  destruct (parse_parseable path pretty k ps st sc _ _ _ _ _ _ _ Hk (C39_open _ _ _ Hd Hdel) G M1 M2 R
    (wf_contents vs c _ Hc (firstn_wf _ _ _ (complete_wf _ _ _ _ Hws)))) as (rows & e & L1 & L2).
  exists rows, e. split; [exact L1|exact L2].
Qed.

Lemma complete_all ss : complete (zlen (samples_bytes ss)) ss = ss.
Proof.
  induction ss as [|s ss IH]; [reflexivity|]. rewrite samples_bytes_cons, zlen_app. cbn [complete].
  pose proof (zlen_nonneg (samples_bytes ss)). replace (zlen (sample_bytes s) <=? _) with true by lia.
  replace (_ + _ - _) with (zlen (samples_bytes ss)) by lia. rewrite IH. reflexivity.
Qed.

Theorem C37_full_output path stored vs hb ss pretty st sc :
  disk path = Ok stored -> delivers path stored (log_bytes hb ss) -> wf_log dec vs hb ss ->
  exists c js t, class_for vs c /\ Forall2 (full_entry c hb st sc) (at_most_default ss) js /\
    printed pretty js = Some t /\ parse path [] pretty st sc = Ok t.
Proof.
  intros Hd Hdel Hw. assert (zlen hb = header_size) as Lh by apply Hw.
  assert (zlen (log_bytes hb ss) - header_size = zlen (samples_bytes ss)) as L by (unfold log_bytes; rewrite zlen_app; lia).
  pose proof (C38_truncated_full path stored vs hb ss (log_bytes hb ss) [] pretty st sc Hd Hdel Hw
    ltac:(rewrite app_nil_r; reflexivity) ltac:(pose proof (zlen_nonneg (samples_bytes ss)); lia)) as H.
  rewrite L, complete_all in H. exact H.
Qed.

Theorem C37_parseable_output path stored vs hb ss pretty st sc k ps :
  disk path = Ok stored -> delivers path stored (log_bytes hb ss) -> wf_log dec vs hb ss -> vs_name vs = "1.26"%string ->
  Forall (fun k => In k parseable_names) (k :: ps) ->
  exists rows e, log_rows hb (k :: ps) (at_most_default ss) rows e /\
    match e with
    | Some x => parse path (k :: ps) pretty st sc = Raise x
    | None => exists t, printed pretty rows = Some t /\ parse path (k :: ps) pretty st sc = Ok t
    end.
Proof.
  intros Hd Hdel Hw Hn Hk. assert (zlen hb = header_size) as Lh by apply Hw.
  assert (zlen (log_bytes hb ss) - header_size = zlen (samples_bytes ss)) as L by (unfold log_bytes; rewrite zlen_app; lia).
  pose proof (C38_truncated_parseable path stored vs hb ss (log_bytes hb ss) [] pretty st sc k ps Hd Hdel Hw Hn
    ltac:(rewrite app_nil_r; reflexivity) ltac:(pose proof (zlen_nonneg (samples_bytes ss)); lia) Hk) as H.
  rewrite L, complete_all in H. exact H.
Qed.

(** ** C38: everything else prints nothing *)

Theorem C38_open_and_header_errors path ps pretty st sc :
  (forall e, disk path = Raise e -> parse path ps pretty st sc = Raise e) /\
  (forall f e f1, open path = Ok f -> get_header true f = (Raise e, f1) -> parse path ps pretty st sc = Raise e).
Proof.
  split.
  - intros e E. unfold parse, parse_file, open_file. rewrite E. reflexivity.
  - intros f e f1 Ho Hh. unfold parse, parse_file. fold open. rewrite Ho. cbn [rbind]. unfold samples_of_file. rewrite Hh. reflexivity.
Qed.

(** A readable file without parseables fails in no other way than with ValueError or (headers
    of C06) AttributeError. *)
Theorem C38_exceptions path stored data pretty st sc e :
  disk path = Ok stored -> delivers path stored data -> parse path [] pretty st sc = Raise e ->
  (exists v, e = ValueError v) \/ e = AttributeError "pstatlen".
Proof.
  intros Hd Hdel H. pose proof (C39_open _ _ _ Hd Hdel) as Ho.
  destruct (get_header true (plain data)) as [[h|x] f1] eqn:Hh.
  - destruct (run_ends dec (Some h) false 86400 f1) as (ys & x & f2 & R).
    pose proof (C37_full_output_any_file path pretty st sc _ _ _ _ _ _ Ho Hh R) as K. destruct x as [x|].
    + rewrite K in H. injection H as <-.
      destruct (C44_iteration_exceptions dec h _ _ false 86400 f1 ys x f2 Hh R) as [[->|[V|F]] Z].
      * specialize (Z eq_refl). discriminate Z.
      * left. exact V.
      * exfalso. destruct (C08_header_consumption _ _ _ _ Hh) as (used & _ & _ & F2). rewrite F2 in F. discriminate F.
    + destruct K as (js & t & _ & _ & K). rewrite K in H. discriminate H.
  - rewrite (proj2 (C38_open_and_header_errors path [] pretty st sc) _ _ _ Ho Hh) in H. injection H as <-.
    destruct (C06_exact_exceptions data x) as [V|(V & _)]; [rewrite Hh; reflexivity|left; exact V|right; exact V].
Qed.

(** With parseables there is one more: text that is not UTF-8. *)
Lemma rows_spec_exn {A} stop ok bad (l : list A) rows e :
  @rows_spec A stop ok bad l (rows, Some e) -> e = UnicodeDecodeError.
Proof.
  remember (rows, Some e) as o eqn:E. intros H. revert rows e E.
  induction H as [|x l Hs|x l Hb|x v l vs e0 Ho H IH]; intros rows e E; injection E as E1 E2; try discriminate E2.
  - congruence.
  - eapply IH. rewrite E2. reflexivity.
Qed.
Lemma rows_of_exn h r s ts p rows e : rows_of h r s ts p (rows, Some e) -> e = UnicodeDecodeError.
Proof. intros H. inversion H; subst; eapply rows_spec_exn; eassumption. Qed.
Lemma sample_rows_exn h s ps rows x : sample_rows h s ps rows (Some x) -> x = UnicodeDecodeError.
Proof.
  remember (Some x) as o eqn:E. induction 1 as [|p ps rows more e Hr H IH|p ps rows e Hr]; [discriminate E|auto|].
  injection E as ->. eapply rows_of_exn. exact Hr.
Qed.
Lemma log_rows_exn h ps ss rows x : log_rows h ps ss rows (Some x) -> x = UnicodeDecodeError.
Proof.
  remember (Some x) as o eqn:E. induction 1 as [|s ss rows more e Hr H IH|s ss rows e Hr]; [discriminate E|auto|].
  injection E as ->. eapply sample_rows_exn. exact Hr.
Qed.

Theorem C38_parseable_exceptions path stored data pretty st sc ps e :
  Forall (fun p => In p parseable_names) ps ->
  disk path = Ok stored -> delivers path stored data -> parse path ps pretty st sc = Raise e ->
  (exists v, e = ValueError v) \/ e = AttributeError "pstatlen" \/
  (e = UnicodeDecodeError /\ ps <> [] /\ major_of data = 1 /\ minor_of data = 26).
Proof.
  intros Hps Hd Hdel H. destruct ps as [|p ps].
  { destruct (C38_exceptions _ _ _ _ _ _ _ Hd Hdel H) as [V|V]; auto. }
  pose proof (C39_open _ _ _ Hd Hdel) as Ho.
  destruct (get_header true (plain data)) as [[h|x] f1] eqn:Hh.
  - assert (aversion_of (h_buf h) = aversion_of data) as Ea.
    { destruct (C04_class_choice _ _ _ _ Hh) as (_ & _ & _ & ->).
      change (ztake 480 data ++ zeros (480 - zlen data)) with (padded data). apply aversion_padded. }
    assert (D : {major_of (h_buf h) = 1 /\ minor_of (h_buf h) = 26} + {~ (major_of (h_buf h) = 1 /\ minor_of (h_buf h) = 26)}).
    { destruct (Z.eq_dec (major_of (h_buf h)) 1), (Z.eq_dec (minor_of (h_buf h)) 26); [left; auto|right|right|right]; tauto. }
    destruct D as [[M1 M2]|N].
    + destruct (run_ends dec (Some h) false 86400 f1) as (ys & x & f2 & R).
      destruct (C37_parseable_output_any_file path pretty p ps st sc _ _ _ _ _ _ Hps Ho Hh M1 M2 R) as (rows & e' & L & K).
      destruct e' as [y|].
      * rewrite K in H. injection H as <-. right. right.
        split; [eapply log_rows_exn; exact L|]. split; [discriminate|].
        unfold major_of, minor_of in *. rewrite <- Ea. auto.
      * destruct x as [x|].
        -- rewrite K in H. injection H as <-.
           destruct (C44_iteration_exceptions dec h _ _ false 86400 f1 ys x f2 Hh R) as [[->|[V|F]] Z].
           ++ specialize (Z eq_refl). discriminate Z.
           ++ left. exact V.
           ++ exfalso. destruct (C08_header_consumption _ _ _ _ Hh) as (used & _ & _ & F2). rewrite F2 in F. discriminate F.
        -- destruct K as (t & _ & K). rewrite K in H. discriminate H.
    + destruct (C36_unsupported_parseables path p ps pretty st sc _ _ _ Ho Hh N) as (_ & t & _ & K).
      rewrite K in H. discriminate H.
  - rewrite (proj2 (C38_open_and_header_errors path (p :: ps) pretty st sc) _ _ _ Ho Hh) in H. injection H as <-.
    destruct (C06_exact_exceptions data x) as [V|(V & _)]; [rewrite Hh; reflexivity|left; exact V|right; left; exact V].
Qed.

(** ** C47: names that are not parseables (only possible through the API) *)

Lemma unknown_parser k : ~ In k parseable_names -> assoc k parsers_1_26 = None.
Proof.
  intros N. change parsers_1_26 with
    [("cpu"%string, parse_cpu); ("CPL"%string, parse_CPL); ("CPU"%string, parse_CPU); ("DSK"%string, parse_DSK);
     ("LVM"%string, parse_LVM); ("MDD"%string, parse_MDD); ("MEM"%string, parse_MEM); ("NETL"%string, parse_NETL);
     ("NETU"%string, parse_NETU); ("PAG"%string, parse_PAG); ("PRC"%string, parse_PRC);
     ("PRG"%string, parse_PRG); ("PRM"%string, parse_PRM); ("PRN"%string, parse_PRN); ("SWP"%string, parse_SWP)].
  cbn [parseable_names In] in N. cbn [assoc].
  repeat match goal with |- context [String.eqb k ?x] => destruct (String.eqb_spec k x) as [->|_]; [exfalso; tauto|] end.
  reflexivity.
Qed.

Lemma parseable_rows_unknown ps k more h y : ~ In k parseable_names ->
  parseable_rows parsers_1_26 (ps ++ k :: more) h y =
  match parseable_rows parsers_1_26 ps h y with Ok _ => Raise (KeyError k) | Raise x => Raise x end.
Proof.
  intros N. induction ps as [|p ps IH]; cbn [app parseable_rows].
  - rewrite (unknown_parser k N). reflexivity.
  - destruct (assoc p parsers_1_26) as [f|]; [|reflexivity].
    destruct (f h _ _ _) as [rows [x|]]; [reflexivity|]. rewrite IH.
    destruct (parseable_rows parsers_1_26 ps h y); reflexivity.
Qed.

(** The first sample runs the names before the unknown one; then KeyError. *)
Theorem C47_unknown_parseable path pretty ps k more st sc f h f1 y ys e f2 :
  Forall (fun p => In p parseable_names) ps -> ~ In k parseable_names ->
  open path = Ok f -> get_header true f = (Ok h, f1) -> major_of (h_buf h) = 1 -> minor_of (h_buf h) = 26 ->
  run dec (Some h) false 86400 f1 = (y :: ys, e, f2) ->
  exists rows e', sample_rows (h_buf h) (raw_sample y) ps rows e' /\
    parse path (ps ++ k :: more) pretty st sc = Raise (match e' with Some x => x | None => KeyError k end).
Proof.
  intros Hp Nk Ho Hh M1 M2 R. destruct (accepted_version _ _ _ Hh) as (Hc & Lh & Sv).
  destruct (raw_contents _ _ _ _ _ _ _ Hc R) as [C1 C2]. rewrite (class_1_26 _ _ _ _ Hh M1 M2) in C1, C2.
  cbn [map] in C1, C2. inversion C1 as [|? ? ? ? C1' _]; subst. inversion C2 as [|? ? (_ & I2 & I3 & _) _]; subst.
  destruct (parseable_rows_ok (h_buf h) (raw_sample y) y ps Hp I2 I3 C1') as (rows & e' & L1 & _ & L3).
  exists rows, e'. split; [exact L1|].
  destruct (run_ends dec (Some h) false 86400 f1) as (ys0 & x & f3 & R'). rewrite R in R'. injection R' as <- -> <-.
  assert (S1 : fst (samples path (ps ++ k :: more) st sc f) =
               Raise (match e' with Some x => x | None => KeyError k end)).
  { unfold samples, samples_of_file. rewrite Hh, Sv, M1, M2.
    change (assoc (dotted 1 26) PARSEABLE_MAP) with (Some parsers_1_26).
    assert (Hd : exists q qs, ps ++ k :: more = q :: qs) by (destruct ps; do 2 eexists; reflexivity). destruct Hd as (q & qs & Hd).
    rewrite Hd. cbn iota beta.
    rewrite (collect_run dec _ h f1 _ _ f2 R). unfold outcome.
    pose proof (class_1_26 _ _ _ _ Hh M1 M2) as Ec. destruct h as [c hb]. cbn [h_class h_buf] in *. subst c.
    cbn [rmap sample_entries]. rewrite <- Hd, (parseable_rows_unknown ps k more _ y Nk).
    change (mkHdr a1_26_class hb) with (h126 hb). rewrite L3. destruct e' as [z|]; reflexivity. }
  unfold parse, parse_file. fold open. rewrite Ho. cbn [rbind]. fold samples. rewrite S1. reflexivity.
Qed.

(** Without a sample the names are never looked at. *)
Theorem C47_no_samples path pretty ps st sc f h f1 f2 :
  open path = Ok f -> get_header true f = (Ok h, f1) ->
  ps = [] \/ major_of (h_buf h) = 1 /\ minor_of (h_buf h) = 26 ->
  run dec (Some h) false 86400 f1 = ([], Some None, f2) ->
  parse path ps pretty st sc = Ok (text "[]").
Proof.
  intros Ho Hh Hp R. destruct (accepted_version _ _ _ Hh) as (Hc & Lh & Sv).
  assert (S1 : fst (samples path ps st sc f) = Ok []).
  { unfold samples, samples_of_file. rewrite Hh, Sv. destruct Hp as [->|[M1 M2]].
    - destruct (assoc _ PARSEABLE_MAP); rewrite (collect_run dec _ h f1 _ _ f2 R); reflexivity.
    - rewrite M1, M2. change (assoc (dotted 1 26) PARSEABLE_MAP) with (Some parsers_1_26).
      destruct ps; rewrite (collect_run dec _ h f1 _ _ f2 R); reflexivity. }
  unfold parse, parse_file. fold open. rewrite Ho. cbn [rbind]. fold samples. rewrite S1. cbn [rbind].
  destruct pretty; reflexivity.
Qed.

(** A damaged gzip file that delivers the beginning [p] of a log and then fails with [fault]:
    the exception comes out and nothing is printed, even if complete samples were delivered -
    unless it is zlib.error, which is treated as truncation once the header has been read. *)
Theorem C38_damaged_gzip path stored vs hb ss q pretty st sc :
  disk path = Ok stored -> gz_path path -> (exists r, stored = x1f :: x8b :: r) -> (forall data, ~ gzip_data stored data) ->
  wf_log dec vs hb ss -> zlen ss < 86400 -> log_bytes hb ss = salvage stored ++ q ->
  (zlen (salvage stored) < header_size -> parse path [] pretty st sc = Raise (fault stored)) /\
  (header_size <= zlen (salvage stored) -> fault stored <> ZlibError -> parse path [] pretty st sc = Raise (fault stored)) /\
  (header_size <= zlen (salvage stored) -> fault stored = ZlibError ->
     exists c js t, class_for vs c /\
       Forall2 (full_entry c hb st sc) (complete (zlen (salvage stored) - header_size) ss) js /\
       printed pretty js = Some t /\ parse path [] pretty st sc = Ok t).
Proof.
  intros Hd Hg (r & Er) Hn Hw Lss E.
  assert (gunzip stored = None) as Hu.
  { destruct (gunzip stored) as [x|] eqn:U; [|reflexivity]. apply gunzip_exact in U. destruct (Hn _ U). }
  pose proof Hw as (Hvs & Ha & Hws). pose proof Ha as (Lh & _ & Hv & Hsz).
  assert (open path = Ok (mkFile (salvage stored) (Some (fault stored)))) as Ho.
  { unfold open, open_file. rewrite Hd. cbn [rbind]. rewrite (proj2 (uses_gzip_spec path) Hg). rewrite Er in *.
    unfold gzip_file. change (gz_magic (x1f :: x8b :: r)) with true. rewrite Hu. reflexivity. }
  split.
  - intros L. assert (get_header true (mkFile (salvage stored) (Some (fault stored))) =
      (Raise (fault stored), mkFile [] (Some (fault stored)))) as G.
    { rewrite C06_io_errors_pass. unfold header_size in L. replace (480 <=? _) with false by lia. reflexivity. }
    exact (proj2 (C38_open_and_header_errors path [] pretty st sc) _ _ _ Ho G).
  - destruct (table_spec _ Hvs) as (c & Hc).
    assert (header_size <= zlen (salvage stored) -> exists p2, samples_bytes ss = p2 ++ q /\
      zlen (salvage stored) - header_size = zlen p2 /\
      get_header true (mkFile (salvage stored) (Some (fault stored))) = (Ok (mkHdr c hb), mkFile p2 (Some (fault stored))) /\
      run dec (Some (mkHdr c hb)) false 86400 (mkFile p2 (Some (fault stored))) =
        (map (view c) (complete (zlen p2) ss), Some (exn_end false (fault stored)), mkFile [] (Some (fault stored)))) as K.
    { intros L. unfold log_bytes in E. destruct (prefix_cases hb (samples_bytes ss) _ q E) as [(K & _)|(p2 & Ep & E2)]; [lia|].
      exists p2. split; [exact E2|]. split; [rewrite Ep, zlen_app; lia|]. split.
      - rewrite C06_io_errors_pass. replace (480 <=? _) with true by (unfold header_size in L; lia).
        rewrite Ep, zdrop_exact by (exact Lh). rewrite (header_of_log vs c hb p2 Hc Ha). reflexivity.
      - rewrite run_some, (gate_spec vs c hb Hc Hv). apply (D_fault dec vs c hb Hc Hv Hsz false ss p2 q 86400); assumption. }
    split.
    + intros L Nz. destruct (K L) as (p2 & _ & _ & G & R).
      pose proof (C37_full_output_any_file path pretty st sc _ _ _ _ _ _ Ho G R) as X.
      unfold exn_end in X. destruct (fault stored); try exact X. congruence.
    + intros L Z. destruct (K L) as (p2 & _ & Lp & G & R). rewrite Z in *. cbn [exn_end] in R.
      pose proof (parse_full path pretty st sc _ _ _ _ _ _ _ Ho G R (wf_contents vs c _ Hc (complete_wf _ _ _ _ Hws)))
        as (js & t & J1 & J2 & J3).
      exists c, js, t. split; [apply table_class_for, Hc|]. rewrite Lp. auto.
Qed.

(** In particular a gzip file cut anywhere (after its first two bytes). *)
Theorem C38_cut_gzip path gz stored rest vs hb ss q pretty st sc :
  disk path = Ok stored -> gz_path path ->
  gzip_member gz (log_bytes hb ss) [] -> gz = stored ++ rest -> rest <> [] -> 2 <= zlen stored ->
  wf_log dec vs hb ss -> zlen ss < 86400 -> log_bytes hb ss = salvage stored ++ q -> fault stored <> ZlibError ->
  parse path [] pretty st sc = Raise (fault stored).
Proof.
  intros Hd Hg Hm Eg Hr L2 Hw Ls E Nz. apply member_exact in Hm.
  assert (stored <> []) as Hne by (intros ->; change (zlen (@nil byte)) with 0 in L2; lia).
  assert (exists r, stored = x1f :: x8b :: r) as Hst.
  { unfold member in Hm. destruct (gz_magic gz) eqn:M; [|discriminate Hm]. apply magic_two in M as (r & M). rewrite Eg in M.
    destruct stored as [|a [|b stored]]; [congruence|unfold zlen in L2; cbn in L2; lia|]. injection M as -> -> _. eauto. }
  assert (forall data, ~ gzip_data stored data) as Hcut.
  { intros data D. apply gunzip_exact in D. rewrite (gunzip_cut _ _ _ _ Hm Eg Hr Hne) in D. discriminate D. }
  destruct (C38_damaged_gzip path stored vs hb ss q pretty st sc Hd Hg Hst Hcut Hw Ls E)
    as (A & B & _).
  destruct (Z_lt_le_dec (zlen (salvage stored)) header_size) as [L|L]; [apply A, L|apply B; assumption].
Qed.

(** ** C39: the path decides *)

(** Stored plainly or compressed, under any names that fit, a log is printed the same. *)
Theorem C39_same_output path1 path2 stored1 stored2 data ps pretty st sc :
  disk path1 = Ok stored1 -> delivers path1 stored1 data ->
  disk path2 = Ok stored2 -> delivers path2 stored2 data ->
  ps = [] \/ (major_of data = 1 /\ minor_of data = 26) ->
  parse path1 ps pretty st sc = parse path2 ps pretty st sc.
Proof.
  intros D1 V1 D2 V2 Hp. unfold parse, parse_file. fold open. rewrite (C39_open _ _ _ D1 V1), (C39_open _ _ _ D2 V2). cbn [rbind].
  assert (samples_of_file dec path1 ps st sc (plain data) = samples_of_file dec path2 ps st sc (plain data)) as ->; [|reflexivity].
  unfold samples_of_file. destruct (get_header true (plain data)) as [[h|x] f1] eqn:Hh; [|reflexivity].
  destruct (accepted_version _ _ _ Hh) as (_ & _ & ->). destruct ps as [|p ps]; [reflexivity|].
  destruct Hp as [Hp|[M1 M2]]; [discriminate Hp|].
  assert (aversion_of (h_buf h) = aversion_of data) as Ea.
  { destruct (C04_class_choice _ _ _ _ Hh) as (_ & _ & _ & ->).
    change (ztake 480 data ++ zeros (480 - zlen data)) with (padded data). apply aversion_padded. }
  unfold major_of, minor_of in *. rewrite Ea, M1, M2. reflexivity.
Qed.

(** A plain log under a path with ".gz" in it cannot be read. *)
Theorem C39_plain_log_at_gz_path path vs hb ss ps pretty st sc :
  gz_path path -> disk path = Ok (log_bytes hb ss) -> wf_log dec vs hb ss ->
  parse path ps pretty st sc = Raise BadGzipFile.
Proof.
  intros Hg Hd (Hvs & (Lh & M & _) & _).
  assert (gz_magic (log_bytes hb ss) = false) as Hm.
  { destruct (gz_magic (log_bytes hb ss)) eqn:X; [|reflexivity]. exfalso. apply magic_two in X as (r & X).
    assert (at8 hb 0 = 31) as A0.
    { rewrite <- (at8_app_l hb (samples_bytes ss)) by (rewrite Lh; unfold header_size; lia). fold (log_bytes hb ss). rewrite X. reflexivity. }
    unfold magic_of, u32_at, u16_at in M. rewrite A0 in M. unfold magic_number in M.
    pose proof (at8_range hb (0 + 1)). pose proof (at8_range hb (0 + 2)). pose proof (at8_range hb (0 + 2 + 1)). lia. }
  assert (open path = Ok (mkFile [] (Some BadGzipFile))) as Ho.
  { unfold open, open_file. rewrite Hd. cbn [rbind]. rewrite (proj2 (uses_gzip_spec path) Hg). unfold gzip_file. rewrite Hm.
    destruct (log_bytes hb ss) eqn:El; [|reflexivity]. exfalso. apply (f_equal zlen) in El. unfold log_bytes in El.
    rewrite zlen_app, Lh in El. pose proof (zlen_nonneg (samples_bytes ss)). change (zlen (@nil byte)) with 0 in El. unfold header_size in El. lia. }
  apply (proj2 (C38_open_and_header_errors path ps pretty st sc) _ _ (mkFile [] (Some BadGzipFile)) Ho).
  rewrite C06_io_errors_pass. reflexivity.
Qed.

(** A compressed log under a path without ".gz" is taken for something that is not a log. *)
Theorem C39_gzip_at_plain_path path stored ps pretty st sc :
  ~ gz_path path -> disk path = Ok stored -> (exists r, stored = x1f :: x8b :: r) ->
  parse path ps pretty st sc = Raise (ValueError (BadMagic (magic_of stored))).
Proof.
  intros Hg Hd (r & Er). pose proof (C39_open path stored stored Hd (or_intror (conj Hg eq_refl))) as Ho.
  assert (fst (get_header true (plain stored)) = Raise (ValueError (BadMagic (magic_of stored)))) as G.
  { apply C02_not_atop_rejected. subst stored. unfold magic_of, u32_at, u16_at, magic_number.
    change (at8 (x1f :: x8b :: r) 0) with 31. change (at8 (x1f :: x8b :: r) (0 + 1)) with 139.
    pose proof (at8_range (x1f :: x8b :: r) (0 + 2)). pose proof (at8_range (x1f :: x8b :: r) (0 + 2 + 1)). lia. }
  destruct (get_header true (plain stored)) as [x f1] eqn:Hh. cbn [fst] in G. subst x.
  apply (proj2 (C38_open_and_header_errors path ps pretty st sc) _ _ _ Ho Hh).
Qed.

Corollary C47_unknown_parseable_log path stored vs hb ss pretty st sc k more :
  disk path = Ok stored -> delivers path stored (log_bytes hb ss) -> wf_log dec vs hb ss ->
  vs_name vs = "1.26"%string -> ~ In k parseable_names ->
  match ss with
  | [] => parse path (k :: more) pretty st sc = Ok (text "[]")
  | _ :: _ => parse path (k :: more) pretty st sc = Raise (KeyError k)
  end.
Proof.
  intros Hd Hdel Hw Hn Hk. pose proof Hw as (Hvs & Ha & Hws). destruct (table_spec _ Hvs) as (c & Hc).
  assert (zlen hb = header_size) as Lh by apply Hw.
  assert (zlen (log_bytes hb ss) - header_size = zlen (samples_bytes ss)) as L by (unfold log_bytes; rewrite zlen_app; lia).
  destruct (default_run vs c hb (log_bytes hb ss) ss [] Hc Hw ltac:(rewrite app_nil_r; reflexivity)
    ltac:(pose proof (zlen_nonneg (samples_bytes ss)); lia)) as (f1 & f2 & G & R).
  rewrite L, complete_all in R.
  assert (major_of hb = 1 /\ minor_of hb = 26) as [M1 M2].
  { destruct Ha as (_ & _ & [-> ->] & _). clear -Hvs Hn. cbn [spec_versions In] in Hvs.
    repeat (destruct Hvs as [<- | Hvs]; [try discriminate Hn; auto|]). destruct Hvs. }
  pose proof (C39_open _ _ _ Hd Hdel) as Ho. destruct ss as [|s ss].
  - eapply C47_no_samples; [exact Ho|exact G|right; cbn; auto|exact R].
  - assert (E : exists ys, map (view c) (at_most_default (s :: ss)) = view c s :: ys).
    { unfold at_most_default. replace (Z.to_nat 86400) with (S (Z.to_nat 86399)) by lia. cbn [firstn map]. eauto. }
    destruct E as (ys & E). rewrite E in R.
    destruct (C47_unknown_parseable path pretty [] k more st sc _ _ _ _ _ _ _ ltac:(constructor) Hk Ho G M1 M2 R) as (rows & e' & S1 & P).
    inversion S1; subst. exact P.
Qed.

(** ** C43 *)

(** The effects of reading [done], printing [texts], then possibly failing at one more file. *)
Definition effects (done : list (list Z)) (texts : list (list Z)) (failing : option (list Z)) : list event :=
  List.concat (map (fun x => [Opened (fst x); Printed (snd x)]) (combine done texts)) ++
  match failing with Some p => [Opened p] | None => [] end.

Theorem C43_in_order_until_first_failure files ps pretty st sc :
  exists done texts rest,
    files = done ++ rest /\ Forall2 (fun p t => parse p ps pretty st sc = Ok t) done texts /\
    match rest with
    | [] => loop files ps pretty st sc = (effects done texts None, None)
    | p :: _ => exists e, parse p ps pretty st sc = Raise e /\ loop files ps pretty st sc = (effects done texts (Some p), Some e)
    end.
Proof.
  induction files as [|p files (done & texts & rest & E & F & H)].
  - exists [], [], []. split; [reflexivity|]. split; [constructor|reflexivity].
  - unfold loop in *. cbn [main_loop]. fold parse. destruct (parse p ps pretty st sc) as [t|e] eqn:Ep.
    + exists (p :: done), (t :: texts), rest. split; [cbn; congruence|]. split; [constructor; assumption|].
      destruct rest as [|q rest].
      * rewrite H. reflexivity.
      * destruct H as (e & H1 & H2). exists e. split; [exact H1|]. rewrite H2. reflexivity.
    + exists [], [], (p :: files). split; [reflexivity|]. split; [constructor|]. exists e. split; [exact Ep|reflexivity].
Qed.

Corollary C43_all_readable files texts ps pretty st sc :
  Forall2 (fun p t => parse p ps pretty st sc = Ok t) files texts ->
  loop files ps pretty st sc = (effects files texts None, None).
Proof.
  unfold loop. induction 1 as [|p t files texts E _ IH]; [reflexivity|]. cbn [main_loop]. fold parse. rewrite E.
  rewrite IH. reflexivity.
Qed.
End Reader.

(** Files after the first failing one, and files not named, have no influence. *)
Theorem C43_later_files_not_read dec disk disk' salvage fault float_repr done p rest rest' ps pretty st sc e :
  parse_file dec disk salvage fault float_repr p ps pretty st sc = Raise e ->
  (forall q, In q (done ++ [p]) -> disk q = disk' q) ->
  main_loop dec disk salvage fault float_repr (done ++ p :: rest) ps pretty st sc =
  main_loop dec disk' salvage fault float_repr (done ++ p :: rest') ps pretty st sc.
Proof.
  intros Hp Ha.
  assert (forall q, In q (done ++ [p]) -> parse_file dec disk salvage fault float_repr q ps pretty st sc =
                                     parse_file dec disk' salvage fault float_repr q ps pretty st sc) as K.
  { intros q Hq. unfold parse_file, open_file. rewrite (Ha q Hq). reflexivity. }
  clear Ha. induction done as [|q done IH]; cbn [app main_loop].
  - rewrite <- (K p) by (left; reflexivity). rewrite Hp. reflexivity.
  - rewrite <- (K q) by (left; reflexivity). rewrite IH by (intros x Hx; apply K; right; exact Hx). reflexivity.
Qed.

(** ** Examples: the hypotheses are met *)

Definition log_name : list Z := text "atop.log".
Definition gz_name : list Z := text "atop.log.gz".
Definition odd_name : list Z := text "old.gz.d/atop.log".
Lemma log_name_plain : ~ gz_path log_name.
Proof. intros H. apply uses_gzip_spec in H. vm_compute in H. discriminate H. Qed.
Lemma gz_name_gz : gz_path gz_name.
Proof. apply uses_gzip_spec. vm_compute. reflexivity. Qed.
Lemma odd_name_gz : gz_path odd_name.
Proof. apply uses_gzip_spec. vm_compute. reflexivity. Qed.

(** A disk with a log, plain and compressed, and the plain log in an oddly named directory. *)
Definition example_disk (b : list byte) (path : list Z) : res (list byte) :=
  if list_eq_dec Z.eq_dec path gz_name then Ok (gzip_store b) else Ok b.

Lemma example_delivers b : exists s1 s2,
  example_disk b log_name = Ok s1 /\ delivers log_name s1 b /\ example_disk b gz_name = Ok s2 /\ delivers gz_name s2 b.
Proof.
  exists b, (gzip_store b). unfold example_disk.
  destruct (list_eq_dec Z.eq_dec log_name gz_name) as [E|_]; [discriminate E|].
  destruct (list_eq_dec Z.eq_dec gz_name gz_name) as [_|N]; [|congruence].
  split; [reflexivity|]. split; [right; split; [apply log_name_plain|reflexivity]|].
  split; [reflexivity|]. left. split; [apply gz_name_gz|apply gunzip_exact, gunzip_store].
Qed.

(** For every version there is a log with several samples, processes and cgroups that is
    printed, whether stored plainly or compressed. *)
Example C37_example vs n pretty st sc salvage fault float_repr : In vs spec_versions ->
  exists hb ss t, wf_log zdecompress vs hb ss /\ zlen ss = Z.of_nat n /\
    parse_file zdecompress (example_disk (log_bytes hb ss)) salvage fault float_repr log_name [] pretty st sc = Ok t /\
    parse_file zdecompress (example_disk (log_bytes hb ss)) salvage fault float_repr gz_name [] pretty st sc = Ok t.
Proof.
  intros Hvs. pose proof (example_log_wf vs n Hvs) as Hw.
  destruct (example_delivers (log_bytes (make_header vs) (example_log vs n))) as (s1 & s2 & D1 & V1 & D2 & V2).
  destruct (C37_full_output zdecompress _ salvage fault float_repr log_name s1 vs _ _ pretty st sc D1 V1 Hw) as (c & js & t & _ & _ & _ & P).
  exists (make_header vs), (example_log vs n), t. split; [exact Hw|]. split; [apply example_log_len|]. split; [exact P|].
  rewrite <- P. eapply C39_same_output; [exact D2|exact V2|exact D1|exact V1|left; reflexivity].
Qed.

(** ** C39: the documented independence of where a file lives is refuted *)

Lemma location_matters dec vs hb ss salvage fault float_repr pretty st sc : wf_log dec vs hb ss ->
  exists t, parse_file dec (fun _ => Ok (log_bytes hb ss)) salvage fault float_repr log_name [] pretty st sc = Ok t /\
  parse_file dec (fun _ => Ok (log_bytes hb ss)) salvage fault float_repr odd_name [] pretty st sc = Raise BadGzipFile.
Proof.
  intros Hw.
  destruct (C37_full_output dec (fun _ => Ok (log_bytes hb ss)) salvage fault float_repr log_name _ vs hb ss pretty st sc
    eq_refl (or_intror (conj log_name_plain eq_refl)) Hw) as (c & js & t & _ & _ & _ & P).
  exists t. split; [exact P|]. apply (C39_plain_log_at_gz_path dec _ salvage fault float_repr odd_name vs hb ss); [apply odd_name_gz|reflexivity|exact Hw].
Qed.

Theorem C39_location_independent_refuted :
  ~ (forall dec disk salvage fault float_repr path1 path2 stored pretty st sc,
       disk path1 = Ok stored -> disk path2 = Ok stored ->
       parse_file dec disk salvage fault float_repr path1 [] pretty st sc =
       parse_file dec disk salvage fault float_repr path2 [] pretty st sc).
Proof.
  intros H.
  assert (exists vs hb ss, wf_log zdecompress vs hb ss) as (vs & hb & ss & Hw).
  { exists (mkVS "1.26" 1 26 80 88368 616 None). eexists. eexists. apply (example_log_wf _ 1). left. reflexivity. }
  destruct (location_matters zdecompress vs hb ss (fun _ => []) (fun _ => BadGzipFile) (fun _ => []) false false false Hw) as (t & A & B).
  rewrite (H zdecompress _ _ _ _ log_name odd_name (log_bytes hb ss) false false false eq_refl eq_refl) in A. rewrite A in B. discriminate B.
Qed.

(** System parseables never fail, so e.g. "CPU" and "CPL" of a 1.26 log are always printed: two
    rows per sample. *)
Example C37_parseable_example n salvage fault float_repr pretty :
  exists hb ss rows t, wf_log zdecompress (mkVS "1.26" 1 26 80 88368 616 None) hb ss /\ zlen ss = Z.of_nat n /\
    log_rows hb ["CPU"; "CPL"]%string (at_most_default ss) rows None /\
    zlen rows = 2 * zlen (at_most_default ss) /\
    dumps float_repr pretty 0 (JList rows) = Some t /\
    parse_file zdecompress (fun _ => Ok (log_bytes hb ss)) salvage fault float_repr log_name ["CPU"; "CPL"]%string pretty false false = Ok t.
Proof.
  assert (forall hb ss rows e, log_rows hb ["CPU"; "CPL"]%string ss rows e -> e = None /\ zlen rows = 2 * zlen ss) as K.
  { intros hb ss rows e H. induction H as [|s ss rows more e R _ IH|s ss rows e R].
    - split; reflexivity.
    - destruct IH as [-> IH]. split; [reflexivity|]. rewrite zlen_app, IH, zlen_cons.
      inversion R as [|? ? rw ? ? R1 R2|]; subst. inversion R1; subst. inversion R2 as [|? ? rw ? ? R3 R4|]; subst.
      inversion R3; subst. inversion R4; subst. cbn [map app]. rewrite !zlen_cons. change (zlen (@nil json)) with 0. lia.
    - exfalso. inversion R as [|? ? rw ? ? R1 R2|? ? ? ? R1]; subst; [|inversion R1].
      inversion R2 as [|? ? rw' ? ? R3 R4|? ? ? ? R3]; subst; [inversion R4|inversion R3]. }
  set (vs := mkVS "1.26" 1 26 80 88368 616 None).
  assert (exists hb ss, wf_log zdecompress vs hb ss /\ zlen ss = Z.of_nat n) as (hb & ss & Hw & L).
  { eexists. eexists. split; [apply (example_log_wf _ n); left; reflexivity|apply example_log_len]. }
  destruct (C37_parseable_output zdecompress (fun _ => Ok (log_bytes hb ss)) salvage fault float_repr log_name _ vs hb ss pretty false false
    "CPU"%string ["CPL"%string] eq_refl (or_intror (conj log_name_plain eq_refl)) Hw eq_refl) as (rows & e & R & P).
  { repeat (apply Forall_cons; [cbn; tauto|]). constructor. }
  destruct (K _ _ _ _ R) as [-> Lr]. destruct P as (t & P1 & P2). exists hb, ss, rows, t.
  split; [exact Hw|]. split; [exact L|]. split; [exact R|]. split; [exact Lr|]. split; [exact P1|exact P2].
Qed.

(** parse_PRD exists, but PRD is not one of the names. *)
Example C47_example n salvage fault float_repr pretty st sc :
  exists hb ss, wf_log zdecompress (mkVS "1.26" 1 26 80 88368 616 None) hb ss /\ zlen ss = Z.of_nat (S n) /\
    parse_file zdecompress (example_disk (log_bytes hb ss)) salvage fault float_repr log_name ["PRD"%string] pretty st sc =
      Raise (KeyError "PRD").
Proof.
  set (vs := mkVS "1.26" 1 26 80 88368 616 None).
  assert (Hvs : In vs spec_versions) by (left; reflexivity).
  pose proof (example_log_wf vs (S n) Hvs) as Hw.
  destruct (example_delivers (log_bytes (make_header vs) (example_log vs (S n)))) as (s1 & _ & D1 & V1 & _).
  exists (make_header vs), (example_log vs (S n)). split; [exact Hw|]. split; [apply example_log_len|].
  pose proof (C47_unknown_parseable_log zdecompress _ salvage fault float_repr log_name s1 vs _ _ pretty st sc "PRD" [] D1 V1 Hw eq_refl) as K.
  pose proof (example_log_len vs (S n)) as Ln.
  destruct (example_log vs (S n)) as [|s ss]; [exfalso; change (zlen (@nil lsample)) with 0 in Ln; lia|].
  apply K. cbn [parseable_names In]. intros H. repeat (destruct H as [H|H]; [discriminate H|]). exact H.
Qed.

(** C36: parseables of a 2.11 log give the error entry, whatever is asked for. *)
Example C36_example salvage fault float_repr :
  let b := make_header (mkVS "2.11" 2 11 96 1064016 968 (Some 432)) in
  parse_file zdecompress (fun _ => Ok b) salvage fault float_repr (text "log") ["CPU"; "nonsense"]%string false true false =
  Ok (text "[{""error"": ""Atop version 2.11 does not support parseables, only full raw output."", ""file"": ""log""}]").
Proof. vm_compute. reflexivity. Qed.

(** C38: a log of [n] samples cut inside the last one prints [n - 1] entries; a missing file
    and a file of zeros raise. *)
Example C38_example vs n pretty st sc salvage fault float_repr : In vs spec_versions -> Z.of_nat (S n) < 86400 ->
  exists hb ss p q js t, wf_log zdecompress vs hb ss /\ zlen ss = Z.of_nat (S n) /\ log_bytes hb ss = p ++ q /\ q <> [] /\
    zlen js = Z.of_nat n /\ dumps float_repr pretty 0 (JList js) = Some t /\
    parse_file zdecompress (fun _ => Ok p) salvage fault float_repr log_name [] pretty st sc = Ok t.
Proof.
  intros H Hn. pose proof (example_log_wf vs (S n) H) as Hw. pose proof (example_log_len vs (S n)) as L.
  set (hb := make_header vs) in *. set (ss := example_log vs (S n)) in *.
  assert (Lh : zlen hb = 480) by apply Hw.
  assert (exists s r, ss = firstn n ss ++ s :: r) as (s & r & Es).
  { destruct (skipn n ss) as [|s r] eqn:X.
    - exfalso. apply (f_equal (@List.length _)) in X. rewrite skipn_length in X. change (List.length (@nil lsample)) with O in X. unfold zlen in L. lia.
    - exists s, r. rewrite <- X, firstn_skipn. reflexivity. }
  assert (80 <= zlen (sample_bytes s)) as L80.
  { pose proof (proj2 (proj2 Hw)) as Hs. rewrite Es in Hs. apply Forall_app in Hs as [_ Hs]. inversion Hs as [|? ? (W1 & _) _]; subst.
    unfold sample_bytes. rewrite !zlen_app, W1.
    assert (80 <= vs_rec vs) by (clear -H; repeat (destruct H as [<- | H]; [cbn; lia|]); destruct H).
    pose proof (zlen_nonneg (ls_cs s)). pose proof (zlen_nonneg (ls_ct s)). pose proof (zlen_nonneg (ls_cc s)).
    pose proof (zlen_nonneg (ls_ci s)). lia. }
  set (p := hb ++ samples_bytes (firstn n ss) ++ ztake 10 (sample_bytes s)).
  set (q := zdrop 10 (sample_bytes s) ++ samples_bytes r).
  assert (E : log_bytes hb ss = p ++ q).
  { unfold log_bytes, p, q. rewrite Es at 1. unfold samples_bytes. rewrite map_app, concat_app. cbn [map List.concat].
    rewrite <- (ztake_zdrop 10 (sample_bytes s)) at 1. rewrite !app_assoc. reflexivity. }
  assert (zlen p - header_size = zlen (samples_bytes (firstn n ss)) + 10) as Lp.
  { unfold p. rewrite !zlen_app, Lh, zlen_ztake. unfold header_size. lia. }
  destruct (C38_truncated_full zdecompress (fun _ => Ok p) salvage fault float_repr log_name p vs hb ss p q pretty st sc
    eq_refl (or_intror (conj log_name_plain eq_refl)) Hw E) as (c & js & t & _ & F & D & P).
  { pose proof (zlen_nonneg (samples_bytes (firstn n ss))). lia. }
  rewrite Lp, (complete_cut n ss s r 10 Es ltac:(lia)) in F.
  exists hb, ss, p, q, js, t. split; [exact Hw|]. split; [exact L|]. split; [exact E|]. split.
  { intros X. apply (f_equal zlen) in X. unfold q in X. rewrite zlen_app, zlen_zdrop in X. change (zlen (@nil byte)) with 0 in X.
    pose proof (zlen_nonneg (samples_bytes r)). lia. }
  split; [|split; [exact D|exact P]]. apply same_length in F. unfold at_most_default in F. unfold zlen. rewrite <- F, !firstn_length.
  unfold zlen in L. lia.
Qed.
Example C38_errors_example salvage fault float_repr e :
  parse_file zdecompress (fun _ => Raise (IOErr e)) salvage fault float_repr log_name [] false false false = Raise (IOErr e) /\
  parse_file zdecompress (fun _ => Ok (zeros 600)) salvage fault float_repr log_name [] false false false = Raise (ValueError (BadMagic 0)).
Proof. split; vm_compute; reflexivity. Qed.

(** C39: a gzip file under a name without ".gz", and a plain log under one with it. *)
Example C39_example salvage fault float_repr :
  let b := make_header (mkVS "1.26" 1 26 80 88368 616 None) in
  parse_file zdecompress (fun _ => Ok (gzip_store b)) salvage fault float_repr log_name [] false false false = Raise (ValueError (BadMagic (magic_of (gzip_store b)))) /\
  parse_file zdecompress (fun _ => Ok b) salvage fault float_repr gz_name [] false false false = Raise BadGzipFile /\
  parse_file zdecompress (fun _ => Ok (gzip_store b)) salvage fault float_repr gz_name [] false false false = Ok (text "[]").
Proof. cbv zeta. repeat apply conj; vm_compute; reflexivity. Qed.

(** C43: a log without samples, then a missing file, then another log that is not opened. *)
Example C43_example salvage fault float_repr e :
  let b := make_header (mkVS "1.26" 1 26 80 88368 616 None) in
  main_loop zdecompress (fun p => if list_eq_dec Z.eq_dec p (text "b") then Raise (IOErr e) else Ok b) salvage fault float_repr
    [text "a"; text "b"; text "c"] [] false false false =
  ([Opened (text "a"); Printed (text "[]"); Opened (text "b")], Some (IOErr e)).
Proof. vm_compute. reflexivity. Qed.
