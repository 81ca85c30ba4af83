(** * C57: running the source has the effects that the model says

    Source.v is the text of /repo's functions, as parsed by Python; PyEval.v is an interpreter
    for it.  Each theorem: for every file content and position, every header and record object,
    every state of the caches, the interpreted function returns the objects, raises the exception
    (with its text), leaves the file where and touches the objects as Model.v says.  [4 + n] etc.
    is the depth of calls that the interpreter allows: any sufficient depth gives the same. *)
From Coq Require Import List ZArith Lia Bool String.
From Coq Require Import Init.Byte.
From Coq Require Import ZifyBool.
From Verif Require Import PyBase Utf8 CTypes S_shared S_1_26 Model Parsers Json Gzip Reader Messages.
From Verif Require Import Inflate Spec SpecDict SpecLog BaseProofs LayoutProofs RepProofs DictProofs TableProofs HeaderProofs.
From Verif Require Import LogBuild PropHeader PropLog.
From Verif Require Import PySyntax PyEval Source PyProgram PyGenerator SpecSource SrcBase SrcHeader SrcUtils SrcStat SrcCgroup SrcGen SrcGen2.
Import ListNotations.
Local Open Scope string_scope.
Local Open Scope list_scope.
Local Open Scope Z_scope.

Section Src.
Variable dec : list byte -> option (list byte).
Variable disk : list Z -> res (list byte).
Variable salvage : list byte -> list byte.
Variable fault : list byte -> exn.
Variable float_repr : Z -> list Z.
Variable argv : env.
Notation program_with n := (call_n dec disk salvage fault float_repr argv globals functions n).
Notation call n m name args kws w := (f_call (program_with n) m name args kws w).

(** Importing the modules evaluates their top-level assignments to the tables that the model
    uses: version table, default version, magic number, limits, parseables. *)
Theorem C57_modules_load f out :
  load_modules program [] (mkW [] f out) = Some (modules, mkW heap0 f out).
Proof. apply load_program. Qed.

(** get_header(raw_file, check_compatibility=check), the second argument given by position, by
    keyword, or (true) left out. *)
Theorem C57_get_header n w args kws check : loaded w -> plain_fault (w_file w) ->
  In (args, kws) ([([VFile; VBool check], []); ([VFile], [("check_compatibility", VBool check)])] ++
                  if check then [([VFile], [])] else []) ->
  runs is_hdr w (call (4 + n) "atoparser.utils" "get_header" args kws w) (get_header check (w_file w)).
Proof.
  intros Lw Hpf Ha. apply (src_get_header dec disk salvage fault float_repr argv n w args kws check Lw Hpf).
  destruct check; cbn [app In] in Ha.
  - destruct Ha as [Ha | [Ha | [Ha | []]]]; injection Ha as <- <-; reflexivity.
  - destruct Ha as [Ha | [Ha | []]]; injection Ha as <- <-; reflexivity.
Qed.

(** header.check_compatibility(): returns None or raises, no effect. *)
Theorem C57_check_compatibility n w v h : is_hdr w v h ->
  runs (fun _ v' _ => v' = VNone) w
       (call (3 + n) "atoparser.structs.shared" "HeaderMixin.check_compatibility" [v] [] w)
       (check_compatibility h, w_file w).
Proof.
  intros Hh. pose proof (src_check_compatibility dec disk salvage fault float_repr argv n w v h Hh) as K.
  unfold quiet_unit in K. unfold runs. destruct (check_compatibility h) as [u|e].
  - destruct K as (w' & K & (A & B & C)). exists VNone, w'. auto.
  - destruct K as (w' & K & (A & B & C)). exists w'. auto.
Qed.

(** header.semantic_version, .major_version, .minor_version: whether or not the object has cached
    its version before. *)
Theorem C57_versions n w v h : is_hdr w v h ->
  runs (fun _ v' t => v' = VStr t) w (get_attr globals (program_with (2 + n)) v "semantic_version" w)
       (semantic_version h, w_file w) /\
  runs (fun _ v' z => v' = VInt z) w (get_attr globals (program_with (2 + n)) v "major_version" w)
       (major_version h, w_file w) /\
  runs (fun _ v' z => v' = VInt z) w (get_attr globals (program_with (2 + n)) v "minor_version" w)
       (minor_version h, w_file w).
Proof.
  intros Hh. pose proof (hdr_in _ _ _ Hh) as Hv.
  split; [|split].
  - rewrite (semantic_vtext h Hv). destruct (hdr_semantic dec disk salvage fault float_repr argv (S n) w v h Hh) as (w' & K & (A & B & C) & _).
    exists (VStr (vtext h)), w'. auto.
  - unfold major_version. rewrite (aversion_eq h Hv). cbn [rbind].
    destruct (src_major dec disk salvage fault float_repr argv n w v h Hh) as (w' & K & (A & B & C)).
    eexists _, w'. split; [exact K|auto].
  - unfold minor_version. rewrite (aversion_eq h Hv). cbn [rbind].
    destruct (src_minor dec disk salvage fault float_repr argv n w v h Hh) as (w' & K & (A & B & C)).
    eexists _, w'. split; [exact K|auto].
Qed.

(** get_record(raw_file, header) *)
Theorem C57_get_record n w v h : is_hdr w v h -> plain_fault (w_file w) ->
  runs is_obj w (call (1 + n) "atoparser.utils" "get_record" [VFile; v] [] w) (get_record h (w_file w)).
Proof.
  intros Hh Hpf. pose proof (src_get_record dec disk salvage fault float_repr argv n w v h Hh Hpf) as K.
  unfold runs in *. destruct (get_record h (w_file w)) as [[r|e] f']; [|exact K].
  destruct K as (v' & w' & K & A & B & C & D & _). exists v', w'. auto.
Qed.

(** get_sstat, get_tstat, get_cstat(raw_file, header, record), the record of any version. *)
Theorem C57_get_sstat n w v h vr r c : is_hdr w v h -> is_obj w vr r -> In c versions -> o_type r = hc_record c ->
  plain_fault (w_file w) ->
  runs is_obj w (call (1 + n) "atoparser.utils" "get_sstat" [VFile; v; vr] [] w) (get_sstat dec h r (w_file w)).
Proof.
  intros Hh Hr Hc Ht Hpf.
  pose proof (src_get_sstat dec disk salvage fault float_repr argv n w v h vr r Hh Hr (ex_intro _ c (conj Hc Ht)) Hpf) as K.
  unfold runs in *. destruct (get_sstat dec h r (w_file w)) as [[o|e] f']; [|exact K].
  destruct K as (v' & w' & K & A & B & C & D & _). exists v', w'. auto.
Qed.

Theorem C57_get_tstat n w v h vr r c : is_hdr w v h -> is_obj w vr r -> In c versions -> o_type r = hc_record c ->
  plain_fault (w_file w) ->
  runs (fun w' x l => is_list is_obj w' x l /\ new_list w x) w (call (3 + n) "atoparser.utils" "get_tstat" [VFile; v; vr] [] w) (get_tstat dec h r (w_file w)).
Proof.
  intros Hh Hr Hc Ht Hpf.
  exact (src_get_tstat dec disk salvage fault float_repr argv n w v h vr r Hh Hr (ex_intro _ c (conj Hc Ht)) Hpf).
Qed.

Theorem C57_get_cstat n w v h vr r c : is_hdr w v h -> is_obj w vr r -> In c versions -> o_type r = hc_record c ->
  plain_fault (w_file w) ->
  runs (fun w' x l => is_list is_chain w' x l /\ new_list w x) w (call (2 + n) "atoparser.utils" "get_cstat" [VFile; v; vr] [] w) (get_cstat dec h r (w_file w)).
Proof.
  intros Hh Hr Hc Ht Hpf.
  exact (src_get_cstat dec disk salvage fault float_repr argv n w v h vr r Hh Hr (ex_intro _ c (conj Hc Ht)) Hpf).
Qed.

(** generate_statistics(...): the call itself reads nothing and gives a generator; then, through
    any history of next, throw and close, with the rest of the program acting in between, the
    generator gives what the model's generator gives and leaves the file where that leaves it. *)
Theorem C57_generate_statistics n w args kws hv hdr strict ms ops : loaded w -> plain_fault (w_file w) ->
  bind_params globals "atoparser.utils" (fd_params u_generate_statistics) args kws =
    Some [("raw_file", VFile); ("header", hv); ("raise_on_truncation", VBool strict); ("max_samples", VInt ms)] ->
  match hdr with None => hv = VNone | Some h => is_hdr w hv h end ->
  exists p,
    match call (1 + n) "atoparser.utils" "generate_statistics" args kws w with
    | EOk g w' => pgen_of g = Some p /\ w' = w
    | EErr _ _ => False
    end /\
    history dec (program_with (5 + n)) ops w p (generate_statistics hdr strict ms).
Proof.
  intros Lw Hpf Hb Hh. eexists. split.
  - change (1 + n)%nat with (S n). change "atoparser.utils" with U. rewrite (src_generate dec disk salvage fault float_repr argv n w args kws hv strict ms Hb).
    split; reflexivity.
  - apply src_history; [exact Lw|exact Hpf|]. exists hv. split; [reflexivity|]. exact Hh.
Qed.

(** The defaults of the call: [generate_statistics(raw_file)] reads the header itself, raises on
    truncation, and stops after MAX_SAMPLES_PER_FILE samples. *)
Theorem C57_generate_defaults :
  bind_params globals "atoparser.utils" (fd_params u_generate_statistics) [VFile] [] =
    Some [("raw_file", VFile); ("header", VNone); ("raise_on_truncation", VBool true);
          ("max_samples", VInt MAX_SAMPLES_PER_FILE)].
Proof. reflexivity. Qed.

(** A [for] loop over the generator. *)
Lemma drain_agrees n fuel : forall w p g, loaded w -> plain_fault (w_file w) ->
  gen_inv dec disk salvage fault float_repr argv n w p g ->
  let '(ss, e, f') := drain dec fuel g (w_file w) in
  exists vs e' w', py_drain fuel (program_with (5 + n)) p w = (vs, e', w') /\
    Forall2 (is_sample w') vs ss /\ ends e' e /\ grows w w' /\ w_file w' = f' /\ w_out w' = w_out w.
Proof.
  induction fuel as [|k IH]; intros w p g Lw Hpf I.
  { cbn [drain py_drain]. exists [], None, w. split; [reflexivity|]. split; [constructor|]. split; [reflexivity|].
    split; [apply grows_refl|auto]. }
  cbn [drain py_drain].
  pose proof (next_step dec disk salvage fault float_repr argv n w p g Lw Hpf I) as K.
  pose proof (gnext_plain dec g (w_file w)) as P. cbv beta in P.
  change (program_with (S (S (S (S (S n)))))) with (program_with (5 + n)) in K.
  destruct (gnext dec g (w_file w)) as [[o g'] f']. destruct (py_next (program_with (5 + n)) p w) as [[o' p'] w'].
  destruct K as (K1 & K2 & K3 & K4 & K5). destruct o as [s| |x]; cbn [out_rel] in K1.
  - destruct K1 as (v & -> & Hs & _). subst f'. specialize (P _ _ Hpf eq_refl).
    specialize (IH w' p' g' (loaded_grows _ _ K2 Lw) P K5).
    destruct (drain dec k g' (w_file w')) as [[ss e] f''].
    destruct IH as (vs & e' & w'' & E & F & En & G & B & C). rewrite E.
    exists (v :: vs), e', w''. split; [reflexivity|]. split; [constructor; [eapply is_sample_grows; eassumption|exact F]|].
    split; [exact En|]. split; [exact (grows_trans _ _ _ K2 G)|]. split; [exact B|congruence].
  - subst o'. exists [], (Some PStop), w'. split; [reflexivity|]. split; [constructor|]. split; [reflexivity|auto].
  - subst o'. exists [], (Some (PRaise (xof x))), w'. split; [reflexivity|]. split; [constructor|]. split; [reflexivity|auto].
Qed.

(** A [for] loop over [generate_statistics(raw_file, header, strict, max_samples)] yields the
    samples of the model's run, all of them intact at the end, and ends like it. *)
Theorem C57_for_loop n w hv hdr strict ms : loaded w -> plain_fault (w_file w) ->
  match hdr with None => hv = VNone | Some h => is_hdr w hv h end ->
  let '(ss, e, f') := run dec hdr strict ms (w_file w) in
  exists g p vs e' w',
    call (1 + n) "atoparser.utils" "generate_statistics" [VFile; hv; VBool strict; VInt ms] [] w = EOk g w /\
    pgen_of g = Some p /\
    py_drain (S (Z.to_nat ms)) (program_with (5 + n)) p w = (vs, e', w') /\
    Forall2 (is_sample w') vs ss /\ ends e' e /\ grows w w' /\ w_file w' = f' /\ w_out w' = w_out w.
Proof.
  intros Lw Hpf Hh. unfold run.
  pose proof (drain_agrees n (S (Z.to_nat ms)) w (PNew "atoparser.utils" "generate_statistics" (gen_env hv strict ms))
    (generate_statistics hdr strict ms) Lw Hpf) as K.
  assert (I : gen_inv dec disk salvage fault float_repr argv n w
    (PNew "atoparser.utils" "generate_statistics" (gen_env hv strict ms)) (generate_statistics hdr strict ms)).
  { exists hv. split; [reflexivity|exact Hh]. }
  specialize (K I). destruct (drain dec (S (Z.to_nat ms)) (generate_statistics hdr strict ms) (w_file w)) as [[ss e] f'].
  destruct K as (vs & e' & w' & K).
  exists (VGen "atoparser.utils" "generate_statistics" (gen_env hv strict ms)), 
    (PNew "atoparser.utils" "generate_statistics" (gen_env hv strict ms)), vs, e', w'.
  split; [|split; [reflexivity|exact K]].
  exact (src_generate dec disk salvage fault float_repr argv n w [VFile; hv; VBool strict; VInt ms] [] hv strict ms eq_refl).
Qed.

(** Reading a well-formed log with the source's own text: exactly its samples, in order, then
    the loop ends; the whole file is consumed. *)
Theorem C57_source_reads_log n vs hb ss strict ms : wf_log dec vs hb ss -> zlen ss <= ms ->
  exists g p vals w', let w := start_world (plain (log_bytes hb ss)) in
    call (1 + n) "atoparser.utils" "generate_statistics" [VFile; VNone; VBool strict; VInt ms] [] w = EOk g w /\
    pgen_of g = Some p /\
    py_drain (S (Z.to_nat ms)) (program_with (5 + n)) p w = (vals, Some PStop, w') /\
    w_file w' = plain [] /\
    exists c ys, class_for vs c /\ Forall2 (holds_sample c) ss ys /\ Forall2 (is_sample w') vals ys.
Proof.
  intros Hw Hms. destruct (C09_log_round_trip dec vs hb ss strict ms Hw Hms) as (c & ys & Hc & F & R).
  assert (Lw : loaded (start_world (plain (log_bytes hb ss)))) by (intros k d H; exact H).
  assert (Hpf : plain_fault (w_file (start_world (plain (log_bytes hb ss))))) by (intros e H; discriminate H).
  pose proof (C57_for_loop n (start_world (plain (log_bytes hb ss))) VNone None strict ms Lw Hpf eq_refl) as K.
  cbn [w_file start_world] in K. rewrite R in K.
  destruct K as (g & p & vals & e' & w' & K1 & K2 & K3 & K4 & K5 & _ & K6 & _). cbn [ends] in K5. subst e'.
  exists g, p, vals, w'. cbn zeta. split; [exact K1|]. split; [exact K2|]. split; [exact K3|]. split; [exact K6|].
  exists c, ys. auto.
Qed.
End Src.

(** ** Concrete cases *)

(** The start world meets the hypotheses, for every file without an own fault. *)
Example C57_start f : f_fault f = None -> loaded (start_world f) /\ plain_fault (w_file (start_world f)).
Proof.
  intros Hf. split; [intros k c H; exact H|]. intros e H. cbn in H. rewrite Hf in H. discriminate H.
Qed.

(** The interpreter run on a file of 480 zero bytes: the text of the exception. *)
Example C57_example_bad_magic dec disk salvage fault float_repr argv :
  exists w, f_call (call_n dec disk salvage fault float_repr argv globals functions 4) "atoparser.utils" "get_header" [VFile] []
    (start_world (plain (zeros 480))) =
  EErr (XUser "ValueError" (text "File does not contain raw atop output (wrong magic number): 0x0")) w.
Proof. eexists. vm_compute. reflexivity. Qed.

(** For every version and number of samples there is a log on which the source's generator
    yields that many samples. *)
Example C57_example_log vs n (strict : bool) disk salvage fault float_repr argv : In vs spec_versions ->
  exists hb ss p vals w', wf_log zdecompress vs hb ss /\ zlen ss = Z.of_nat n /\ zlen vals = Z.of_nat n /\
    py_drain (S n) (call_n zdecompress disk salvage fault float_repr argv globals functions 5) p
      (start_world (plain (log_bytes hb ss))) = (vals, Some PStop, w').
Proof.
  intros H. pose proof (example_log_wf vs n H) as Hw. pose proof (example_log_len vs n) as L.
  destruct (C57_source_reads_log zdecompress disk salvage fault float_repr argv 0 vs _ _ strict (Z.of_nat n) Hw ltac:(lia))
    as (g & p & vals & w' & K1 & K2 & K3 & K4 & c & ys & K5 & K6 & K7).
  rewrite Nat2Z.id in K3.
  exists (make_header vs), (example_log vs n), p, vals, w'. split; [exact Hw|]. split; [exact L|]. split; [|exact K3].
  rewrite <- L. unfold zlen. f_equal.
  assert (Len : forall A B (R : A -> B -> Prop) l m, Forall2 R l m -> List.length l = List.length m)
    by (intros A B R l m F; induction F; cbn; congruence).
  apply Len in K6, K7. congruence.
Qed.
