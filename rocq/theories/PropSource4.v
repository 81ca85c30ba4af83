(** * C60: the source of reader.py, run by the interpreter, does what the model says *)
From Coq Require Import List ZArith Lia Bool String.
From Coq Require Import Init.Byte.
From Verif Require Import PyBase Utf8 CTypes S_shared S_1_26 S_2_11 Model Parsers Json Gzip Reader Messages Args SpecReader SpecLog SpecGzip Inflate.
From Verif Require Import Spec SpecDict BaseProofs LayoutProofs RepProofs DictProofs TableProofs HeaderProofs LogBuild PropReader.
From Verif Require Import PySyntax PyEval Source PyProgram PyGenerator SpecSource SrcBase SrcHeader SrcUtils SrcStat SrcDict SrcCgroup SrcGen SrcGen2.
From Verif Require Import SpecSource2 SpecSource3 SrcParse PropSource3 SrcReader SrcReader2 SrcReader3.
Import ListNotations.
Local Open Scope string_scope.
Local Open Scope list_scope.
Local Open Scope Z_scope.

Definition main_body : list stmt :=
  match nth 1 (fd_body r_main) SPass with SFor _ _ b => b | _ => [] end.

Section Src.
Variable dec : list byte -> option (list byte).
Variable disk : list Z -> res (list byte).
Variable salvage : list byte -> list byte.
Variable fault : list byte -> exn.
Variable float_repr : Z -> list Z.
Variable argv : env.
Notation call n := (f_call (call_n dec disk salvage fault float_repr argv globals functions n)).
Notation CN := (call_n dec disk salvage fault float_repr argv globals functions).
(** Opening a path and reading a damaged gzip file raise exceptions of the libraries. *)
Hypothesis disk_plain : forall p e, disk p = Raise e -> message e = None.
Hypothesis fault_plain : forall b, message (fault b) = None.

(** parse_file(file, parseables, pretty_print, show_tstats, show_cstats) *)
Theorem C60_parse_file n w fv pv pp st sc path ps :
  loaded w -> cps fv = Some path -> formats w pv ps ->
  let m := parse_file dec disk salvage fault float_repr path ps pp st sc in
  exists w', call (6 + n) "atoparser.reader" "parse_file" [fv; pv; VBool pp; VBool st; VBool sc] [] w = file_result m w' /\
    grows w w' /\ w_out w' = w_out w ++ file_events path m.
Proof. intros L Hf Hp. cbv zeta. eapply src_parse_file; try eassumption. reflexivity. Qed.

(** parse_file(file): the defaults. *)
Theorem C60_parse_file_defaults n w fv path :
  loaded w -> cps fv = Some path ->
  let m := parse_file dec disk salvage fault float_repr path [] true false false in
  exists w', call (6 + n) "atoparser.reader" "parse_file" [fv] [] w = file_result m w' /\
    grows w w' /\ w_out w' = w_out w ++ file_events path m.
Proof. intros L Hf. cbv zeta. eapply src_parse_file; try eassumption; [reflexivity|]. left. auto. Qed.

Section Main.
Variable n : nat.
Notation F := (CN (S (S (S (S (S (S n))))))).
Notation EX := (exec dec disk salvage fault float_repr globals F RD None).
Notation EFOR := (exec_for dec disk salvage fault float_repr globals F RD).

Lemma main_steps fid fvs pv pp st sc ps aid :
  assoc "files" argv = Some (VList fid) -> assoc "parseables" argv = Some pv ->
  assoc "pretty_print" argv = Some (VBool pp) -> assoc "show_tstats" argv = Some (VBool st) ->
  assoc "show_cstats" argv = Some (VBool sc) ->
  forall files w l, Forall2 (fun v p => cps v = Some p) fvs files -> loaded w -> formats w pv ps ->
    cell_at w aid = Some (CObj argv) -> assoc "args" l = Some (VObj aid) ->
    assoc "parse_file" l = None ->
    let '(es, e) := main_loop dec disk salvage fault float_repr files ps pp st sc in
    exists l' w', EFOR (TgName "file") (exec_block EX main_body) (map (fun x => fun _ => Some x) fvs) l w =
        TDone (match e with None => ONext | Some x => OExc (xof x) end) l' w' /\
      grows w w' /\ w_out w' = w_out w ++ es.
Proof.
  intros Af Ap A1 A2 A3. induction fvs as [|fv fvs IH]; intros files w l HF L Hp Ha Hl Hl';
    inversion HF as [|v p ? files' Hv HF']; subst; cbn [main_loop].
  - exists l, w. cbn [map exec_for]. split; [reflexivity|]. split; [apply grows_refl|symmetry; apply app_nil_r].
  - destruct (src_parse_file dec disk salvage fault float_repr argv n disk_plain fault_plain w
      [fv; pv; VBool pp; VBool st; VBool sc] [] fv pv pp st sc p ps eq_refl L Hv Hp) as (w1 & E1 & G1 & O1).
    set (l1 := dict_set l "file" fv).
    assert (L1 : assoc "args" l1 = Some (VObj aid)) by (unfold l1; rewrite assoc_set; exact Hl).
    assert (L2 : assoc "file" l1 = Some fv) by (unfold l1; rewrite assoc_set; reflexivity).
    assert (L3 : assoc "parse_file" l1 = None) by (unfold l1; rewrite assoc_set; exact Hl').
    assert (Att : forall a v, assoc a argv = Some v -> get_attr globals F (VObj aid) a w = EOk v w).
    { intros a v Hav. cbn [get_attr]. rewrite Ha, Hav. reflexivity. }
    set (m := parse_file dec disk salvage fault float_repr p ps pp st sc) in *.
    assert (Eb : exec_block EX main_body l1 w =
      match m with Ok _ => TDone ONext l1 w1 | Raise e => TDone (OExc (xof e)) l1 w1 end).
    { clearbody l1; unfold main_body; cbn [nth fd_body r_main]. destruct m as [t|e]; cbn [file_result] in E1;
        [erewrite block_next; [rewrite block_nil; reflexivity|]|erewrite block_exc; [reflexivity|]];
        evx; rewrite ?L3; evx; rewrite (Att _ _ Ap); evx; rewrite (Att _ _ A1); evx; rewrite (Att _ _ A2); evx; rewrite (Att _ _ A3);
        evx; change "atoparser.reader" with RD; rewrite E1; evx; reflexivity. }
    cbn [map exec_for]. cbn [assign tseq]. fold l1. rewrite Eb.
    destruct m as [t|e] eqn:Em; cbn [file_events] in O1.
    + specialize (IH files' w1 l1 HF' (loaded_grows _ _ G1 L) (formats_grows _ _ _ _ G1 Hp) (obj_grows _ _ _ _ G1 Ha) L1 L3).
      destruct (main_loop dec disk salvage fault float_repr files' ps pp st sc) as [es e].
      destruct IH as (l' & w' & E & G & O). exists l', w'. cbn [tseq]. split; [exact E|].
      split; [eapply grows_trans; eassumption|]. rewrite O, O1, <- app_assoc. reflexivity.
    + exists l1, w1. split; [reflexivity|]. split; [exact G1|exact O1].
Qed.
End Main.

(** main() with the namespace that argparse returned: parse_file for one file after the other, until
    one of them raises. *)
Theorem C60_main n w files ps pp st sc : loaded w -> namespace w argv files ps pp st sc ->
  let '(es, e) := main_loop dec disk salvage fault float_repr files ps pp st sc in
  exists w', call (7 + n) "atoparser.reader" "main" [] [] w = main_result e w' /\
    grows w w' /\ w_out w' = w_out w ++ es.
Proof.
  intros L [(fid & fvs & Af & Cf & HF) (pv & Ap & Hp) A1 A2 A3].
  set (w1 := push (CObj argv) w). set (aid := next w).
  assert (G1 : grows w w1) by apply push_grows.
  pose proof (main_steps n fid fvs pv pp st sc ps aid Af Ap A1 A2 A3 files w1 [("args", VObj aid)] HF
    (loaded_grows _ _ G1 L) (formats_grows _ _ _ _ G1 Hp) (cell_push_new _ _) eq_refl eq_refl) as K.
  destruct (main_loop dec disk salvage fault float_repr files ps pp st sc) as [es e].
  destruct K as (l' & w' & E & G & O). exists w'.
  split; [|split; [eapply grows_trans; eassumption|exact O]].
  change (7 + n)%nat with (S (6 + n)).
  erewrite call_eq; [|reflexivity|reflexivity|reflexivity|reflexivity]. unfold run_body.
  change (fd_body r_main) with [nth 0 (fd_body r_main) SPass; SFor (TgName "file") (EAttr (EName "args") "files") main_body].
  erewrite block_next; cycle 1.
  { cbn [nth fd_body r_main]. ev. reflexivity. }
  set (EXn := exec dec disk salvage fault float_repr globals (CN (6 + n)) "atoparser.reader" None) in *.
  match goal with |- context [exec_block EXn _ ?l ?w] => change l with [("args", VObj aid)]; change w with w1 end.
  assert (Eb : EXn (SFor (TgName "file") (EAttr (EName "args") "files") main_body) [("args", VObj aid)] w1 =
     TDone (match e with None => ONext | Some x => OExc (xof x) end) l' w').
  { unfold EXn. change (6 + n)%nat with (S (S (S (S (S (S n)))))). change "atoparser.reader" with RD. rewrite <- E.
    apply (for_list dec disk salvage fault float_repr argv (S n) _ _ _ _ _ fid); [|apply cell_push, Cf].
    cbn [eval]. unfold name_value. cbn [assoc String.eqb Ascii.eqb Bool.eqb ebind ok_or_stuck get_attr].
    unfold w1, aid. rewrite cell_push_new, Af. reflexivity. }
  destruct e as [x|]; [erewrite block_exc by exact Eb; reflexivity|].
  erewrite block_next by exact Eb. reflexivity.
Qed.

(** With the command line [words] (Args.v models argparse): the same effects and the same end as the
    model of the whole command. *)
Theorem C60_command dg n w words o : loaded w -> parse_args dg words = Go o ->
  namespace w argv (op_files o) (match op_parseables o with Some l => map name_of l | None => [] end)
    (op_pretty o) (op_tstats o) (op_cstats o) ->
  let '(es, r) := Args.main dg dec disk salvage fault float_repr words in
  exists w', grows w w' /\ w_out w' = w_out w ++ es /\
    match r with
    | Finished => call (7 + n) "atoparser.reader" "main" [] [] w = EOk VNone w'
    | Crashed e => call (7 + n) "atoparser.reader" "main" [] [] w = EErr (xof e) w'
    | Exited _ => False
    end.
Proof.
  intros L E N. unfold Args.main. rewrite E. pose proof (C60_main n w _ _ _ _ _ L N) as K.
  destruct (main_loop dec disk salvage fault float_repr _ _ _ _ _) as [es [e|]];
    destruct K as (w' & K1 & K2 & K3); exists w'; auto.
Qed.

(** The source run on a well-formed log, of any version, plain or compressed: it prints the
    document that describes the log. *)
Theorem C60_prints_log n w fv pv path stored vs hb ss pp st sc :
  loaded w -> cps fv = Some path -> formats w pv [] ->
  disk path = Ok stored -> delivers path stored (log_bytes hb ss) -> wf_log dec vs hb ss ->
  exists c js t w', class_for vs c /\ Forall2 (full_entry c hb st sc) (at_most_default ss) js /\
    dumps float_repr pp 0 (JList js) = Some t /\
    call (6 + n) "atoparser.reader" "parse_file" [fv; pv; VBool pp; VBool st; VBool sc] [] w = EOk VNone w' /\
    w_out w' = w_out w ++ [Opened path; Printed t].
Proof.
  intros L Hf Hp Hd Hv Hw.
  destruct (C37_full_output dec disk salvage fault float_repr path stored vs hb ss pp st sc Hd Hv Hw) as (c & js & t & K1 & K2 & K3 & K4).
  destruct (C60_parse_file n w fv pv pp st sc path [] L Hf Hp) as (w' & E & _ & O). rewrite K4 in E, O.
  exists c, js, t, w'. auto.
Qed.
(** The source run on a log that ends anywhere after its header: the document describes the samples
    that are complete. *)
Theorem C60_prints_truncated_log n w fv pv path stored vs hb ss p q pp st sc :
  loaded w -> cps fv = Some path -> formats w pv [] ->
  disk path = Ok stored -> delivers path stored p -> wf_log dec vs hb ss -> log_bytes hb ss = p ++ q -> header_size <= zlen p ->
  exists c js t w', class_for vs c /\ Forall2 (full_entry c hb st sc) (at_most_default (complete (zlen p - header_size) ss)) js /\
    dumps float_repr pp 0 (JList js) = Some t /\
    call (6 + n) "atoparser.reader" "parse_file" [fv; pv; VBool pp; VBool st; VBool sc] [] w = EOk VNone w' /\
    w_out w' = w_out w ++ [Opened path; Printed t].
Proof.
  intros L Hf Hp Hd Hv Hw E Hz.
  destruct (C38_truncated_full dec disk salvage fault float_repr path stored vs hb ss p q pp st sc Hd Hv Hw E Hz) as (c & js & t & K1 & K2 & K3 & K4).
  destruct (C60_parse_file n w fv pv pp st sc path [] L Hf Hp) as (w' & E' & _ & O). rewrite K4 in E', O.
  exists c, js, t, w'. auto.
Qed.

(** With parseables on a 1.26 log: the rows of each sample; if a row cannot be made, the exception
    and nothing is printed. *)
Theorem C60_prints_rows n w fv pv path stored vs hb ss pp st sc k ps :
  loaded w -> cps fv = Some path -> formats w pv (k :: ps) -> Forall (fun k => In k parseable_names) (k :: ps) ->
  disk path = Ok stored -> delivers path stored (log_bytes hb ss) -> wf_log dec vs hb ss -> vs_name vs = "1.26" ->
  exists rows e w', log_rows hb (k :: ps) (at_most_default ss) rows e /\
    match e with
    | Some x => call (6 + n) "atoparser.reader" "parse_file" [fv; pv; VBool pp; VBool st; VBool sc] [] w = EErr (xof x) w' /\
                w_out w' = w_out w ++ [Opened path]
    | None => exists t, dumps float_repr pp 0 (JList rows) = Some t /\
                call (6 + n) "atoparser.reader" "parse_file" [fv; pv; VBool pp; VBool st; VBool sc] [] w = EOk VNone w' /\
                w_out w' = w_out w ++ [Opened path; Printed t]
    end.
Proof.
  intros L Hf Hp Hk Hd Hv Hw Hn.
  destruct (C37_parseable_output dec disk salvage fault float_repr path stored vs hb ss pp st sc k ps Hd Hv Hw Hn Hk) as (rows & e & R & K).
  destruct (C60_parse_file n w fv pv pp st sc path (k :: ps) L Hf Hp) as (w' & E & _ & O).
  exists rows, e, w'. split; [exact R|]. destruct e as [x|].
  - rewrite K in E, O. auto.
  - destruct K as (t & K1 & K2). rewrite K2 in E, O. exists t. auto.
Qed.

(** With parseables on a log of any other version: a document with one error entry. *)
Theorem C60_prints_error n w fv pv path stored vs hb ss pp st sc k ps :
  loaded w -> cps fv = Some path -> formats w pv (k :: ps) ->
  disk path = Ok stored -> delivers path stored (log_bytes hb ss) -> wf_log dec vs hb ss -> vs_name vs <> "1.26" ->
  let error := JDict [("error", SpecRows.str ("Atop version " ++ vs_name vs ++ " does not support parseables, only full raw output.")); ("file", JStr path)] in
  exists t w', dumps float_repr pp 0 (JList [error]) = Some t /\
    call (6 + n) "atoparser.reader" "parse_file" [fv; pv; VBool pp; VBool st; VBool sc] [] w = EOk VNone w' /\
    w_out w' = w_out w ++ [Opened path; Printed t].
Proof.
  intros L Hf Hp Hd Hv Hw Hn error. pose proof Hw as (Hvs & Ha & Hws). destruct (table_spec _ Hvs) as (c & Hc).
  assert (zlen hb = header_size) as Lh by apply Hw.
  destruct (default_run dec vs c hb (log_bytes hb ss) ss [] Hc Hw ltac:(rewrite app_nil_r; reflexivity)
    ltac:(unfold log_bytes; rewrite zlen_app; pose proof (zlen_nonneg (samples_bytes ss)); lia)) as (f1 & f2 & G & _).
  pose proof (proj1 (proj2 (proj2 Ha))) as [M1 M2].
  destruct (C36_unsupported_parseables dec disk salvage fault float_repr path k ps pp st sc _ _ _
    (C39_open disk salvage fault path stored (log_bytes hb ss) Hd Hv) G) as (_ & t & T1 & T2).
  { cbn [h_buf]. rewrite M1, M2. intros [X Y]. apply Hn. clear -Hvs X Y. cbn [spec_versions In] in Hvs.
    repeat (destruct Hvs as [<- | Hvs]; [try discriminate X; try discriminate Y; try reflexivity|]). destruct Hvs. }
  destruct (C60_parse_file n w fv pv pp st sc path (k :: ps) L Hf Hp) as (w' & E & _ & O). rewrite T2 in E, O.
  exists t, w'. split; [|auto]. revert T1. cbn [h_buf]. rewrite M1, M2.
  replace (dotted (vs_major vs) (vs_minor vs)) with (vs_name vs); [auto|].
  clear -Hvs. cbn [spec_versions In] in Hvs. repeat (destruct Hvs as [<- | Hvs]; [reflexivity|]). destruct Hvs.
Qed.
End Src.

(** ** Concrete cases *)

(** The loaded program, and the lists that argparse made. *)
Definition shell_world (files : list string) (ps : list string) : world :=
  mkW (heap0 ++ [CList (map VStr files); CList (map VStr ps)]) (plain []) [].
Definition shell_args (pp st sc : bool) : env :=
  [("files", VList 6); ("parseables", VList 7); ("pretty_print", VBool pp); ("show_tstats", VBool st); ("show_cstats", VBool sc)].

Example C60_hypotheses files ps pp st sc :
  loaded (shell_world files ps) /\ namespace (shell_world files ps) (shell_args pp st sc) (map text files) ps pp st sc.
Proof.
  split.
  - intros k c H. unfold shell_world, cell_at. cbn [w_heap]. rewrite nth_error_app1; [exact H|].
    apply nth_error_Some. rewrite H. discriminate.
  - split; try reflexivity.
    + exists 6%nat, (map VStr files). split; [reflexivity|]. split; [reflexivity|]. induction files; cbn [map]; constructor; auto.
    + exists (VList 7). split; [reflexivity|]. right. exists 7%nat. auto.
Qed.

(** main on two logs (a 1.26 one of two samples, a 2.11 one) and a third file which is not there.
    ([dec] stands for a decompressor that finds zeros in every block.) *)
Example C60_example_run salvage fault float_repr :
  let vs := mkVS "1.26" 1 26 80 88368 616 None in
  let z := zeros 88368 in
  let block := [x00; x01; x02] in
  let log1 := make_header vs ++ make_record vs 1000 3 3 0 0 0 0 ++ block ++ block ++ make_record vs 2000 3 3 0 0 0 0 ++ block ++ block in
  let log2 := make_header (mkVS "2.11" 2 11 96 1064016 968 (Some 432)) in
  let disk p := if arg_eqb p (text "one") then Ok log1 else if arg_eqb p (text "two") then Ok log2 else Raise (IOErr 2) in
  match f_call (call_n (fun _ => Some z) disk salvage fault float_repr (shell_args false false false) globals functions 7)
    "atoparser.reader" "main" [] [] (shell_world ["one"; "two"; "three"] ["PAG"]) with
  | EErr x w => x = XB (IOErr 2) /\
      w_out w = [Opened (text "one");
                 Printed (text ("[{""timestamp"": 1000, ""interval"": 10, ""page_size"": 4096, ""page_scans"": 0, ""alloc_stalls"": 0, " ++
                                """swapins"": 0, ""swapouts"": 0, ""parseable"": ""PAG""}, " ++
                                "{""timestamp"": 2000, ""interval"": 10, ""page_size"": 4096, ""page_scans"": 0, ""alloc_stalls"": 0, " ++
                                """swapins"": 0, ""swapouts"": 0, ""parseable"": ""PAG""}]"));
                 Opened (text "two");
                 Printed (text ("[{""error"": ""Atop version 2.11 does not support parseables, only full raw output."", ""file"": ""two""}]"));
                 Opened (text "three")]
  | EOk _ _ => False
  end.
Proof. vm_compute. split; reflexivity. Qed.
