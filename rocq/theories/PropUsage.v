(** * C68: the programs of README.md, from its text *)
From Coq Require Import List ZArith Lia Bool String.
From Coq Require Import Init.Byte.
From Coq Require Import QArith Qabs.
From Verif Require Import PyBase Utf8 CTypes S_shared S_1_26 S_2_11 Model Parsers Json Gzip Reader Messages Inflate.
From Verif Require Import Spec SpecDict SpecLog SpecReader SpecJson SpecFloat SpecFormat SpecFormatTables SpecDocument BaseProofs LayoutProofs RepProofs DictProofs TableProofs HeaderProofs GenProofs.
From Verif Require Import SpecRows PropHeader ParserProofs JsonProofs RunProofs LogBuild PropStruct PropLog PropFormat PropReader.
From Verif Require Import PyFloat PySyntax PyEval Source SourceReadme PyProgram PyGenerator SpecSource SrcBase SrcHeader SrcUtils SrcStat SrcDict SrcCgroup SrcGen SrcGen2.
From Verif Require Import SpecSource2 SpecSource3 SrcParse PropSource3 SrcReader SrcReader2 SrcReader3 SpecUsage UsageProofs SpecClient SrcClient PropClient SpecHand SrcHand PropHand.
Import ListNotations.
Local Open Scope string_scope.
Local Open Scope list_scope.
Local Open Scope Z_scope.

(** The statements after the first of the loop's body, and the programs as SpecClient.v has them. *)
Definition usage_rest : list stmt :=
  [SAssign (TgName "usage") (EBin OpSub (EInt 1) (EBin OpDiv itime_expr (EName "total_cycles")));
   SExpr (ECall (EName "print") [EFStr [EStr "CPU usage was "; EFormat (EName "usage") ".02%"]] [])].

(** README.md's text has exactly these two programs. *)
Theorem C68_readme_text : readme_1 = (["atoparser"], [readme_usage usage_rest]) /\ readme_2 = (["json"; "atoparser"], [readme_header]).
Proof. split; reflexivity. Qed.

(** Two lines that are both the line for the same numbers are equal, and there is one for all
    numbers that can occur. *)
Theorem C68_line_unique i t s s' : usage_text i t s -> usage_text i t s' -> s = s'.
Proof. apply usage_text_unique. Qed.
Theorem C68_line_exists : exists line, usage_lines_of line.
Proof. exists usage_line. exact usage_line_spec. Qed.

(** If the idle time is at most the total, the printed number is a plain decimal, right to half a
    hundredth of a percent (and 10^-13). *)
Theorem C68_accurate i t s : 0 < t < 2 ^ 112 -> 0 <= i <= t -> i < 2 ^ 63 -> usage_text i t s ->
  exists w x y, s = text "CPU usage was " ++ w ++ [46; x; y] ++ text "%" /\ forallb is_digit (w ++ [x; y]) = true /\
    (Qabs ((digits_value (w ++ [x; y]) # 100) - 100 * (1 - inject_Z i / inject_Z t)) <= (1 # 200) + (1 # 10000000000000))%Q.
Proof. apply usage_accurate. Qed.

(** More idle time for the same total never shows a larger usage (rounding keeps the order, also
    across the sign); the number that a line shows is determined by the line, and every line shows one. *)
Theorem C68_monotone i t i' t' s s' : usage_text i t s -> usage_text i' t' s' ->
  (inject_Z i / inject_Z t <= inject_Z i' / inject_Z t')%Q ->
  exists v v', shown_value s v /\ shown_value s' v' /\ (v' <= v)%Q.
Proof. apply usage_mono. Qed.
Theorem C68_shown_unique s v v' : shown_value s v -> shown_value s v' -> (v == v')%Q.
Proof. apply shown_unique. Qed.

Section Src.
Variable dec : list byte -> option (list byte).
Variable disk : list Z -> res (list byte).
Variable salvage : list byte -> list byte.
Variable fault : list byte -> exn.
Variable float_repr : Z -> list Z.
Variable argv : env.
Notation CN := (call_n dec disk salvage fault float_repr argv globals functions).
Notation EV n md := (eval dec disk salvage fault float_repr globals (CN (5 + n)) md).
Notation EX n md := (exec dec disk salvage fault float_repr globals (CN (5 + n)) md None).

(** The two statements print the line, or raise ZeroDivisionError. *)
Lemma usage_rest_prints n md line : foreign md -> usage_lines_of line ->
  prints_line (exec_block (EX n md) usage_rest) (EV n md) line zero_division.
Proof.
  intros Hf Hline l w i t R Ht Hi Hp. destruct (Z.eqb_spec t 0) as [-> | Nt].
  { exists l. split; [auto|]. unfold usage_rest. cbn [exec_block exec]. unfold itime_expr in *. cbn [eval] in Hi |- *.
    change (ebind (EOk (VInt 1) w) ?f) with (f (VInt 1) w). cbv beta. rewrite Hi. cbn [ebind]. unfold name_value at 1. rewrite Ht. cbn [ok_or_stuck ebind bin_val]. change (0 =? 0) with true. reflexivity. }
  pose proof (usage_line_only line i t Hline R Nt) as El.
  destruct (usage_defined i t R Nt) as (a & b & c & Ha & Hb & Hc).
  exists (dict_set l "usage" (VDouble b)). split.
  { intros x Hx. rewrite assoc_set. cbn [In] in Hx. repeat (destruct Hx as [<- | Hx]; [reflexivity|]). destruct Hx. }
  assert (E1 : EX n md (hd SPass usage_rest) l w = TDone ONext (dict_set l "usage" (VDouble b)) w).
  { cbn [hd usage_rest exec]. unfold itime_expr in *. cbn [eval] in Hi |- *.
    change (ebind (EOk (VInt 1) w) ?f) with (f (VInt 1) w). cbv beta. rewrite Hi. cbn [ebind]. unfold name_value at 1. rewrite Ht. cbn [ok_or_stuck ebind bin_val].
    destruct (Z.eqb_spec t 0) as [E|_]; [contradiction|]. rewrite Ha. cbn [option_map ok_or_stuck ebind bin_val]. rewrite Hb. reflexivity. }
  change usage_rest with (hd SPass usage_rest :: tl usage_rest). erewrite block_next by exact E1.
  cbn [tl usage_rest exec_block exec eval]. unfold name_value at 1. rewrite assoc_set, Hp. cbn [String.eqb Ascii.eqb Bool.eqb].
  rewrite (foreign_builtin md "print" Hf).
  cbn [builtin_value builtin_names existsb String.eqb Ascii.eqb Bool.eqb orb ok_or_stuck ebind eval_list eval eval_fstr].
  rewrite fmt_str, cat_ss. cbn [ebind]. unfold name_value at 1. rewrite assoc_set. cbn [String.eqb Ascii.eqb Bool.eqb ok_or_stuck ebind format_spec].
  unfold percent_2. rewrite Hc. cbn [option_map ok_or_stuck ebind format_val str_cat cps eval_kws call_value call_builtin with_val tseq exec_block].
  do 4 f_equal. rewrite El. unfold usage_line, percent_2. rewrite Ha, Hb, Hc. reflexivity.
Qed.

Lemma one_statement n md s l w o l' w' : EX n md s l w = TDone o l' w' -> exec_block (EX n md) [s] l w = TDone o l' w'.
Proof. intros H. cbn [exec_block]. rewrite H. cbn [tseq]. destruct o; reflexivity. Qed.

(** README.md's first program on any file whose header is accepted. *)
Theorem C68_program_any n md w fv path stored line h f1 : foreign md -> loaded w -> cps fv = Some path ->
  disk path = Ok stored -> usage_lines_of line -> get_header true (plain stored) = (Ok h, f1) ->
  exists ss e f', run dec (Some h) true 86400 f1 = (ss, Some e, f') /\
  let (es, z) := usage_lines line (h_buf h) (map sample_bytes_of ss) in
  exists l' w', exec_block (EX n md) (snd readme_1) (script_env fv) w =
      TDone (if z then OExc (XUser "ZeroDivisionError" (text "division by zero")) else loop_end e) l' w' /\
    w_out w' = w_out w ++ Opened path :: es.
Proof.
  intros Hf Lw Hp Hd Hl Hg. rewrite (proj1 C68_readme_text). cbn [snd].
  destruct (C66_readme_usage_any dec disk salvage fault float_repr argv n md w fv path stored usage_rest line zero_division h f1
    Hf Lw Hp Hd (usage_rest_prints n md line Hf Hl) Hg) as (ss & e & f' & R & K).
  exists ss, e, f'. split; [exact R|]. destruct (usage_lines line (h_buf h) (map sample_bytes_of ss)) as [es z].
  destruct K as (l' & w' & K & O). exists l', w'. split; [apply one_statement; exact K|exact O].
Qed.

(** On a log that ends anywhere after its header. *)
Theorem C68_program_truncated n md w fv path line vs hb ss p q : foreign md -> loaded w -> cps fv = Some path ->
  usage_lines_of line -> wf_log dec vs hb ss -> log_bytes hb ss = p ++ q -> header_size <= zlen p -> disk path = Ok p ->
  let cs := complete (zlen p - header_size) ss in
  let (es, z) := usage_lines line hb (map log_sample_bytes (at_most_default cs)) in
  exists tail l' w', p = hb ++ samples_bytes cs ++ tail /\
    exec_block (EX n md) (snd readme_1) (script_env fv) w =
      TDone (if z then OExc (XUser "ZeroDivisionError" (text "division by zero")) else
             if (zlen cs <? 86400) && negb (u32_at tail 16 =? 0) then OExc (XB ZlibError) else ONext) l' w' /\
    w_out w' = w_out w ++ Opened path :: es.
Proof.
  intros Hf Lw Hp Hl Hw E Hz Hd cs. rewrite (proj1 C68_readme_text). cbn [snd].
  pose proof (C66_readme_usage_truncated dec disk salvage fault float_repr argv n md w fv path usage_rest line zero_division vs hb ss p q
    Hf Lw Hp (usage_rest_prints n md line Hf Hl) Hw E Hz Hd) as K. cbv zeta in K. fold cs in K.
  destruct (usage_lines line hb (map log_sample_bytes (at_most_default cs))) as [es z].
  destruct K as (tl & l' & w' & Ep & K & O). exists tl, l', w'. split; [exact Ep|]. split; [apply one_statement; exact K|exact O].
Qed.

(** On a whole log. *)
Theorem C68_program n md w fv path line vs hb ss : foreign md -> loaded w -> cps fv = Some path ->
  usage_lines_of line -> wf_log dec vs hb ss -> disk path = Ok (log_bytes hb ss) ->
  let (es, z) := usage_lines line hb (map log_sample_bytes (at_most_default ss)) in
  exists l' w', exec_block (EX n md) (snd readme_1) (script_env fv) w =
      TDone (if z then OExc (XUser "ZeroDivisionError" (text "division by zero")) else ONext) l' w' /\
    w_out w' = w_out w ++ Opened path :: es.
Proof.
  intros Hf Lw Hp Hl Hw Hd. rewrite (proj1 C68_readme_text). cbn [snd].
  pose proof (C66_readme_usage dec disk salvage fault float_repr argv n md w fv path usage_rest line zero_division vs hb ss
    Hf Lw Hp (usage_rest_prints n md line Hf Hl) Hw Hd) as K.
  destruct (usage_lines line hb (map log_sample_bytes (at_most_default ss))) as [es z].
  destruct K as (l' & w' & K & O). exists l', w'. split; [apply one_statement; exact K|exact O].
Qed.

(** The program rewritten as a loop over get_record, get_sstat, get_tstat and get_cstat (SpecHand.v)
    prints the same and ends in the same way, on every file. *)
Theorem C68_by_hand n md w fv path stored : foreign md -> loaded w -> cps fv = Some path -> disk path = Ok stored ->
  exists o l1 w1 l2 w2,
    exec_block (EX n md) (snd readme_1) (script_env fv) w = TDone o l1 w1 /\
    EX n md (usage_by_hand (has_cgroups stored) usage_rest) (script_env fv) w = TDone o l2 w2 /\
    w_out w1 = w_out w2.
Proof.
  intros Hf Lw Hp Hd. rewrite (proj1 C68_readme_text). cbn [snd].
  destruct (C67_readme_by_hand dec disk salvage fault float_repr argv n md w fv path stored usage_rest usage_line zero_division
    Hf Lw Hp Hd (usage_rest_prints n md usage_line Hf usage_line_spec)) as (o & l1 & w1 & l2 & w2 & K & R).
  exists o, l1, w1, l2, w2. split; [apply one_statement; exact K|exact R].
Qed.
End Src.

(** ** Concrete cases: what CPython prints for these numbers *)

Example C68_example_lines :
  map (fun x => usage_line (fst x) (snd x)) [(0, 7); (1, 3); (5, 5); (1, 40000); (3, 2); (2 ^ 63 - 1, 1); (-1, 3)] =
  map text ["CPU usage was 100.00%"; "CPU usage was 66.67%"; "CPU usage was 0.00%"; "CPU usage was 100.00%"; "CPU usage was -50.00%";
            "CPU usage was -922337203685477580800.00%"; "CPU usage was 133.33%"].
Proof. vm_compute. reflexivity. Qed.

Example C68_example_text : usage_text 1 3 (text "CPU usage was 66.67%").
Proof. apply (usage_line_spec 1 3); [split; [split|]; [vm_compute; discriminate|reflexivity|reflexivity]|discriminate]. Qed.

Example C68_example_monotone : exists v v',
  shown_value (text "CPU usage was -50.00%") v /\ shown_value (text "CPU usage was 66.67%") v' /\ (v < v')%Q.
Proof.
  exists (- (5000 # 100))%Q, (6667 # 100)%Q. split; [|split; [|reflexivity]].
  - exists true, (text "50"), 48, 48. repeat split; try reflexivity; discriminate.
  - exists false, (text "66"), 54, 55. repeat split; try reflexivity; discriminate.
Qed.
