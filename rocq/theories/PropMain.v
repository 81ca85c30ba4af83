(** * C46: the whole command, from its arguments to its effects *)
From Coq Require Import List ZArith Lia Bool String.
From Coq Require Import Init.Byte.
From Verif Require Import PyBase CTypes Model Parsers Json Inflate Gzip Reader SpecReader Spec SpecLog SpecJson.
From Verif Require Import Args SpecArgs ArgsProofs LogBuild GzipExact PropReader PropArgs.
Import ListNotations.
Local Open Scope string_scope.
Local Open Scope list_scope.
Local Open Scope Z_scope.

Lemma name_of_text p : In p parseable_names -> name_of (text p) = p.
Proof.
  intros H. cbn [parseable_names In] in H.
  repeat (destruct H as [<- | H]; [vm_compute; reflexivity|]). destruct H.
Qed.

Lemma names_of_text ps : Forall (fun p => In p parseable_names) ps -> map name_of (map text ps) = ps.
Proof.
  induction 1 as [|p ps H F IH]; [reflexivity|]. cbn [map]. rewrite (name_of_text _ H), IH. reflexivity.
Qed.

(** Every option group leaves known names behind. *)
Definition known (s : settings) : Prop :=
  match want s with Some ps => Forall (fun p => In p parseable_names) ps | None => True end.
Lemma group_known o ws s s' : option_group o ws s s' -> known s -> known s'.
Proof.
  intros H K. destruct H; unfold known in *; cbn [want with_pretty with_tstats with_cstats with_want]; try exact K.
  - constructor; [assumption|constructor].
  - constructor; [assumption|constructor].
  - assumption.
Qed.
Lemma groups_known o ws s s' : option_groups o ws s s' -> known s -> known s'.
Proof.
  induction 1 as [s|o ws s s' H|o o' ws ws' s s' s'' H Hs IH N]; intros K; [exact K| |].
  - eapply group_known; eassumption.
  - apply IH. eapply group_known; eassumption.
Qed.

(** What was asked for: no -P is the empty list. *)
Definition wanted (s : settings) : list string := match want s with Some ps => ps | None => [] end.

Section Main.
Variable dg : Z -> bool.
Variable dec : list byte -> option (list byte).
Variable disk : list Z -> res (list byte).
Variable salvage : list byte -> list byte.
Variable fault : list byte -> exn.
Variable float_repr : Z -> list Z.
Let command := main dg dec disk salvage fault float_repr.
Let parse := parse_file dec disk salvage fault float_repr.

(** [parse_file] with the given settings. *)
Let show (s : settings) (path : list Z) := parse path (wanted s) (pretty s) (tstats s) (cstats s).

(** The command runs the files [files] with the settings [s] and ends in [out]. *)
Definition runs (files : list (list Z)) (s : settings) (out : list event * outcome) : Prop :=
  exists done texts rest,
    files = done ++ rest /\ Forall2 (fun p t => show s p = Ok t) done texts /\
    match rest with
    | [] => out = (effects done texts None, Finished)
    | p :: _ => exists e, show s p = Raise e /\ out = (effects done texts (Some p), Crashed e)
    end.

Lemma run_options files s argv : known s ->
  parse_args dg argv = Go (result files s) -> runs files s (command argv).
Proof.
  intros K E. unfold command, main. rewrite E. unfold result. cbn [op_files op_parseables op_pretty op_tstats op_cstats].
  assert (P : match option_map (map text) (want s) with Some l => map name_of l | None => [] end = wanted s).
  { unfold wanted, known in *. destruct (want s) as [ps|]; [|reflexivity]. cbn [option_map]. apply names_of_text. exact K. }
  rewrite P.
  destruct (C43_in_order_until_first_failure dec disk salvage fault float_repr files (wanted s) (pretty s) (tstats s) (cstats s))
    as (done & texts & rest & F & A & B).
  exists done, texts, rest. split; [exact F|]. split; [exact A|]. destruct rest as [|p rest].
  - rewrite B. reflexivity.
  - destruct B as (e & B1 & B2). exists e. split; [exact B1|]. rewrite B2. reflexivity.
Qed.

(** Options, files, options. *)
Theorem C46_usage before files after o s1 s2 :
  option_groups false before no_settings s1 ->
  files <> [] -> Forall ordinary files ->
  option_groups o after s1 s2 ->
  runs files s2 (command (before ++ files ++ after)).
Proof.
  intros B N F A. apply run_options; [|eapply C45_usage; eassumption].
  eapply groups_known; [exact A|]. eapply groups_known; [exact B|exact I].
Qed.

(** Options, "--", files. *)
Theorem C46_double_dash before files o s :
  option_groups o before no_settings s -> files <> [] ->
  runs files s (command (before ++ text "--" :: files)).
Proof.
  intros B N. apply run_options; [|eapply C45_double_dash; eassumption].
  eapply groups_known; [exact B|exact I].
Qed.

(** Every command line: an exit without any effect, or some files of the command line are run, with
    known parseables. *)
Theorem C46_every_command_line argv :
  command argv = ([], Exited 2) \/
  (command argv = ([], Exited 0) /\ exists w, In w argv /\ asks_help w) \/
  exists files s, files_of dg argv files /\ known s /\ want s <> Some [] /\ runs files s (command argv).
Proof.
  pose proof (C45_every_command_line dg argv) as H.
  destruct (parse_args dg argv) as [o|c] eqn:E.
  - right. right. destruct H as (H1 & H2). destruct o as [fs pa pr ts cs]. cbn [op_files op_parseables] in *.
    destruct H2 as [->|(ps & N & -> & F)].
    + exists fs, (mkSet None pr ts cs). split; [exact H1|]. split; [exact I|]. split; [discriminate|].
      apply run_options; [exact I|]. rewrite E. reflexivity.
    + exists fs, (mkSet (Some ps) pr ts cs). split; [exact H1|]. split; [exact F|]. split; [cbn; congruence|].
      apply run_options; [exact F|]. rewrite E. reflexivity.
  - destruct H as [->|(-> & H)]; [left|right; left].
    + unfold command, main. rewrite E. reflexivity.
    + split; [|exact H]. unfold command, main. rewrite E. reflexivity.
Qed.

Lemma effects_opened done texts failing p : In (Opened p) (effects done texts failing) ->
  In p done \/ failing = Some p.
Proof.
  unfold effects. intros H. apply in_app_or in H. destruct H as [H|H].
  - apply in_concat in H. destruct H as (l & H1 & H2). apply in_map_iff in H1. destruct H1 as ([q t] & <- & H1).
    left. destruct H2 as [H2|[H2|[]]]; [|discriminate H2]. injection H2 as ->. eapply in_combine_l. exact H1.
  - destruct failing as [q|]; [|destruct H]. destruct H as [H|[]]. injection H as ->. right. reflexivity.
Qed.

(** Only files named on the command line are opened. *)
Theorem C46_only_named_files_opened argv p : In (Opened p) (fst (command argv)) -> In p argv.
Proof.
  intros H. destruct (C46_every_command_line argv) as [E|[(E & _)|(files & s & F & _ & _ & R)]].
  - rewrite E in H. destruct H.
  - rewrite E in H. destruct H.
  - assert (I1 : In p files).
    { destruct R as (done & texts & rest & -> & _ & R). apply in_or_app. destruct rest as [|q rest].
      - rewrite R in H. apply effects_opened in H. destruct H as [H|H]; [left; exact H|discriminate H].
      - destruct R as (e & _ & R). rewrite R in H. apply effects_opened in H.
        destruct H as [H|H]; [left; exact H|]. injection H as ->. right. left. reflexivity. }
    destruct F as (_ & pre & post & [(-> & _)|(f1 & f2 & -> & -> & _)]).
    + apply in_or_app. right. apply in_or_app. left. exact I1.
    + apply in_or_app. right. apply in_app_or in I1. apply in_or_app.
      destruct I1 as [I1|I1]; [left; exact I1|right; right; exact I1].
Qed.

(** How the command can crash: a file that cannot be opened, a compressed file that is damaged, a
    malformed log, or a name that is not UTF-8. *)
Theorem C46_crashes argv e : snd (command argv) = Crashed e ->
  exists path, In path argv /\
   ((disk path = Raise e) \/
    (exists stored, disk path = Ok stored /\ gz_path path /\ forall data, ~ delivers path stored data) \/
    (exists v, e = ValueError v) \/ e = AttributeError "pstatlen" \/ e = UnicodeDecodeError).
Proof.
  intros H. destruct (C46_every_command_line argv) as [E|[(E & _)|(files & s & F & K & _ & R)]].
  - rewrite E in H. discriminate H.
  - rewrite E in H. discriminate H.
  - destruct R as (done & texts & rest & Ef & _ & R). destruct rest as [|p rest]; [rewrite R in H; discriminate H|].
    destruct R as (e' & R1 & R2). rewrite R2 in H. injection H as ->. exists p. split.
    { apply (C46_only_named_files_opened argv). rewrite R2. cbn [fst]. unfold effects. apply in_or_app. right. left. reflexivity. }
    destruct (disk p) as [stored|x] eqn:D.
    + destruct (uses_gzip p) eqn:G.
      * destruct (gunzip stored) as [data|] eqn:U.
        -- assert (V : delivers p stored data).
           { left. split; [apply (C39_gzip_iff_gz_in_path p); exact G|apply gunzip_exact, U]. }
           destruct (C38_parseable_exceptions dec disk salvage fault float_repr p stored data (pretty s) (tstats s) (cstats s) (wanted s) e)
             as [X|[X|(X & _)]]; auto.
           unfold wanted, known in *. destruct (want s); [exact K|constructor].
        -- right. left. exists stored. split; [reflexivity|].
           assert (Gz : gz_path p) by (apply (C39_gzip_iff_gz_in_path p); exact G).
           split; [exact Gz|]. intros data [[_ V]|[V _]]; [apply gunzip_exact in V; rewrite U in V; discriminate V|contradiction].
      * assert (V : delivers p stored stored).
        { right. split; [|reflexivity]. intros X. apply (C39_gzip_iff_gz_in_path p) in X. rewrite X in G. discriminate G. }
        destruct (C38_parseable_exceptions dec disk salvage fault float_repr p stored stored (pretty s) (tstats s) (cstats s) (wanted s) e)
          as [X|[X|(X & _)]]; auto.
        unfold wanted, known in *. destruct (want s); [exact K|constructor].
    + left. pose proof (proj1 (C38_open_and_header_errors dec disk salvage fault float_repr p (wanted s) (pretty s) (tstats s) (cstats s)) x D) as X.
      unfold show, parse in R1. rewrite X in R1. congruence.
Qed.
End Main.

(** ** Examples: the hypotheses are met *)

(** For every version there is a log with any number of samples that is printed twice when it is
    named twice, once stored plainly and once compressed. *)
Example C46_example dg vs n salvage fault float_repr : In vs spec_versions ->
  exists hb ss t, wf_log zdecompress vs hb ss /\ zlen ss = Z.of_nat n /\
    main dg zdecompress (example_disk (log_bytes hb ss)) salvage fault float_repr
         [log_name; gz_name; text "--pretty"; text "--tstats"] =
      ([Opened log_name; Printed t; Opened gz_name; Printed t], Finished).
Proof.
  intros Hvs. destruct (C37_example vs n true true false salvage fault float_repr Hvs) as (hb & ss & t & Hw & L & P1 & P2).
  exists hb, ss, t. split; [exact Hw|]. split; [exact L|].
  pose proof (C46_usage dg zdecompress (example_disk (log_bytes hb ss)) salvage fault float_repr
    [] [log_name; gz_name] [text "--pretty"; text "--tstats"] false no_settings (with_tstats (with_pretty no_settings))) as U.
  destruct U as (done & texts & rest & E & F & R).
  - constructor.
  - discriminate.
  - constructor; [left; discriminate|]. constructor; [left; discriminate|constructor].
  - apply (ogs_more false false [text "--pretty"] [text "--tstats"] _ (with_pretty no_settings)).
    + constructor. right. exists 8%nat. split; [cbn; lia|reflexivity].
    + apply ogs_last. constructor. exists 8%nat. split; [lia|reflexivity].
    + discriminate.
  - assert (G : forall p, In p [log_name; gz_name] ->
      parse_file zdecompress (example_disk (log_bytes hb ss)) salvage fault float_repr p [] true true false = Ok t).
    { intros p [<-|[<-|[]]]; assumption. }
    cbn [wanted want with_tstats with_pretty no_settings pretty tstats cstats] in F, R.
    destruct rest as [|q rest].
    + rewrite app_nil_r in E. subst done. inversion F as [|? t1 ? l1 A1 F1]; subst. inversion F1 as [|? t2 ? l2 A2 F2]; subst.
      inversion F2; subst. rewrite G in A1 by (left; reflexivity). rewrite G in A2 by (right; left; reflexivity).
      injection A1 as <-. injection A2 as <-. exact R.
    + exfalso. destruct R as (e & R & _). rewrite G in R; [discriminate R|]. rewrite E. apply in_or_app. right. left. reflexivity.
Qed.
