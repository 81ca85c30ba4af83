(** * C45: the command line *)
From Coq Require Import List ZArith Lia Bool String.
From Coq Require Import Init.Byte.
From Verif Require Import PyBase Model Parsers Json Reader SpecReader Args SpecArgs ArgsProofs.
Import ListNotations.
Local Open Scope string_scope.
Local Open Scope list_scope.
Local Open Scope Z_scope.

Section Digits.
Variable dg : Z -> bool.

(** The options that a list of settings and files amounts to. *)
Definition result (files : list arg) (s : settings) : options :=
  mkOpt files (option_map (map text) (want s)) (pretty s) (tstats s) (cstats s).

Lemma parse_args_classified argv l : classify dg argv = Some l ->
  parse_args dg argv =
  match go l ns0 with
  | Exit c => Exit c
  | Go n => match ns_files n, ns_extras n with
            | Some fs, [] => Go (mkOpt fs (ns_parseables n) (ns_pretty n) (ns_tstats n) (ns_cstats n))
            | _, _ => Exit 2
            end
  end.
Proof. intros H. unfold parse_args. rewrite H. reflexivity. Qed.

Lemma ns0_of : ns0 = ns_of None no_settings [].
Proof. reflexivity. Qed.

Lemma remove_none ws : Forall ordinary ws -> remove_dashes ws = ws.
Proof.
  induction 1 as [|w ws H F IH]; cbn [remove_dashes]; [reflexivity|].
  destruct (arg_eqb w (text "--")) eqn:E; [|rewrite IH; reflexivity].
  apply arg_eqb_eq in E. apply (ordinary_word dg) in H. destruct H as [H _]. contradiction.
Qed.

Lemma plain_entries ws : Forall (fun x : arg * word => is_option (snd x) = false) (map (fun w => (w, WArg)) ws).
Proof. apply Forall_forall. intros x H. apply in_map_iff in H. destruct H as (w & <- & _). reflexivity. Qed.

Lemma fst_entries (ws : list arg) : map fst (map (fun w => (w, WArg)) ws) = ws.
Proof. rewrite map_map. apply map_id. Qed.

Lemma go_files files q s x : files <> [] -> Forall ordinary files -> starts_option q ->
  go (map (fun w => (w, WArg)) files ++ q) (ns_of None s x) = go q (ns_of (Some files) s x).
Proof.
  intros N F S. rewrite go_plain; [|destruct files; [congruence|discriminate]|apply plain_entries|exact S].
  cbn [ns_of ns_files]. rewrite fst_entries, (remove_none _ F).
  destruct files as [|f files]; [congruence|]. reflexivity.
Qed.

Lemma go_more_files files q fs s x : files <> [] -> Forall ordinary files -> starts_option q ->
  go (map (fun w => (w, WArg)) files ++ q) (ns_of (Some fs) s x) = go q (ns_of (Some fs) s (x ++ files)).
Proof.
  intros N F S. rewrite go_plain; [|destruct files; [congruence|discriminate]|apply plain_entries|exact S].
  cbn [ns_of ns_files]. rewrite fst_entries. reflexivity.
Qed.

(** Options, then the files, then options: everything is understood. *)
Theorem C45_usage before files after o s1 s2 :
  option_groups false before no_settings s1 ->
  files <> [] -> Forall ordinary files ->
  option_groups o after s1 s2 ->
  parse_args dg (before ++ files ++ after) = Go (result files s2).
Proof.
  intros B N F A.
  destruct (groups_go dg _ _ _ _ B) as (lb & _ & _ & Cb & Gb).
  destruct (groups_go dg _ _ _ _ A) as (la & _ & Sa & Ca & Ga).
  assert (Ca' : classify dg after = Some la).
  { specialize (Ca []). rewrite app_nil_r in Ca. rewrite Ca. simpl. rewrite app_nil_r. reflexivity. }
  rewrite (parse_args_classified _ (lb ++ map (fun w => (w, WArg)) files ++ la)).
  2:{ rewrite Cb, (classify_ordinary dg files F), Ca'. reflexivity. }
  rewrite ns0_of, Gb by discriminate.
  rewrite (go_files files la s1 [] N F Sa).
  specialize (Ga (Some files) [] []). rewrite app_nil_r in Ga. rewrite Ga by (intros _; exact I).
  rewrite go_nil. reflexivity.
Qed.

Lemma classify_dashes ws : classify dg (text "--" :: ws) =
  Some ((text "--", WDashes) :: map (fun w => (w, WArg)) ws).
Proof. reflexivity. Qed.

(** After "--" every word is a file, whatever it looks like. *)
Theorem C45_double_dash before files o s :
  option_groups o before no_settings s -> files <> [] ->
  parse_args dg (before ++ text "--" :: files) = Go (result files s).
Proof.
  intros B N. destruct (groups_go dg _ _ _ _ B) as (lb & _ & _ & Cb & Gb).
  rewrite (parse_args_classified _ (lb ++ (text "--", WDashes) :: map (fun w => (w, WArg)) files)).
  2:{ rewrite Cb, classify_dashes. reflexivity. }
  rewrite ns0_of, Gb by (intros _; exact I).
  rewrite <- (app_nil_r ((text "--", WDashes) :: _)).
  rewrite go_plain; [|discriminate|constructor; [reflexivity|apply plain_entries]|exact I].
  cbn [ns_of ns_files map fst snd existsb orb remove_dashes].
  rewrite arg_eqb_refl, fst_entries.
  destruct files as [|f files]; [congruence|]. cbn [map existsb snd orb].
  rewrite go_nil. reflexivity.
Qed.

(** Files on both sides of an option are rejected. *)
Theorem C45_split_files_rejected before files1 middle files2 after o s1 s2 s3 :
  option_groups false before no_settings s1 ->
  files1 <> [] -> Forall ordinary files1 ->
  option_groups false middle s1 s2 -> middle <> [] ->
  files2 <> [] -> Forall ordinary files2 ->
  option_groups o after s2 s3 ->
  parse_args dg (before ++ files1 ++ middle ++ files2 ++ after) = Exit 2.
Proof.
  intros B N1 F1 Mi NM N2 F2 A.
  destruct (groups_go dg _ _ _ _ B) as (lb & _ & _ & Cb & Gb).
  destruct (groups_go dg _ _ _ _ Mi) as (lm & Mm & Sm & Cm & Gm).
  destruct (groups_go dg _ _ _ _ A) as (la & _ & Sa & Ca & Ga).
  assert (Ca' : classify dg after = Some la).
  { specialize (Ca []). rewrite app_nil_r in Ca. rewrite Ca. simpl. rewrite app_nil_r. reflexivity. }
  rewrite (parse_args_classified _ (lb ++ map (fun w => (w, WArg)) files1 ++ lm ++
                                       map (fun w => (w, WArg)) files2 ++ la)).
  2:{ rewrite Cb, (classify_ordinary dg files1 F1), Cm, (classify_ordinary dg files2 F2), Ca'. reflexivity. }
  rewrite ns0_of, Gb by discriminate.
  rewrite (go_files files1); [|exact N1|exact F1|].
  2:{ destruct lm as [|[a w] lm]; [simpl in Mm; congruence|exact Sm]. }
  rewrite Gm by discriminate.
  rewrite go_more_files; [|exact N2|exact F2|exact Sa].
  specialize (Ga (Some files1) files2 []). rewrite app_nil_r in Ga.
  match goal with |- context [go la ?n] => change n with (ns_of (Some files1) s2 files2) end.
  rewrite Ga by (intros _; exact I).
  rewrite go_nil. cbn [ns_of ns_files ns_extras app]. destruct files2; [congruence|reflexivity].
Qed.

(** Options have the same form whatever was set before. *)
Lemma groups_anywhere o ws s s' : option_groups o ws s s' -> forall t, exists t', option_groups o ws t t'.
Proof.
  assert (G : forall o ws s s', option_group o ws s s' -> forall t, exists t', option_group o ws t t').
  { intros o0 ws0 s0 s1 H t. destruct H; eexists; econstructor; eassumption. }
  induction 1 as [s|o ws s s' H|o o' ws ws' s s' s'' H Hs IH N]; intros t.
  - exists t. constructor.
  - destruct (G _ _ _ _ H t) as (t' & H'). exists t'. apply ogs_last. exact H'.
  - destruct (G _ _ _ _ H t) as (t' & H'). destruct (IH t') as (t'' & H''). exists t''.
    eapply ogs_more; eassumption.
Qed.

(** Words directly after "-P" belong to it: they never become files. *)
Theorem C45_parseables_take_following_words before w words after o o' s1 s2 s3 :
  option_groups o before no_settings s1 ->
  spells_parseables w -> Forall ordinary words ->
  option_groups o' after s2 s3 ->
  parse_args dg (before ++ w :: words ++ after) = Exit 2.
Proof.
  intros B W F A.
  destruct (groups_go dg _ _ _ _ B) as (lb & _ & _ & Cb & Gb).
  destruct (groups_go dg _ _ _ _ A) as (la & _ & Sa & Ca & Ga).
  assert (Ca' : classify dg after = Some la).
  { specialize (Ca []). rewrite app_nil_r in Ca. rewrite Ca. simpl. rewrite app_nil_r. reflexivity. }
  destruct (spells_parseables_ok dg w W) as (D & P).
  set (t := mkO (Some AParseables) (is_short w) false None) in *.
  rewrite (parse_args_classified _ (lb ++ (w, WOption t) :: map (fun w => (w, WArg)) words ++ la)).
  2:{ rewrite Cb. change (w :: words ++ after) with ([w] ++ words ++ after).
      rewrite (classify_app dg [w] [(w, WOption t)]).
      - rewrite (classify_ordinary dg words F), Ca'. reflexivity.
      - constructor; [exact D|constructor].
      - constructor; [split; [reflexivity|exact P]|constructor]. }
  rewrite ns0_of, Gb by (intros _; exact I).
  rewrite go_option. unfold consume_optional. cbn [t o_act o_explicit]. unfold open_args.
  rewrite leading_args_app.
  2:{ destruct la as [|[a v] la]; [exact I|]. simpl in Sa. destruct v; try discriminate Sa. exact I. }
  destruct words as [|v words]; [reflexivity|].
  cbn [take].
  match goal with |- context [forallb ?f (v :: words)] => destruct (forallb f (v :: words)) eqn:E end; [|reflexivity].
  assert (X : exists ps, v :: words = map text ps).
  { revert E. generalize (v :: words). clear. intros l. induction l as [|v l IH]; intros E.
    - exists []. reflexivity.
    - cbn [forallb] in E. apply andb_true_iff in E. destruct E as [E1 E2]. destruct (IH E2) as (ps & ->).
      apply existsb_exists in E1. destruct E1 as (p & _ & Ep). apply arg_eqb_eq in Ep.
      exists (p :: ps). simpl. congruence. }
  destruct X as (ps & X).
  rewrite X.
  assert (Y : exists t1, go la (ns_of None (with_want ps s1) []) = Go (ns_of None t1 [])).
  { destruct (groups_anywhere _ _ _ _ A (with_want ps s1)) as (t0 & A').
    destruct (groups_go dg _ _ _ _ A') as (la' & _ & _ & Ca2 & Ga').
    assert (E' : la' = la).
    { specialize (Ca2 []). rewrite app_nil_r in Ca2. simpl in Ca2. rewrite app_nil_r in Ca2. congruence. }
    subst la'. exists t0. specialize (Ga' None [] []). rewrite app_nil_r in Ga'.
    rewrite Ga' by (intros _; exact I). apply go_nil. }
  destruct Y as (t' & Y).
  match goal with |- context [go la ?n] => change n with (ns_of None (with_want ps s1) []) end.
  rewrite Y. reflexivity.
Qed.

(** ** Every command line *)

Notation file_word := (SpecArgs.file_word dg).
Notation files_of := (SpecArgs.files_of dg).

Lemma contains_one c l : contains [c] l = true -> In c l.
Proof.
  induction l as [|x l IH]; simpl; [discriminate|].
  destruct (c =? x) eqn:E; simpl; [apply Z.eqb_eq in E; left; congruence|]. auto.
Qed.

Lemma all_digits_Forall a : all_digits dg a = true -> Forall (fun c => dg c = true) a.
Proof.
  unfold all_digits. destruct a as [|c a]; [discriminate|]. intros H.
  rewrite Forall_forall. intros x Hx. rewrite forallb_forall in H. apply H. exact Hx.
Qed.

Lemma skip_digits_Forall a s : skip_digits dg a = s ->
  exists p, a = p ++ s /\ Forall (fun c => dg c = true) p.
Proof.
  revert s. induction a as [|c a IH]; simpl; intros s H.
  - subst. exists []. auto.
  - destruct (dg c) eqn:E.
    + destruct (IH _ H) as (p & -> & F). exists (c :: p). auto.
    + subst. exists []. auto.
Qed.

Lemma negative_number_word w : negative_number dg w = true ->
  exists r, w = 45 :: r /\ Forall (fun c => dg c = true \/ c = 46 \/ c = 10) r.
Proof.
  assert (M : forall s, all_digits dg s ||
      (match skip_digits dg s with 46 :: s' => all_digits dg s' | _ => false end) = true ->
      Forall (fun c => dg c = true \/ c = 46 \/ c = 10) s).
  { intros s H. apply orb_true_iff in H. destruct H as [H|H].
    - apply all_digits_Forall in H. eapply Forall_impl; [|exact H]. auto.
    - destruct (skip_digits dg s) as [|c q] eqn:E; [discriminate H|].
      destruct (Z.eq_dec c 46) as [->|C].
      2:{ exfalso. destruct c as [|c|c]; try discriminate H.
          do 6 (destruct c as [c|c|]; try discriminate H); contradiction. }
      apply all_digits_Forall in H. destruct (skip_digits_Forall _ _ E) as (p & -> & F).
      apply Forall_app. split; [eapply Forall_impl; [|exact F]; auto|].
      constructor; [auto|]. eapply Forall_impl; [|exact H]. auto. }
  unfold negative_number. destruct w as [|c r]; [discriminate|].
  destruct (Z.eq_dec c 45) as [->|C].
  2:{ intros H. exfalso. destruct c as [|c|c]; try discriminate H.
      do 6 (destruct c as [c|c|]; try discriminate H); contradiction. }
  intros H. exists r. split; [reflexivity|]. apply orb_true_iff in H. destruct H as [H|H]; [exact (M _ H)|].
  apply M in H. unfold chop_newline in H.
  destruct (rev r) as [|c q] eqn:E; [exact H|].
  destruct (Z.eq_dec c 10) as [->|C].
  - rewrite <- (rev_involutive r), E. simpl. apply Forall_app. split; [exact H|]. constructor; auto.
  - destruct c as [|c|c]; try exact H. do 4 (destruct c as [c|c|]; try exact H). contradiction.
Qed.

Lemma parse_optional_arg w : parse_optional dg w = Some WArg -> file_word w.
Proof.
  destruct w as [|c r]; [left; exact I|]. cbn [parse_optional].
  destruct (c =? 45) eqn:C; cbn [negb]; [|intros _; left; left; apply Z.eqb_neq; exact C].
  apply Z.eqb_eq in C. subst c.
  destruct (find_option (45 :: r) option_strings); [discriminate|].
  destruct r as [|d r]; [intros _; left; right; reflexivity|].
  destruct (match partition_eq _ with (p, Some e) => _ | (_, None) => None end); [discriminate|].
  destruct (option_tuples (45 :: d :: r)) as [|t [|t' l]]; try discriminate.
  destruct (negative_number dg (45 :: d :: r)) eqn:N.
  - intros _. right. right. apply negative_number_word. exact N.
  - destruct (contains [32] (45 :: d :: r)) eqn:X; [|discriminate].
    intros _. right. left. apply contains_one. exact X.
Qed.

Lemma parse_optional_not_dashes w : parse_optional dg w <> Some WDashes.
Proof.
  destruct w as [|c r]; [discriminate|]. cbn [parse_optional].
  destruct (negb (c =? 45)); [discriminate|].
  destruct (find_option (c :: r) option_strings); [discriminate|].
  destruct r as [|d r]; [discriminate|].
  destruct (match partition_eq _ with (p, Some e) => _ | (_, None) => None end); [discriminate|].
  destruct (option_tuples _) as [|t [|t' l]]; try discriminate.
  destruct (negative_number dg _); [discriminate|]. destruct (contains [32] _); discriminate.
Qed.

(** The shape of a classified command line, or of what is left of it. *)
Definition undashed (x : list Z * word) : Prop :=
  fst x <> text "--" /\
  match snd x with WArg => file_word (fst x) | WDashes => False | WOption _ => True end.
Definition classified (l : list (list Z * word)) : Prop :=
  exists a b, l = a ++ b /\ Forall undashed a /\
  (b = [] \/ exists ws, b = (text "--", WDashes) :: map (fun w => (w, WArg)) ws).

Lemma classify_classified argv l : classify dg argv = Some l -> map fst l = argv /\ classified l.
Proof.
  revert l. induction argv as [|w argv IH]; intros l H; cbn [classify] in H.
  - injection H as <-. split; [reflexivity|]. exists [], []. auto.
  - destruct (arg_eqb w (text "--")) eqn:E.
    + apply arg_eqb_eq in E. subst w. injection H as <-. split.
      * cbn [map fst]. rewrite fst_entries. reflexivity.
      * exists [], ((text "--", WDashes) :: map (fun w => (w, WArg)) argv). eauto.
    + destruct (parse_optional dg w) as [x|] eqn:P; [|discriminate H].
      destruct (classify dg argv) as [q|]; [|discriminate H]. injection H as <-.
      destruct (IH q eq_refl) as (M & a & b & -> & Fa & Fb). split; [cbn [map fst]; congruence|].
      exists ((w, x) :: a), b. split; [reflexivity|]. split; [|exact Fb].
      constructor; [|exact Fa]. split; cbn [fst snd].
      * intros ->. rewrite arg_eqb_refl in E. discriminate E.
      * destruct x; [apply parse_optional_arg; exact P|apply (parse_optional_not_dashes w P)|exact I].
Qed.

(** The tail of a command line from the next option on. *)
Lemma classified_before l p q : classified l -> before_option l = (p, q) ->
  l = p ++ q /\ classified q /\
  ((Forall (fun x => undashed x /\ snd x = WArg) p) \/
   (q = [] /\ exists f1 f2, p = f1 ++ (text "--", WDashes) :: map (fun w => (w, WArg)) f2 /\
     Forall (fun x => undashed x /\ snd x = WArg) f1)).
Proof.
  intros (a & b & -> & Fa & Fb) H.
  pose proof (before_option_split (a ++ b)) as S. rewrite H in S. cbn [fst snd] in S.
  split; [exact S|]. clear S. revert p q H. induction Fa as [|[w x] a [Hx1 Hx2] Fa IH]; intros p q H.
  - cbn [app] in H. destruct Fb as [->|(ws & ->)].
    + injection H as <- <-. split; [exists [], []; auto|]. left. constructor.
    + assert (E : before_option ((text "--", WDashes) :: map (fun w => (w, WArg)) ws) =
                  ((text "--", WDashes) :: map (fun w => (w, WArg)) ws, [])).
      { rewrite <- (app_nil_r ((text "--", WDashes) :: _)) at 1.
        apply before_option_args; [|exact I]. constructor; [reflexivity|apply plain_entries]. }
      rewrite E in H. injection H as <- <-. split; [exists [], []; auto|].
      right. split; [reflexivity|]. exists [], ws. split; [reflexivity|constructor].
  - cbn [app before_option] in H. cbn [fst snd] in *. destruct x as [| |t]; cbn [is_option] in H.
    + destruct (before_option (a ++ b)) as [p' q'] eqn:E. injection H as <- <-.
      destruct (IH p' q' eq_refl) as (C & D). split; [exact C|]. destruct D as [D|(-> & f1 & f2 & -> & F)].
      * left. constructor; [|exact D]. split; [split; assumption|reflexivity].
      * right. split; [reflexivity|]. exists ((w, WArg) :: f1), f2. split; [reflexivity|].
        constructor; [|exact F]. split; [split; assumption|reflexivity].
    + destruct Hx2.
    + injection H as <- <-. split; [|left; constructor].
      exists ((w, WOption t) :: a), b. split; [reflexivity|]. split; [|exact Fb].
      constructor; [split; assumption|exact Fa].
Qed.

Lemma classified_tail x l : classified (x :: l) -> (snd x = WDashes -> False) -> classified l.
Proof.
  intros (a & b & E & Fa & Fb) N. destruct a as [|y a].
  - destruct Fb as [->|(ws & ->)]; [discriminate E|]. injection E as -> ->. exfalso. apply N. reflexivity.
  - injection E as -> ->. inversion Fa; subst. exists a, b. auto.
Qed.

Lemma classified_leading l vs q : classified l -> leading_args l = (vs, q) ->
  l = map (fun w => (w, WArg)) vs ++ q /\ classified q.
Proof.
  revert vs q. induction l as [|[a x] l IH]; intros vs q C H.
  - injection H as <- <-. split; [reflexivity|exact C].
  - cbn [leading_args] in H. destruct x as [| |t].
    + destruct (leading_args l) as [vs' q'] eqn:E. injection H as <- <-.
      destruct (IH vs' q') as (-> & D); [|reflexivity|split; [reflexivity|exact D]].
      apply (classified_tail _ _ C). discriminate.
    + injection H as <- <-. split; [reflexivity|exact C].
    + injection H as <- <-. split; [reflexivity|exact C].
Qed.

(** What is known of the namespace at any time: [argv] is the whole command line, [l] what is left
    of it. *)
Definition ns_good (argv : list (list Z)) (n : ns) : Prop :=
  (forall fs, ns_files n = Some fs -> files_of argv fs) /\
  (forall vs, ns_parseables n = Some vs ->
     exists ps, ps <> [] /\ vs = map text ps /\ Forall (fun p => In p parseable_names) ps).

Lemma choices_names vs : vs <> [] ->
  forallb (fun v => existsb (fun p => arg_eqb v (text p)) PARSEABLES) vs = true ->
  exists ps, ps <> [] /\ vs = map text ps /\ Forall (fun p => In p parseable_names) ps.
Proof.
  intros N H.
  assert (G : exists ps, vs = map text ps /\ Forall (fun p => In p parseable_names) ps).
  { clear N. induction vs as [|v vs IH]; [exists []; auto|]. cbn [forallb] in H.
    apply andb_true_iff in H. destruct H as [H1 H2]. destruct (IH H2) as (ps & -> & F).
    apply existsb_exists in H1. destruct H1 as (p & Hp & Ep). apply arg_eqb_eq in Ep.
    exists (p :: ps). split; [simpl; congruence|]. constructor; [exact Hp|exact F]. }
  destruct G as (ps & E & F). exists ps. split; [|auto]. intros ->. apply N. exact E.
Qed.

Lemma take_good argv x vs n : ns_good argv n -> (x = AParseables -> vs <> []) ->
  match take x vs n with Go n' => ns_good argv n' | Exit c => c = 2 \/ (c = 0 /\ x = AHelp) end.
Proof.
  intros (G1 & G2) N. destruct x; cbn [take].
  - right. auto.
  - match goal with |- context [forallb ?f vs] => destruct (forallb f vs) eqn:E end; [|left; reflexivity].
    split; cbn; [exact G1|]. intros vs' [= <-]. apply choices_names; [apply N; reflexivity|exact E].
  - split; cbn; assumption.
  - split; cbn; assumption.
  - split; cbn; assumption.
Qed.

Lemma take_all_good argv l n : ns_good argv n -> Forall (fun p => fst p = AParseables -> snd p <> []) l ->
  match take_all l n with
  | Go n' => ns_good argv n'
  | Exit c => c = 2 \/ (c = 0 /\ In AHelp (map fst l))
  end.
Proof.
  revert n. induction l as [|[x vs] l IH]; intros n G F; cbn [take_all]; [exact G|].
  inversion F as [|? ? F1 F2]; subst. cbn [fst snd] in F1.
  pose proof (take_good argv x vs n G F1) as T. destruct (take x vs n) as [n'|c].
  - specialize (IH n' T F2). destruct (take_all l n'); [exact IH|].
    destruct IH as [IH|(IH1 & IH2)]; [left; exact IH|right; split; [exact IH1|right; exact IH2]].
  - destruct T as [T|(T1 & ->)]; [left; exact T|right; split; [exact T1|left; reflexivity]].
Qed.

(** What the tuple of an option word says about the word. *)
Definition option_word (w : list Z) (t : otuple) : Prop :=
  exists r, w = 45 :: r /\ (o_act t = Some AHelp -> In 104 r) /\
  (forall e, o_explicit t = Some e -> incl e r).

Lemma partition_eq_split a p q : partition_eq a = (p, q) ->
  a = p ++ match q with Some e => 61 :: e | None => [] end.
Proof.
  revert p q. induction a as [|c a IH]; intros p q H; cbn [partition_eq] in H.
  - injection H as <- <-. reflexivity.
  - destruct (c =? 61) eqn:C.
    + apply Z.eqb_eq in C. injection H as <- <-. subst. reflexivity.
    + destruct (partition_eq a) as [p' q'] eqn:E. injection H as <- <-.
      cbn [app]. f_equal. apply IH. reflexivity.
Qed.

Lemma starts_with_split p l : starts_with p l = true -> exists r, l = p ++ r.
Proof.
  revert l. induction p as [|x p IH]; intros l H; [exists l; reflexivity|].
  destruct l as [|y l]; [discriminate H|]. cbn [starts_with] in H. apply andb_true_iff in H.
  destruct H as [H1 H2]. apply Z.eqb_eq in H1. destruct (IH l H2) as (r & ->). exists r. subst. reflexivity.
Qed.

Lemma find_help a : find_option a option_strings = Some AHelp -> a = text "-h" \/ a = text "--help".
Proof.
  unfold option_strings. cbn [find_option].
  destruct (arg_eqb a (text "-h")) eqn:E1; [apply arg_eqb_eq in E1; auto|].
  destruct (arg_eqb a (text "--help")) eqn:E2; [apply arg_eqb_eq in E2; auto|].
  repeat match goal with |- context [if ?b then _ else _] => destruct b; [discriminate|] end. discriminate.
Qed.

Lemma help_strings o : In (o, AHelp) option_strings -> o = text "-h" \/ o = text "--help".
Proof.
  unfold option_strings. cbn [In]. intros H.
  destruct H as [H|H]; [left; congruence|]. destruct H as [H|H]; [right; congruence|].
  repeat (destruct H as [H|H]; [discriminate H|]). destruct H.
Qed.

Lemma parse_optional_option w t : parse_optional dg w = Some (WOption t) -> option_word w t.
Proof.
  destruct w as [|c r]; [discriminate|]. cbn [parse_optional].
  destruct (c =? 45) eqn:C; cbn [negb]; [|discriminate]. apply Z.eqb_eq in C. subst c.
  destruct (find_option (45 :: r) option_strings) as [x|] eqn:Fo.
  { intros [= <-]. exists r. split; [reflexivity|]. cbn [o_act o_explicit]. split; [|discriminate].
    intros [= ->]. destruct (find_help _ Fo) as [E|E]; injection E as ->; vm_compute; auto. }
  destruct r as [|d r]; [discriminate|].
  destruct (partition_eq (45 :: d :: r)) as [p q] eqn:Pe. pose proof (partition_eq_split _ _ _ Pe) as S.
  set (by_eq := match q with Some e => _ | None => None end).
  destruct by_eq as [t'|] eqn:Bq; subst by_eq.
  { intros [= <-]. destruct q as [e|]; [|discriminate Bq].
    destruct (find_option p option_strings) as [x|] eqn:Fp; [|discriminate Bq]. injection Bq as <-.
    destruct p as [|p0 p]; [discriminate S|]. injection S as S0 S1.
    exists (d :: r). split; [reflexivity|]. cbn [o_act o_explicit]. rewrite S1. split.
    - intros [= ->]. apply in_or_app. left.
      destruct (find_help _ Fp) as [E|E]; injection E as -> ->; vm_compute; auto.
    - intros e' [= <-] z Hz. apply in_or_app. right. right. exact Hz. }
  clear Bq.
  assert (O : forall t, option_tuples (45 :: d :: r) = [t] -> option_word (45 :: d :: r) t).
  { clear t. intros t Ot. exists (d :: r). split; [reflexivity|].
    unfold option_tuples in Ot. destruct (is_short (45 :: d :: r)) eqn:Sh.
    - assert (It : In t [t]) by (left; reflexivity). rewrite <- Ot in It. apply in_flat_map in It.
      destruct It as ([o x] & Io & It).
      destruct (arg_eqb o (firstn 2 (45 :: d :: r))) eqn:E.
      + destruct It as [<-|[]]. apply arg_eqb_eq in E. cbn [o_act o_explicit firstn skipn] in *. split.
        * intros [= ->]. apply help_strings in Io.
          destruct Io as [->| ->]; [|discriminate E]. injection E as <-. left. reflexivity.
        * intros e [= <-] z Hz. right. exact Hz.
      + destruct (starts_with (45 :: d :: r) o) eqn:St; [|destruct It].
        destruct It as [<-|[]]. cbn [o_act o_explicit]. split; [|discriminate].
        intros [= ->]. apply starts_with_split in St. destruct St as (u & St).
        apply help_strings in Io. destruct Io as [->| ->].
        * injection St as <- St. left. reflexivity.
        * injection St as <- St. discriminate Sh.
    - rewrite Pe in Ot.
      assert (It : In t [t]) by (left; reflexivity). rewrite <- Ot in It. apply in_flat_map in It.
      destruct It as ([o x] & Io & It).
      destruct (starts_with p o) eqn:St; [|destruct It]. destruct It as [<-|[]]. cbn [o_act o_explicit].
      destruct p as [|p0 p].
      { exfalso. destruct q; [injection S as S; discriminate S|discriminate S]. }
      injection S as S0 S1. subst p0. split.
      + intros [= ->]. rewrite S1.
        assert (D : d = 45). { cbn in Sh. destruct (d =? 45) eqn:D; [apply Z.eqb_eq; exact D|discriminate Sh]. }
        subst d.
        destruct p as [|p1 p].
        { exfalso. destruct q; [injection S1 as S1; discriminate S1|discriminate S1]. }
        injection S1 as S1 S2. subst p1. apply in_or_app. left.
        apply starts_with_split in St. destruct St as (u & St).
        apply help_strings in Io. destruct Io as [->| ->]; [discriminate St|].
        destruct p as [|p2 p].
        * exfalso. clear - Ot. cbn in Ot. discriminate Ot.
        * injection St as <- St. right. left. reflexivity.
      + intros e E z Hz. rewrite S1. rewrite E. apply in_or_app. right. right. exact Hz. }
  destruct (option_tuples (45 :: d :: r)) as [|t' [|t'' l]].
  - destruct (negative_number dg _); [discriminate|]. destruct (contains [32] _); [discriminate|].
    intros [= <-]. exists (d :: r). split; [reflexivity|]. cbn [o_act o_explicit]. split; discriminate.
  - intros [= <-]. apply O. reflexivity.
  - discriminate.
Qed.

Lemma cluster_good x sh eq e acts t : cluster x sh eq e = Some (acts, t) ->
  Forall (fun p => fst p = AParseables -> snd p <> []) acts /\
  (In AHelp (map fst acts) \/ t = TNext AHelp -> x = AHelp \/ In 104 e).
Proof.
  revert x sh eq acts t.
  assert (G : forall n e, (List.length e <= n)%nat -> forall x sh eq acts t,
    cluster x sh eq e = Some (acts, t) ->
    Forall (fun p => fst p = AParseables -> snd p <> []) acts /\
    (In AHelp (map fst acts) \/ t = TNext AHelp -> x = AHelp \/ In 104 e)).
  { intros n. induction n as [|n IH]; intros e0 L x sh eq acts t H.
    - destruct e0; [|simpl in L; lia].
      destruct x; cbn in H; try (destruct sh; discriminate H). injection H as <- <-.
      split; [constructor; [discriminate|constructor]|]. intros [[H|[]]|H]; discriminate H.
    - assert (X : x = AParseables \/ x <> AParseables) by (destruct x; auto; right; discriminate).
      destruct X as [->|X].
      { assert (H' : Some ([(AParseables, [e0])], TEnd) = Some (acts, t)) by (destruct e0; exact H).
        injection H' as <- <-.
        split; [constructor; [discriminate|constructor]|]. intros [[H'|[]]|H']; discriminate H'. }
      destruct e0 as [|c r]; [destruct x; destruct sh; try discriminate H; contradiction|].
      assert (H' : match sh, c :: r with
        | true, c :: r =>
          if eq || (c =? 45) then None else
          match find_option [45; c] option_strings with
          | None => Some ([(x, [])], TExtra (45 :: c :: r))
          | Some y =>
              match r with
              | [] => Some ([(x, [])], TNext y)
              | c' :: r' =>
                  match (if c' =? 61 then cluster y true true r' else cluster y true false r) with
                  | Some (l, t) => Some ((x, []) :: l, t)
                  | None => None
                  end
              end
          end
        | _, _ => None end = Some (acts, t)).
      { destruct x; try exact H. contradiction. }
      clear H. cbn [andb] in H'. destruct sh; [|discriminate H'].
      destruct (eq || (c =? 45)); [discriminate H'|].
      assert (Hc : find_option [45; c] option_strings = Some AHelp -> In 104 (c :: r)).
      { intros Fh. apply find_help in Fh. destruct Fh as [Fh|Fh]; [injection Fh as ->; left; reflexivity|discriminate Fh]. }
      destruct (find_option [45; c] option_strings) as [y|].
      + destruct r as [|c' r'].
        * injection H' as <- <-. split; [constructor; [intros E; contradiction|constructor]|].
          intros [[H|[]]|H]; [left; exact H|]. injection H as ->. right. apply Hc. reflexivity.
        * assert (E : exists b, (if c' =? 61 then cluster y true true r' else cluster y true false (c' :: r'))
                       = cluster y true b (if c' =? 61 then r' else c' :: r')).
          { destruct (c' =? 61); eexists; reflexivity. }
          destruct E as (b & E). rewrite E in H'. clear E.
          destruct (cluster y true b _) as [[l t']|] eqn:K; [|discriminate H'].
          injection H' as <- <-.
          apply IH in K; [|destruct (c' =? 61); simpl in *; lia].
          destruct K as (K1 & K2). split; [constructor; [intros E; contradiction|exact K1]|].
          cbn [map fst]. intros [[H|H]|H]; [left; exact H| |].
          -- right. destruct K2 as [->|K2]; [left; exact H|apply Hc; reflexivity|].
             right. destruct (c' =? 61); [right; exact K2|exact K2].
          -- right. destruct K2 as [->|K2]; [right; exact H|apply Hc; reflexivity|].
             right. destruct (c' =? 61); [right; exact K2|exact K2].
      + injection H' as <- <-. split; [constructor; [intros E; contradiction|constructor]|].
        intros [[H|[]]|H]; [left; exact H|discriminate H]. }
  intros. eapply G; [|eassumption]. reflexivity.
Qed.

Lemma open_args_good x l vs q : classified l -> open_args x l = Some (vs, q) ->
  classified q /\ (x = AParseables -> vs <> []) /\ exists p, l = p ++ q.
Proof.
  intros C H. destruct x; cbn [open_args] in H;
    try (injection H as <- <-; split; [exact C|]; split; [discriminate|exists []; reflexivity]).
  destruct (leading_args l) as [vs' q'] eqn:E. destruct (classified_leading _ _ _ C E) as (S & D).
  destruct vs' as [|v vs']; [discriminate H|]. injection H as <- <-.
  split; [exact D|]. split; [intros _; discriminate|]. eexists. exact S.
Qed.

Lemma consume_optional_good argv a t l n :
  ns_good argv n -> classified l -> option_word a t ->
  match consume_optional a t l n with
  | Go (n', l') => ns_good argv n' /\ classified l' /\ exists p, l = p ++ l'
  | Exit c => c = 2 \/ (c = 0 /\ asks_help a)
  end.
Proof.
  intros G C (r & -> & Oh & Oe). unfold consume_optional.
  destruct (o_act t) as [x|] eqn:Ex.
  2:{ split; [exact G|]. split; [exact C|]. exists []. reflexivity. }
  destruct (o_explicit t) as [e|] eqn:Ee.
  - destruct (cluster x (o_short t) (o_eq t) e) as [[acts tl]|] eqn:K; [|left; reflexivity].
    destruct (cluster_good _ _ _ _ _ _ K) as (K1 & K2).
    assert (Hh : In AHelp (map fst acts) \/ tl = TNext AHelp -> asks_help (45 :: r)).
    { intros H. exists r. split; [reflexivity|]. destruct (K2 H) as [->|K3].
      - apply Oh. reflexivity.
      - apply (Oe e eq_refl). exact K3. }
    destruct tl as [y|u|].
    + destruct (open_args y l) as [[vs q]|] eqn:Eo; [|left; reflexivity].
      destruct (open_args_good _ _ _ _ C Eo) as (Cq & Nv & Sq).
      pose proof (take_all_good argv (acts ++ [(y, vs)]) n G) as T.
      destruct (take_all _ n) as [n'|c].
      * split; [|split; [exact Cq|exact Sq]]. apply T. apply Forall_app. split; [exact K1|].
        constructor; [exact Nv|constructor].
      * destruct T as [T|(T1 & T2)].
        { apply Forall_app. split; [exact K1|]. constructor; [exact Nv|constructor]. }
        -- left. exact T.
        -- right. split; [exact T1|]. apply Hh. rewrite map_app in T2. apply in_app_or in T2.
           destruct T2 as [T2|[T2|[]]]; [left; exact T2|right; simpl in T2; congruence].
    + pose proof (take_all_good argv acts n G K1) as T. destruct (take_all acts n) as [n'|c].
      * split; [exact T|]. split; [exact C|exists []; reflexivity].
      * destruct T as [T|(T1 & T2)]; [left; exact T|right; auto].
    + pose proof (take_all_good argv acts n G K1) as T. destruct (take_all acts n) as [n'|c].
      * split; [exact T|]. split; [exact C|exists []; reflexivity].
      * destruct T as [T|(T1 & T2)]; [left; exact T|right; auto].
  - destruct (open_args x l) as [[vs q]|] eqn:Eo; [|left; reflexivity].
    destruct (open_args_good _ _ _ _ C Eo) as (Cq & Nv & Sq).
    pose proof (take_good argv x vs n G Nv) as T. destruct (take x vs n) as [n'|c].
    + auto.
    + destruct T as [T|(T1 & ->)]; [left; exact T|right]. split; [exact T1|]. exists r.
      split; [reflexivity|]. apply Oh. reflexivity.
Qed.

Definition words_ok (l : list (list Z * word)) : Prop :=
  Forall (fun x => match snd x with WOption t => option_word (fst x) t | _ => True end) l.

Lemma remove_dashes_none ws : ~ In (text "--") ws -> remove_dashes ws = ws.
Proof.
  induction ws as [|w ws IH]; intros H; [reflexivity|]. cbn [remove_dashes].
  destruct (arg_eqb w (text "--")) eqn:E; [apply arg_eqb_eq in E; exfalso; apply H; left; exact E|].
  rewrite IH; [reflexivity|]. intros X. apply H. right. exact X.
Qed.

Lemma remove_dashes_first a b : ~ In (text "--") a -> remove_dashes (a ++ text "--" :: b) = a ++ b.
Proof.
  induction a as [|w a IH]; intros H; cbn [app remove_dashes].
  - rewrite arg_eqb_refl. reflexivity.
  - destruct (arg_eqb w (text "--")) eqn:E; [apply arg_eqb_eq in E; exfalso; apply H; left; exact E|].
    rewrite IH; [reflexivity|]. intros X. apply H. right. exact X.
Qed.

Lemma undashed_words p : Forall (fun x => undashed x /\ snd x = WArg) p ->
  Forall file_word (map fst p) /\ ~ In (text "--") (map fst p).
Proof.
  induction 1 as [|[w x] p [[H1 H2] H3] F [IH1 IH2]]; cbn [map fst snd] in *.
  - split; [constructor|intros []].
  - subst x. split; [constructor; assumption|]. intros [X|X]; [apply H1; exact X|contradiction].
Qed.

Lemma consume_positionals_good argv pre l n n' l' :
  ns_good argv n -> classified l -> argv = pre ++ map fst l ->
  consume_positionals l n = Some (n', l') ->
  ns_good argv n' /\ classified l' /\ exists p, l = p ++ l'.
Proof.
  intros (G1 & G2) C E H. unfold consume_positionals in H. destruct (ns_files n); [discriminate H|].
  destruct (before_option l) as [p q] eqn:B.
  match type of H with (if ?b then _ else _) = _ => destruct b eqn:X; [|discriminate H] end.
  injection H as <- <-. destruct (classified_before _ _ _ C B) as (S & Cq & D).
  split; [|split; [exact Cq|exists p; exact S]]. split; cbn; [|exact G2].
  intros fs [= <-]. destruct D as [D|(-> & f1 & f2 & -> & F1)].
  - destruct (undashed_words _ D) as (W1 & W2). rewrite (remove_dashes_none _ W2). split.
    + destruct p; [discriminate X|discriminate].
    + exists pre, (map fst q). left. split; [|auto]. rewrite E, S, map_app. reflexivity.
  - destruct (undashed_words _ F1) as (W1 & W2).
    rewrite map_app. cbn [map fst]. rewrite fst_entries, (remove_dashes_first _ _ W2). split.
    + rewrite existsb_app in X. intros N. apply app_eq_nil in N. destruct N as [N1 N2].
      apply map_eq_nil in N1. subst f1 f2. discriminate X.
    + exists pre, []. right. exists (map fst f1), f2. split; [reflexivity|].
      split; [|auto]. rewrite E, S, app_nil_r, map_app. cbn [map fst]. rewrite fst_entries. reflexivity.
Qed.

Lemma loop_good argv : forall k l n pre,
  (List.length l < k)%nat -> ns_good argv n -> classified l -> words_ok l -> argv = pre ++ map fst l ->
  match loop k l n with
  | Go n' => ns_good argv n'
  | Exit c => c = 2 \/ (c = 0 /\ exists w, In w argv /\ asks_help w)
  end.
Proof.
  assert (Suf : forall p l', words_ok (p ++ l') -> words_ok l').
  { intros p l' H. apply Forall_app in H. apply H. }
  intros k. induction k as [|k IH]; intros l n pre L G C W E; [lia|]. rewrite loop_S.
  destruct (existsb (fun q => is_option (snd q)) l) eqn:X.
  - destruct l as [|[a x] r]; [discriminate X|].
    assert (P : is_option x = false ->
      match (match consume_positionals ((a, x) :: r) n with
        | Some (n', l') => loop k l' n'
        | None => let '(p, rest) := before_option ((a, x) :: r) in loop k rest (add_extras (map fst p) n)
        end) with
      | Go n' => ns_good argv n'
      | Exit c => c = 2 \/ (c = 0 /\ exists w, In w argv /\ asks_help w)
      end).
    { intros Nx. destruct (consume_positionals ((a, x) :: r) n) as [[n' l']|] eqn:K.
      - pose proof (consume_positionals_length _ _ _ _ K) as Ll.
        destruct (consume_positionals_good _ _ _ _ _ _ G C E K) as (G' & C' & p & S).
        apply (IH l' n' (pre ++ map fst p)); [lia|exact G'|exact C'| |].
        + rewrite S in W. apply (Suf _ _ W).
        + rewrite E, S, map_app, app_assoc. reflexivity.
      - pose proof (before_option_length r) as Lb.
        destruct (before_option ((a, x) :: r)) as [p q] eqn:B.
        destruct (classified_before _ _ _ C B) as (S & Cq & _).
        apply (IH q (add_extras (map fst p) n) (pre ++ map fst p)).
        + cbn [before_option] in B. rewrite Nx in B. destruct (before_option r) as [p' q'].
          injection B as <- <-. simpl in *. lia.
        + exact G.
        + exact Cq.
        + rewrite S in W. apply (Suf _ _ W).
        + rewrite E, S, map_app, app_assoc. reflexivity. }
    destruct x as [| |t].
    + apply P. reflexivity.
    + apply P. reflexivity.
    + clear P. inversion W as [|? ? W1 W2]; subst. cbn [fst snd] in W1.
      assert (Cr : classified r) by (apply (classified_tail _ _ C); discriminate).
      pose proof (consume_optional_good (pre ++ map fst ((a, WOption t) :: r)) a t r n G Cr W1) as K.
      destruct (consume_optional a t r n) as [[n' l']|c] eqn:Eo.
      * pose proof (consume_optional_length _ _ _ _ _ _ Eo) as Ll.
        destruct K as (G' & C' & p & S).
        apply (IH l' n' (pre ++ map fst ((a, WOption t) :: p))); [simpl in *; lia|exact G'|exact C'| |].
        -- rewrite S in W2. apply (Suf _ _ W2).
        -- rewrite S. rewrite <- app_assoc. cbn [map fst app]. rewrite map_app. reflexivity.
      * destruct K as [K|(K1 & K2)]; [left; exact K|right]. split; [exact K1|]. exists a.
        split; [apply in_or_app; right; left; reflexivity|exact K2].
  - destruct (consume_positionals l n) as [[n' l']|] eqn:K; [|exact G].
    destruct (consume_positionals_good _ _ _ _ _ _ G C E K) as (G' & _). exact G'.
Qed.

Lemma classify_words argv l : classify dg argv = Some l -> words_ok l.
Proof.
  revert l. induction argv as [|w argv IH]; intros l H; cbn [classify] in H.
  - injection H as <-. constructor.
  - destruct (arg_eqb w (text "--")).
    + injection H as <-. constructor; [exact I|]. apply Forall_forall. intros x Hx.
      apply in_map_iff in Hx. destruct Hx as (y & <- & _). exact I.
    + destruct (parse_optional dg w) as [x|] eqn:P; [|discriminate H].
      destruct (classify dg argv) as [q|]; [|discriminate H]. injection H as <-.
      constructor; [|apply IH; reflexivity]. cbn [fst snd]. destruct x; try exact I.
      apply parse_optional_option. exact P.
Qed.

(** For every command line: the program goes on only with at least one file, every file being a
    word of the command line, and with known parseable names; otherwise it exits with status 2, or
    with status 0 when some word asks for help. *)
Theorem C45_every_command_line argv :
  match parse_args dg argv with
  | Go o =>
      files_of argv (op_files o) /\
      (op_parseables o = None \/
       exists ps, ps <> [] /\ op_parseables o = Some (map text ps) /\
                  Forall (fun p => In p parseable_names) ps)
  | Exit c => c = 2 \/ (c = 0 /\ exists w, In w argv /\ asks_help w)
  end.
Proof.
  unfold parse_args. destruct (classify dg argv) as [l|] eqn:C; [|left; reflexivity].
  destruct (classify_classified _ _ C) as (M & Cl). pose proof (classify_words _ _ C) as W.
  pose proof (loop_good argv (S (List.length l)) l ns0 []) as G.
  assert (G0 : ns_good argv ns0) by (split; intros ? H; discriminate H).
  specialize (G (Nat.lt_succ_diag_r _) G0 Cl W (eq_sym M)).
  destruct (loop (S (List.length l)) l ns0) as [n|c]; [|exact G].
  destruct G as (G1 & G2). destruct (ns_files n) as [fs|]; [|left; reflexivity].
  destruct (ns_extras n); [|left; reflexivity]. cbn [op_files op_parseables].
  split; [apply G1; reflexivity|]. destruct (ns_parseables n) as [vs|]; [right|left; reflexivity].
  destruct (G2 vs eq_refl) as (ps & N & -> & F). exists ps. auto.
Qed.

Lemma two_words f w x : ordinary f -> w <> text "--" -> parse_optional dg w = Some x ->
  classify dg [f; w] = Some [(f, WArg); (w, x)].
Proof.
  intros Hf N P. destruct (ordinary_word dg f Hf) as [Nf Pf].
  cbn [classify]. rewrite Pf, P.
  destruct (arg_eqb f (text "--")) eqn:E; [apply arg_eqb_eq in E; contradiction|].
  destruct (arg_eqb w (text "--")) eqn:E2; [apply arg_eqb_eq in E2; contradiction|]. reflexivity.
Qed.
Lemma two_words_refused f w : ordinary f -> w <> text "--" -> parse_optional dg w = None -> parse_args dg [f; w] = Exit 2.
Proof.
  intros Hf N P. destruct (ordinary_word dg f Hf) as [Nf Pf].
  unfold parse_args. cbn [classify]. rewrite Pf, P.
  destruct (arg_eqb f (text "--")) eqn:E; [apply arg_eqb_eq in E; contradiction|].
  destruct (arg_eqb w (text "--")) eqn:E2; [apply arg_eqb_eq in E2; contradiction|]. reflexivity.
Qed.
Lemma file_and_dashes f : ordinary f -> classify dg [f; text "--"] = Some [(f, WArg); (text "--", WDashes)].
Proof.
  intros Hf. destruct (ordinary_word dg f Hf) as [Nf Pf]. cbn [classify]. rewrite Pf.
  destruct (arg_eqb f (text "--")) eqn:E; [apply arg_eqb_eq in E; contradiction|]. reflexivity.
Qed.

Lemma firstn_spells n (short long : string) least : (n <= String.length long)%nat ->
  List.length (text long) = String.length long -> (exists m, (least <= m <= String.length long)%nat /\ firstn n (text long) = firstn m (text long)) -> (least <= n)%nat.
Proof.
  intros Hn L (m & Hm & E). apply (f_equal (@List.length Z)) in E. rewrite !firstn_length, L in E. lia.
Qed.

Ltac no_flag := let o := fresh in let E := fresh in let T := fresh in
  intros (o & E & T); revert E; unfold parse_args;
  (rewrite file_and_dashes by assumption) || (erewrite two_words; [|assumption|discriminate|vm_compute; reflexivity]);
  cbn; repeat match goal with |- context [if ?b then _ else _] => destruct b end;
  intros E; injection E as <-; discriminate T.
Ltac refused := let o := fresh in let E := fresh in
  intros (o & E & _); rewrite two_words_refused in E; [discriminate E|assumption|discriminate|vm_compute; reflexivity].
Ltac flag := unfold parse_args; erewrite two_words; [|assumption|discriminate|vm_compute; reflexivity];
  cbn; eexists; split; reflexivity.

(** Exactly which beginnings of the long names are accepted: those from --t and --c on, and from
    --pr on (--p may also mean --parseables). *)
Theorem C45_shortest_spellings f n : ordinary f ->
  ((n <= 8)%nat -> (spells_tstats (firstn n (text "--tstats")) <->
    exists o, parse_args dg [f; firstn n (text "--tstats")] = Go o /\ op_tstats o = true)) /\
  ((n <= 8)%nat -> (spells_cstats (firstn n (text "--cstats")) <->
    exists o, parse_args dg [f; firstn n (text "--cstats")] = Go o /\ op_cstats o = true)) /\
  ((n <= 14)%nat -> (spells_pretty (firstn n (text "--pretty-print")) <->
    exists o, parse_args dg [f; firstn n (text "--pretty-print")] = Go o /\ op_pretty o = true)).
Proof.
  intros Hf. split; [|split]; intros Hn.
  - assert (spells_tstats (firstn n (text "--tstats")) <-> (3 <= n)%nat) as ->.
    { split; intros H; [|exists n; auto]. destruct H as (m & Hm & E).
      apply (firstn_spells n "" "--tstats" 3 Hn eq_refl). exists m. auto. }
    do 9 (destruct n as [|n]; [split; [try lia; intros _; flag|try (intros; lia); (no_flag || refused)]|]). lia.
  - assert (spells_cstats (firstn n (text "--cstats")) <-> (3 <= n)%nat) as ->.
    { split; intros H; [|exists n; auto]. destruct H as (m & Hm & E).
      apply (firstn_spells n "" "--cstats" 3 Hn eq_refl). exists m. auto. }
    do 9 (destruct n as [|n]; [split; [try lia; intros _; flag|try (intros; lia); (no_flag || refused)]|]). lia.
  - assert (spells_pretty (firstn n (text "--pretty-print")) <-> (4 <= n)%nat) as ->.
    { split; intros H; [|right; exists n; auto]. destruct H as [E|H].
      - destruct n as [|[|[|n]]]; discriminate E.
      - apply (firstn_spells n "" "--pretty-print" 4 Hn eq_refl). destruct H as (m & Hm & E). exists m. auto. }
    do 15 (destruct n as [|n]; [split; [try lia; intros _; flag|try (intros; lia); (no_flag || refused)]|]). lia.
Qed.
End Digits.

(** "-P NAME ... FILE" always fails: putting the options first does not work. *)
Theorem C45_options_first_refuted :
  ~ (forall dg names files,
       names <> [] -> Forall (fun p => In p parseable_names) names ->
       files <> [] -> Forall ordinary files ->
       parse_args dg (text "-P" :: map text names ++ files) =
       Go (result files (mkSet (Some names) false false false))).
Proof.
  intros H.
  specialize (H (fun _ => false) ["CPU"] [text "atop.log"]).
  assert (O : Forall ordinary [text "atop.log"]) by (constructor; [left; discriminate|constructor]).
  pose proof (C45_parseables_take_following_words (fun _ => false) [] (text "-P") [text "CPU"; text "atop.log"] [] false false
    no_settings no_settings no_settings) as K.
  change ([] ++ text "-P" :: [text "CPU"; text "atop.log"] ++ []) with (text "-P" :: map text ["CPU"] ++ [text "atop.log"]) in K.
  rewrite H in K.
  - cut (@Go options (result [text "atop.log"] (mkSet (Some ["CPU"]) false false false)) = Exit 2); [discriminate|].
    apply K; [constructor|left; reflexivity| |constructor].
    constructor; [left; discriminate|exact O].
  - discriminate.
  - constructor; [right; right; left; reflexivity|constructor].
  - discriminate.
  - exact O.
Qed.

(** ** Examples: the hypotheses are met *)

(** The command of the README: "atoparser ~/atop.log -P CPU --pretty". *)
Example C45_readme dg :
  parse_args dg [text "/home/me/atop.log"; text "-P"; text "CPU"; text "--pretty"] =
  Go (mkOpt [text "/home/me/atop.log"] (Some [text "CPU"]) true false false).
Proof.
  apply (C45_usage dg [] [text "/home/me/atop.log"] [text "-P"; text "CPU"; text "--pretty"] false no_settings
    (mkSet (Some ["CPU"]) true false false)).
  - constructor.
  - discriminate.
  - constructor; [left; discriminate|constructor].
  - apply (ogs_more true false [text "-P"; text "CPU"] [text "--pretty"] _ (with_want ["CPU"] no_settings)).
    + apply (og_names (text "-P") ["CPU"]); [left; reflexivity|discriminate|].
      constructor; [right; right; left; reflexivity|constructor].
    + apply ogs_last. apply (og_pretty (text "--pretty") (with_want ["CPU"] no_settings)).
      right. exists 8%nat. split; [cbn; lia|reflexivity].
    + discriminate.
Qed.

(** Every kind of option group, repeated -P (the last one counts), abbreviations and joined forms,
    before and after two files. *)
Example C45_many_options dg :
  parse_args dg ([text "--ts"; text "-PCPU"] ++ [text "a.log"; text "-"] ++
                 [text "--parse=MEM"; text "-p"; text "--cs"; text "--pars"; text "DSK"; text "DSK"; text "NETU"]) =
  Go (mkOpt [text "a.log"; text "-"] (Some [text "DSK"; text "DSK"; text "NETU"]) true true true).
Proof.
  set (s1 := with_want ["CPU"] (with_tstats no_settings)).
  set (s2 := with_want ["DSK"; "DSK"; "NETU"] (with_cstats (with_pretty (with_want ["MEM"] s1)))).
  change (Go _) with (@Go options (result [text "a.log"; text "-"] s2)).
  apply (C45_usage dg _ _ _ true s1 s2).
  - apply (ogs_more false false [text "--ts"] [text "-PCPU"] _ (with_tstats no_settings)).
    + constructor. exists 4%nat. split; [lia|reflexivity].
    + apply ogs_last. apply (og_joined "CPU"). right; right; left; reflexivity.
    + discriminate.
  - discriminate.
  - constructor; [left; discriminate|]. constructor; [right; reflexivity|constructor].
  - apply (ogs_more false true [text "--parse=MEM"] _ _ (with_want ["MEM"] s1)).
    { apply (og_equals (text "--parse") "MEM"); [right; exists 7%nat; split; [cbn; lia|reflexivity]|].
      do 6 right. left. reflexivity. }
    { apply (ogs_more false true [text "-p"] _ _ (with_pretty (with_want ["MEM"] s1))).
      { constructor. left. reflexivity. }
      { apply (ogs_more false true [text "--cs"] _ _ (with_cstats (with_pretty (with_want ["MEM"] s1)))).
        { constructor. exists 4%nat. split; [lia|reflexivity]. }
        { apply ogs_last. apply (og_names (text "--pars") ["DSK"; "DSK"; "NETU"]).
          - right. exists 6%nat. split; [cbn; lia|reflexivity].
          - discriminate.
          - repeat constructor; cbn; tauto. }
        { discriminate. } }
      { discriminate. } }
    { discriminate. }
Qed.

Example C45_odd_file_names dg :
  parse_args dg [text "--"; text "-P"; text "--"; text "-h"] =
  Go (mkOpt [text "-P"; text "--"; text "-h"] None false false false).
Proof. apply (C45_double_dash dg [] _ false no_settings); [constructor|discriminate]. Qed.

Example C45_split_files dg :
  parse_args dg [text "a.log"; text "-p"; text "b.log"] = Exit 2.
Proof.
  apply (C45_split_files_rejected dg [] [text "a.log"] [text "-p"] [text "b.log"] [] false no_settings
    (with_pretty no_settings) (with_pretty no_settings)); try discriminate; try constructor.
  - left; discriminate.
  - constructor.
  - constructor. left. reflexivity.
  - left; discriminate.
  - constructor.
Qed.
