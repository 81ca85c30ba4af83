(** * C63: the text of parse_args defines the command line *)
From Coq Require Import List ZArith Lia Bool String Ascii.
From Coq Require Import Init.Byte.
From Verif Require Import PyBase Parsers Reader SpecReader SpecArgs Args PropArgs PySyntax Source SourceArgs PyArgs.
Import ListNotations.
Local Open Scope string_scope.
Local Open Scope list_scope.
Local Open Scope Z_scope.

(** The parser that the text builds. *)
Definition enc (x : act) : action :=
  match x with
  | AHelp => mkAction ["-h"; "--help"] "help" KHelp
  | AParseables => mkAction ["-P"; "--parseables"] "parseables" (KStore (Some PARSEABLES))
  | APretty => mkAction ["-p"; "--pretty-print"] "pretty_print" KTrue
  | ATstats => mkAction ["--tstats"] "show_tstats" KTrue
  | ACstats => mkAction ["--cstats"] "show_cstats" KTrue
  end.
Definition files_action : action := mkAction [] "files" (KStore None).
Definition p0 : parser := [enc AHelp; files_action; enc AParseables; enc APretty; enc ATstats; enc ACstats].

Section Args.
Variable dg : Z -> bool.
(** Which characters are decimal digits: among the ASCII ones, 0 to 9. *)
Hypothesis ascii_digits : forall c, 0 <= c < 128 -> dg c = (48 <=? c) && (c <=? 57).

Lemma text_runs argv : call_arguments dg argv r_parse_args =
  match parse_command dg p0 argv with Go n => BReturn (ANamespace n) | Exit c => BExit c end.
Proof.
  unfold call_arguments, r_parse_args. cbn [fd_params fd_gen fd_body].
  assert (H : forall q, q = p0 ->
    arg_body dg argv [SAssign (TgName "args") (ECall (EAttr (EName "parser") "parse_args") [] []); SReturn (EName "args")]
      [("parser", AParser)] (Some q) =
    match parse_command dg p0 argv with Go n => BReturn (ANamespace n) | Exit c => BExit c end).
  { intros q ->. cbn [arg_body arg_expr]. replace (is_argparse [("parser", AParser)] (EName "parser")) with false by reflexivity.
    cbn [arg_value arg_name assoc String.eqb Ascii.eqb Bool.eqb]. destruct (parse_command dg p0 argv); reflexivity. }
  match goal with |- arg_body dg argv (?a :: ?b :: ?c :: ?d :: ?e :: ?f :: ?r) [] None = _ =>
    change (arg_body dg argv (a :: b :: c :: d :: e :: f :: r) [] None) with
      (arg_body dg argv r [("parser", AParser)] (Some p0)) end.
  exact (H p0 eq_refl).
Qed.

(** ** The general engine on this parser *)

Definition tm (t : otuple) : tuple := mkT (option_map enc (o_act t)) (o_short t) (o_eq t) (o_explicit t).
Definition wm (w : word) : cls := match w with WArg => CArg | WDashes => CDashes | WOption t => COption (tm t) end.
Definition lm : list (arg * word) -> list (arg * cls) := map (fun q => (fst q, wm (snd q))).

Lemma strings_p0 : strings_of p0 = map (fun q => (fst q, enc (snd q))) option_strings.
Proof. vm_compute. reflexivity. Qed.

Lemma find_map a l : find_string a (map (fun q => (fst q, enc (snd q))) l) = option_map enc (find_option a l).
Proof.
  induction l as [|[o x] l IH]; [reflexivity|]. cbn [map find_string find_option fst snd]. destruct (arg_eqb a o); [reflexivity|exact IH].
Qed.

Lemma tuples_map a : tuples p0 a = map tm (option_tuples a).
Proof.
  unfold tuples, option_tuples. rewrite strings_p0. generalize option_strings as l. intros l. destruct (is_short a).
  - induction l as [|[o x] l IH]; [reflexivity|]. cbn [map flat_map fst snd]. rewrite map_app, <- IH. f_equal.
    destruct (arg_eqb o (firstn 2 a)); [reflexivity|]. destruct (starts_with a o); reflexivity.
  - destruct (partition_eq a) as [q e]. induction l as [|[o x] l IH]; [reflexivity|]. cbn [map flat_map fst snd]. rewrite map_app, <- IH. f_equal.
    destruct (starts_with q o); reflexivity.
Qed.

Lemma no_negative : negative_options dg p0 = false.
Proof.
  unfold negative_options. rewrite strings_p0.
  assert (D : forall c, In c [104; 80; 112; 45] -> dg c = false).
  { intros c Hc. rewrite ascii_digits; cbn [In] in Hc; intuition subst; try lia; reflexivity. }
  unfold option_strings. vm_compute text. cbn [map existsb fst].
  unfold negative_number, all_digits, skip_digits, chop_newline. cbn [rev app forallb].
  rewrite !(D 104), !(D 80), !(D 112), !(D 45) by (cbn [In]; tauto). reflexivity.
Qed.

Lemma parse_word_map a : parse_word dg p0 a = option_map wm (parse_optional dg a).
Proof.
  destruct a as [|c r]; [reflexivity|]. unfold parse_word, parse_optional.
  destruct (negb (c =? 45)); [reflexivity|]. rewrite strings_p0, find_map.
  destruct (find_option (c :: r) option_strings) as [x|]; [reflexivity|]. cbn [option_map].
  destruct r as [|c' r']; [reflexivity|]. rewrite tuples_map, no_negative. cbn [negb]. rewrite andb_true_r.
  assert (K : match option_tuples (c :: c' :: r') with
    | [] => if negative_number dg (c :: c' :: r') then Some CArg else if contains [32] (c :: c' :: r') then Some CArg
            else Some (COption (mkT None (is_short (c :: c' :: r')) false None))
    | [t] => Some (COption (tm t))
    | _ :: _ :: _ => None
    end = option_map wm (match option_tuples (c :: c' :: r') with
    | [] => if negative_number dg (c :: c' :: r') then Some WArg else if contains [32] (c :: c' :: r') then Some WArg
            else Some (WOption (mkO None (is_short (c :: c' :: r')) false None))
    | [t] => Some (WOption t)
    | _ :: _ :: _ => None
    end)).
  { destruct (option_tuples (c :: c' :: r')) as [|t [|]]; try reflexivity. destruct (negative_number dg (c :: c' :: r')); [reflexivity|].
    destruct (contains [32] (c :: c' :: r')); reflexivity. }
  assert (K2 : forall l : list otuple, match map tm l with [] => @None (option tuple) | [t] => Some (Some t) | _ :: _ :: _ => Some None end =
    match l with [] => None | [t] => Some (Some (tm t)) | _ :: _ :: _ => Some None end) by (intros [|t [|]]; reflexivity).
  destruct (partition_eq (c :: c' :: r')) as [q [e|]].
  - rewrite find_map. destruct (find_option q option_strings) as [x|]; [reflexivity|]. cbn [option_map].
    rewrite <- K. destruct (option_tuples (c :: c' :: r')) as [|t [|]]; reflexivity.
  - rewrite <- K. destruct (option_tuples (c :: c' :: r')) as [|t [|]]; reflexivity.
Qed.

Lemma words_map argv : words_of dg p0 argv = option_map lm (classify dg argv).
Proof.
  induction argv as [|a r IH]; [reflexivity|]. cbn [words_of classify]. destruct (arg_eqb a (text "--")).
  - unfold option_map, lm. cbn [map fst snd wm]. do 2 f_equal. rewrite map_map. reflexivity.
  - rewrite parse_word_map. destruct (parse_optional dg a) as [w|]; [|reflexivity]. cbn [option_map]. rewrite IH.
    destruct (classify dg r); reflexivity.
Qed.

(** The state that goes with the model's namespace. *)
Definition listed (o : option (list arg)) : nsval := match o with None => NNone | Some l => NList l end.
Definition attrs_of (fs ps : option (list arg)) (a b c : bool) : attributes :=
  [("files", listed fs); ("parseables", listed ps); ("pretty_print", NBool a); ("show_tstats", NBool b); ("show_cstats", NBool c)].
Definition sm (n : ns) : state :=
  mkState (attrs_of (ns_files n) (ns_parseables n) (ns_pretty n) (ns_tstats n) (ns_cstats n))
          (match ns_files n with None => Some files_action | Some _ => None end) (ns_extras n).
Definition rm {A B} (f : A -> B) (x : stepres A) : stepres B := match x with Go a => Go (f a) | Exit c => Exit c end.

Lemma act_on_map x vs n : act_on (enc x) vs (sm n) = rm sm (take x vs n).
Proof.
  destruct x; cbn [enc act_on a_kind take]; try reflexivity.
  destruct (forallb _ vs); reflexivity.
Qed.

Definition am (l : list (act * list arg)) : list (action * list arg) := map (fun q => (enc (fst q), snd q)) l.

Lemma act_all_map l : forall n, act_all (am l) (sm n) = rm sm (take_all l n).
Proof.
  induction l as [|[x vs] l IH]; intros n; [reflexivity|]. cbn [am map fst snd act_all take_all]. rewrite act_on_map.
  destruct (take x vs n) as [n'|c]; [exact (IH n')|reflexivity].
Qed.

Definition km (t : tailk) : rest := match t with TNext x => RNext (enc x) | TExtra a => RExtra a | TEnd => REnd end.

Lemma explicit_eq q x short eq c r : explicit_args q x short eq (c :: r) =
  match a_kind x with
  | KStore _ => Some ([(x, [c :: r])], REnd)
  | _ =>
      if short then
        if eq || (c =? 45) then None else
        match find_string [45; c] (strings_of q) with
        | None => Some ([(x, [])], RExtra (45 :: c :: r))
        | Some y =>
            match r with
            | [] => Some ([(x, [])], RNext y)
            | c' :: r' =>
                match (if c' =? 61 then explicit_args q y true true r' else explicit_args q y true false r) with
                | Some (l, t) => Some ((x, []) :: l, t)
                | None => None
                end
            end
        end
      else None
  end.
Proof. destruct short; reflexivity. Qed.
Lemma cluster_eq x short eq c r : cluster x short eq (c :: r) =
  match x with
  | AParseables => Some ([(x, [c :: r])], TEnd)
  | _ =>
      if short then
        if eq || (c =? 45) then None else
        match find_option [45; c] option_strings with
        | None => Some ([(x, [])], TExtra (45 :: c :: r))
        | Some y =>
            match r with
            | [] => Some ([(x, [])], TNext y)
            | c' :: r' =>
                match (if c' =? 61 then cluster y true true r' else cluster y true false r) with
                | Some (l, t) => Some ((x, []) :: l, t)
                | None => None
                end
            end
        end
      else None
  end.
Proof. destruct short; reflexivity. Qed.

Lemma cluster_map_n n : forall e x short eq, (List.length e <= n)%nat ->
  explicit_args p0 (enc x) short eq e = option_map (fun q => (am (fst q), km (snd q))) (cluster x short eq e).
Proof.
  induction n as [|n IH]; intros [|c r] x short eq Hn; cbn [List.length] in Hn; try lia; [destruct x, short; reflexivity..|].
  rewrite explicit_eq, cluster_eq.
  assert (K : (if short then
        if eq || (c =? 45) then None else
        match find_string [45; c] (strings_of p0) with
        | None => Some ([(enc x, [])], RExtra (45 :: c :: r))
        | Some y =>
            match r with
            | [] => Some ([(enc x, [])], RNext y)
            | c' :: r' =>
                match (if c' =? 61 then explicit_args p0 y true true r' else explicit_args p0 y true false r) with
                | Some (l, t) => Some ((enc x, []) :: l, t)
                | None => None
                end
            end
        end
      else None) = option_map (fun q => (am (fst q), km (snd q)))
      (if short then
        if eq || (c =? 45) then None else
        match find_option [45; c] option_strings with
        | None => Some ([(x, [])], TExtra (45 :: c :: r))
        | Some y =>
            match r with
            | [] => Some ([(x, [])], TNext y)
            | c' :: r' =>
                match (if c' =? 61 then cluster y true true r' else cluster y true false r) with
                | Some (l, t) => Some ((x, []) :: l, t)
                | None => None
                end
            end
        end
      else None)).
  { destruct short; [|reflexivity]. destruct (eq || (c =? 45)); [reflexivity|]. rewrite strings_p0, find_map.
    destruct (find_option [45; c] option_strings) as [y|]; [|reflexivity]. cbn [option_map].
    destruct r as [|c' r']; [reflexivity|]. cbn [List.length] in Hn. destruct (c' =? 61).
    - rewrite (IH r' y true true) by lia. destruct (cluster y true true r') as [[]|]; reflexivity.
    - rewrite (IH (c' :: r') y true false) by (cbn [List.length]; lia). destruct (cluster y true false (c' :: r')) as [[]|]; reflexivity. }
  destruct x; exact K || reflexivity.
Qed.
Lemma cluster_map e x short eq :
  explicit_args p0 (enc x) short eq e = option_map (fun q => (am (fst q), km (snd q))) (cluster x short eq e).
Proof. apply (cluster_map_n (List.length e)). lia. Qed.

Lemma front_map l : front_args (lm l) = (fst (leading_args l), lm (snd (leading_args l))).
Proof.
  induction l as [|[a w] l IH]; [reflexivity|]. destruct w; try reflexivity.
  unfold lm in *. cbn [map fst snd wm front_args leading_args]. rewrite IH. destruct (leading_args l); reflexivity.
Qed.

Lemma following_map x l : following_args (enc x) (lm l) = option_map (fun q => (fst q, lm (snd q))) (open_args x l).
Proof.
  destruct x; try reflexivity. unfold following_args, open_args. cbn [enc a_kind]. rewrite front_map.
  destruct (leading_args l) as [[|v vs] t]; reflexivity.
Qed.

Lemma more_extras_map x n : more_extras x (sm n) = sm (add_extras x n).
Proof. reflexivity. Qed.

Lemma option_step_map a t l n :
  option_step p0 a (tm t) (lm l) (sm n) = rm (fun q => (sm (fst q), lm (snd q))) (consume_optional a t l n).
Proof.
  unfold option_step, consume_optional. destruct t as [x short eq e]. cbn [tm t_act t_explicit t_short t_eq o_act o_explicit o_short o_eq].
  destruct x as [x|]; cbn [option_map]; [|reflexivity]. destruct e as [e|].
  - rewrite cluster_map. destruct (cluster x short eq e) as [[acts [y|u|]]|]; cbn [option_map fst snd km]; [| | |reflexivity].
    + rewrite following_map. destruct (open_args y l) as [[vs t]|]; cbn [option_map fst snd]; [|reflexivity].
      assert (am acts ++ [(enc y, vs)] = am (acts ++ [(y, vs)])) as -> by (unfold am; rewrite map_app; reflexivity).
      rewrite act_all_map. destruct (take_all (acts ++ [(y, vs)]) n); reflexivity.
    + rewrite act_all_map. destruct (take_all acts n); reflexivity.
    + rewrite act_all_map. destruct (take_all acts n); reflexivity.
  - rewrite following_map. destruct (open_args x l) as [[vs t]|]; cbn [option_map fst snd]; [|reflexivity].
    rewrite act_on_map. destruct (take x vs n); reflexivity.
Qed.

Lemma is_opt_map w : is_opt (wm w) = is_option w.
Proof. destruct w; reflexivity. Qed.

Lemma up_to_map l : up_to_option (lm l) = (lm (fst (before_option l)), lm (snd (before_option l))).
Proof.
  induction l as [|[a w] l IH]; [reflexivity|]. unfold lm in *. cbn [map fst snd up_to_option before_option]. rewrite is_opt_map.
  destruct (is_option w); [reflexivity|]. rewrite IH. destruct (before_option l); reflexivity.
Qed.

Lemma exists_map (f : cls -> bool) (g : word -> bool) l : (forall w, f (wm w) = g w) ->
  existsb (fun q => f (snd q)) (lm l) = existsb (fun q => g (snd q)) l.
Proof. intros H. induction l as [|[a w] l IH]; [reflexivity|]. unfold lm in *. cbn [map existsb fst snd]. rewrite H, IH. reflexivity. Qed.

Lemma fst_lm l : map fst (lm l) = map fst l.
Proof. unfold lm. rewrite map_map. reflexivity. Qed.

Lemma positional_map l n :
  positional_step (lm l) (sm n) = option_map (fun q => Go (sm (fst q), lm (snd q))) (consume_positionals l n).
Proof.
  unfold positional_step, consume_positionals. cbn [sm s_pending]. destruct (ns_files n) as [fs|] eqn:E; [reflexivity|].
  rewrite up_to_map. destruct (before_option l) as [q t]. cbn [fst snd].
  rewrite (exists_map (fun w => match w with CArg => true | _ => false end) (fun w => match w with WArg => true | _ => false end))
    by (intros []; reflexivity).
  destruct (existsb _ q); [|reflexivity]. rewrite fst_lm. cbn [option_map fst snd]. unfold act_on, sm. rewrite E. reflexivity.
Qed.

Lemma steps_map k : forall l n, steps p0 k (lm l) (sm n) = rm sm (loop k l n).
Proof.
  induction k as [|k IH]; intros l n; [reflexivity|]. cbn [steps loop].
  rewrite (exists_map is_opt is_option l is_opt_map).
  assert (P : match positional_step (lm l) (sm n) with
    | Some (Go (s', l')) => steps p0 k l' s'
    | Some (Exit c) => Exit c
    | None => let '(q, t) := up_to_option (lm l) in steps p0 k t (more_extras (map fst q) (sm n))
    end = rm sm match consume_positionals l n with
    | Some (n', l') => loop k l' n'
    | None => let '(p, rest) := before_option l in loop k rest (add_extras (map fst p) n)
    end).
  { rewrite positional_map. destruct (consume_positionals l n) as [[n' l']|]; cbn [option_map fst snd]; [apply IH|].
    rewrite up_to_map. destruct (before_option l) as [p t]. cbn [fst snd]. rewrite fst_lm, more_extras_map. apply IH. }
  destruct (existsb _ l) eqn:Eo.
  - destruct l as [|[a w] l]; [discriminate Eo|]. destruct w as [| |t]; [exact P|exact P|].
    change (lm ((a, WOption t) :: l)) with ((a, COption (tm t)) :: lm l). cbv iota. rewrite (option_step_map a t l n). destruct (consume_optional a t l n) as [[n' l']|c]; [apply IH|reflexivity].
  - rewrite positional_map. destruct (consume_positionals l n) as [[n' l']|]; cbn [option_map fst snd rm]; rewrite fst_lm; reflexivity.
Qed.

Lemma command_map argv : parse_command dg p0 argv =
  rm (fun o => attrs_of (Some (op_files o)) (op_parseables o) (op_pretty o) (op_tstats o) (op_cstats o)) (parse_args dg argv).
Proof.
  unfold parse_command, parse_args. rewrite words_map. destruct (classify dg argv) as [l|]; [|reflexivity]. cbn [option_map].
  replace (List.length (lm l)) with (List.length l) by (unfold lm; rewrite map_length; reflexivity).
  change (mkState (defaults p0 []) (positional p0) []) with (sm ns0). rewrite steps_map.
  destruct (loop (S (List.length l)) l ns0) as [n|c]; [|reflexivity]. cbn [rm sm s_pending s_extras s_attrs].
  destruct (ns_files n) as [fs|]; [|reflexivity]. destruct (ns_extras n); reflexivity.
Qed.

(** ** C63 *)

(** What the text of parse_args returns or how it exits, for every command line. *)
Theorem C63_parse_args argv : call_arguments dg argv r_parse_args =
  match parse_args dg argv with
  | Go o => BReturn (ANamespace
      [("files", NList (op_files o));
       ("parseables", match op_parseables o with None => NNone | Some l => NList l end);
       ("pretty_print", NBool (op_pretty o)); ("show_tstats", NBool (op_tstats o)); ("show_cstats", NBool (op_cstats o))])
  | Exit c => BExit c
  end.
Proof. rewrite text_runs, command_map. destruct (parse_args dg argv); reflexivity. Qed.

(** The namespace for the settings [s]. *)
Definition returned (files : list (list Z)) (s : settings) : body_result :=
  BReturn (ANamespace
    [("files", NList files);
     ("parseables", match want s with None => NNone | Some l => NList (map text l) end);
     ("pretty_print", NBool (pretty s)); ("show_tstats", NBool (tstats s)); ("show_cstats", NBool (cstats s))]).

(** Documented usage: options, files, options (SpecArgs.v). *)
Theorem C63_usage before files after o s1 s2 :
  option_groups false before no_settings s1 -> files <> [] -> Forall ordinary files -> option_groups o after s1 s2 ->
  call_arguments dg (before ++ files ++ after) r_parse_args = returned files s2.
Proof.
  intros B N F A. rewrite C63_parse_args, (C45_usage dg before files after o s1 s2 B N F A). unfold returned, result.
  destruct s2 as [[l|] a b c]; reflexivity.
Qed.

(** And any command line: never stuck; the namespace has these five attributes, with files that
    are words of the command line and accepted names; or an exit. *)
Theorem C63_every_command_line argv :
  match call_arguments dg argv r_parse_args with
  | BReturn (ANamespace n) => exists fs pv a b c,
      n = [("files", NList fs); ("parseables", pv); ("pretty_print", NBool a); ("show_tstats", NBool b); ("show_cstats", NBool c)] /\
      files_of dg argv fs /\
      (pv = NNone \/ exists ps, ps <> [] /\ pv = NList (map text ps) /\ Forall (fun p => In p parseable_names) ps)
  | BReturn _ | BStuck => False
  | BExit c => c = 2 \/ (c = 0 /\ exists w, In w argv /\ asks_help w)
  end.
Proof.
  rewrite C63_parse_args. pose proof (C45_every_command_line dg argv) as H. destruct (parse_args dg argv) as [o|c]; [|exact H].
  destruct H as [H1 H2]. do 5 eexists. split; [reflexivity|]. split; [exact H1|].
  destruct H2 as [-> | (ps & Np & -> & Hp)]; [left; reflexivity|right; exists ps; auto].
Qed.
End Args.

(** ** The whole command *)

From Verif Require Import PropSource4.
From Verif Require Import CTypes Model Gzip PyEval PyProgram SpecSource SpecSource3.

(** The object that holds the namespace: each attribute has its value.  An ASCII string is the
    interpreter's [VStr]. *)
Definition string_value (v : value) (a : list Z) : Prop :=
  cps v = Some a /\ forall s, a = text s -> v = VStr s.
Definition attribute_value (w : world) (v : value) (x : nsval) : Prop :=
  match x with
  | NNone => v = VNone
  | NBool b => v = VBool b
  | NList l => exists id vs, v = VList id /\ cell_at w id = Some (CList vs) /\ Forall2 string_value vs l
  end.
Definition holds_attributes (w : world) (o : env) (n : attributes) : Prop :=
  forall a x, assoc a n = Some x -> exists v, assoc a o = Some v /\ attribute_value w v x.

Section Command.
Variable dg : Z -> bool.
Hypothesis ascii_digits : forall c, 0 <= c < 128 -> dg c = (48 <=? c) && (c <=? 57).
Variable dec : list byte -> option (list byte).
Variable disk : list Z -> res (list byte).
Variable salvage : list byte -> list byte.
Variable fault : list byte -> exn.
Variable float_repr : Z -> list Z.
Variable argv : env.
Notation call n := (f_call (call_n dec disk salvage fault float_repr argv globals functions n)).
Hypothesis disk_plain : forall p e, disk p = Raise e -> Messages.message e = None.
Hypothesis fault_plain : forall b, Messages.message (fault b) = None.

Lemma string_list ps vs : Forall2 string_value vs (map text ps) -> vs = map VStr ps.
Proof.
  revert vs. induction ps as [|q ps IH]; intros vs H; inversion H as [|v a vs' l [_ Hv] Hr]; subst; [reflexivity|].
  cbn [map]. rewrite (Hv q eq_refl), (IH _ Hr). reflexivity.
Qed.

Lemma names_back l ps : Forall (fun q => In q parseable_names) ps -> l = map text ps -> map name_of l = ps.
Proof.
  intros H ->. rewrite map_map. induction H as [|q ps Hq Hp IH]; [reflexivity|]. cbn [map]. rewrite IH. f_equal.
  revert Hq. clear. unfold parseable_names. cbn [In]. intros Hq. repeat (destruct Hq as [<- | Hq]; [reflexivity|]). destruct Hq.
Qed.

(** The words [words] given to the command: if the text of parse_args exits, so does the command of
    C46, having opened and printed nothing; if it returns a namespace, the text of main with
    that namespace has exactly the effects and the end of the command of C46. *)
Theorem C63_command n w words : loaded w ->
  match call_arguments dg words r_parse_args with
  | BReturn (ANamespace a) =>
      holds_attributes w argv a ->
      let '(es, r) := Args.main dg dec disk salvage fault float_repr words in
      exists w', grows w w' /\ w_out w' = w_out w ++ es /\
        match r with
        | Finished => call (7 + n) "atoparser.reader" "main" [] [] w = EOk VNone w'
        | Crashed e => call (7 + n) "atoparser.reader" "main" [] [] w = EErr (xof e) w'
        | Exited _ => False
        end
  | BExit c => Args.main dg dec disk salvage fault float_repr words = ([], Exited c)
  | _ => False
  end.
Proof.
  intros L. rewrite (C63_parse_args dg ascii_digits words). pose proof (C45_every_command_line dg words) as E.
  destruct (parse_args dg words) as [o|c] eqn:Ep; [|unfold Args.main; rewrite Ep; reflexivity].
  intros H. apply (C60_command dec disk salvage fault float_repr argv disk_plain fault_plain dg n w words o L Ep).
  destruct E as [_ E]. constructor.
  - destruct (H "files" _ eq_refl) as (v & Hv & id & vs & -> & Hc & Hf). exists id, vs. split; [exact Hv|]. split; [exact Hc|].
    clear -Hf. induction Hf as [|x y l m [Hx _] _ IH]; constructor; assumption.
  - destruct (H "parseables" _ eq_refl) as (v & Hv & Hx). exists v. split; [exact Hv|]. unfold formats.
    destruct E as [E|(ps & _ & E & Hp)]; rewrite E in Hx |- *.
    + left. split; [exact Hx|reflexivity].
    + right. destruct Hx as (id & vs & -> & Hc & Hf). exists id. split; [reflexivity|].
      rewrite (names_back _ ps Hp eq_refl), Hc, (string_list ps vs Hf). reflexivity.
  - destruct (H "pretty_print" _ eq_refl) as (v & Hv & ->). exact Hv.
  - destruct (H "show_tstats" _ eq_refl) as (v & Hv & ->). exact Hv.
  - destruct (H "show_cstats" _ eq_refl) as (v & Hv & ->). exact Hv.
Qed.
End Command.

(** Concrete case: "-p a.log --cstats -P CPU DSK" with the ASCII digits. *)
Example C63_example :
  call_arguments (fun c => (48 <=? c) && (c <=? 57)) (map text ["-p"; "a.log"; "--cstats"; "-P"; "CPU"; "DSK"]) r_parse_args =
  BReturn (ANamespace [("files", NList [text "a.log"]); ("parseables", NList [text "CPU"; text "DSK"]);
                       ("pretty_print", NBool true); ("show_tstats", NBool false); ("show_cstats", NBool true)]).
Proof. vm_compute. reflexivity. Qed.
Example C63_example_exit :
  call_arguments (fun c => (48 <=? c) && (c <=? 57)) (map text ["a.log"; "--parse"; "cpux"]) r_parse_args = BExit 2 /\
  call_arguments (fun c => (48 <=? c) && (c <=? 57)) (map text ["-ph"]) r_parse_args = BExit 0.
Proof. vm_compute. split; reflexivity. Qed.

(** A memory in which the namespace of such a command line is held. *)
Lemma text_inj' a : forall b, text a = text b -> a = b.
Proof.
  induction a as [|x a IH]; intros [|y b] H; cbn [text] in H; try discriminate H; [reflexivity|].
  injection H as H1 H2. f_equal; [|exact (IH _ H2)].
  rewrite <- (ascii_nat_embedding x), <- (ascii_nat_embedding y). f_equal. lia.
Qed.
Example C63_hypotheses files ps pp st sc :
  loaded (shell_world files ps) /\
  holds_attributes (shell_world files ps) (shell_args pp st sc)
    [("files", NList (map text files)); ("parseables", NList (map text ps));
     ("pretty_print", NBool pp); ("show_tstats", NBool st); ("show_cstats", NBool sc)].
Proof.
  split; [apply (C60_hypotheses files ps pp st sc)|].
  assert (S : forall l, Forall2 string_value (map VStr l) (map text l)).
  { intros l. induction l as [|a l IH]; cbn [map]; constructor; [|exact IH]. split; [reflexivity|]. intros s E. f_equal. exact (text_inj' _ _ E). }
  intros a x H. cbn [assoc] in H.
  destruct (String.eqb a "files") eqn:E1; [apply String.eqb_eq in E1; subst a; injection H as <-; exists (VList 6); split; [reflexivity|exists 6%nat, (map VStr files); split; [reflexivity|split; [reflexivity|apply S]]]|].
  destruct (String.eqb a "parseables") eqn:E2; [apply String.eqb_eq in E2; subst a; injection H as <-; exists (VList 7); split; [reflexivity|exists 7%nat, (map VStr ps); split; [reflexivity|split; [reflexivity|apply S]]]|].
  destruct (String.eqb a "pretty_print") eqn:E3; [apply String.eqb_eq in E3; subst a; injection H as <-; exists (VBool pp); split; reflexivity|].
  destruct (String.eqb a "show_tstats") eqn:E4; [apply String.eqb_eq in E4; subst a; injection H as <-; exists (VBool st); split; reflexivity|].
  destruct (String.eqb a "show_cstats") eqn:E5; [apply String.eqb_eq in E5; subst a; injection H as <-; exists (VBool sc); split; reflexivity|].
  discriminate H.
Qed.
