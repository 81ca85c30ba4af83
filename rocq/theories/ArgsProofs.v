(** * Lemmas about the command line model *)
From Coq Require Import List ZArith Lia Bool String.
From Verif Require Import PyBase Model Parsers Json Reader Args SpecReader SpecArgs.
Import ListNotations.
Local Open Scope string_scope.
Local Open Scope list_scope.
Local Open Scope Z_scope.

Lemma arg_eqb_eq a b : arg_eqb a b = true <-> a = b.
Proof.
  revert b. induction a as [|x a IH]; intros [|y b]; simpl; split; intros H; try discriminate H; auto.
  - apply andb_true_iff in H. destruct H as [H1 H2]. apply Z.eqb_eq in H1. apply IH in H2. congruence.
  - injection H as -> ->. rewrite Z.eqb_refl. apply IH. reflexivity.
Qed.

Lemma arg_eqb_refl a : arg_eqb a a = true.
Proof. apply arg_eqb_eq. reflexivity. Qed.

Lemma text_length s : List.length (text s) = String.length s.
Proof. induction s; simpl; auto. Qed.

(** ** Fuel *)

Lemma leading_args_length l : (List.length (snd (leading_args l)) <= List.length l)%nat.
Proof.
  induction l as [|[a w] r IH]; simpl; [lia|]. destruct w; simpl; try lia.
  destruct (leading_args r) as [vs rest]; simpl in *. lia.
Qed.

Lemma before_option_length l : (List.length (snd (before_option l)) <= List.length l)%nat.
Proof.
  induction l as [|[a w] r IH]; simpl; [lia|]. destruct (is_option w); simpl; [lia|].
  destruct (before_option r) as [p q]; simpl in *. lia.
Qed.

Lemma before_option_app l : before_option l = (fst (before_option l), snd (before_option l)).
Proof. destruct (before_option l); reflexivity. Qed.

Lemma before_option_split l : l = fst (before_option l) ++ snd (before_option l).
Proof.
  induction l as [|[a w] r IH]; simpl; auto. destruct (is_option w); simpl; auto.
  destruct (before_option r) as [p q]; simpl in *. congruence.
Qed.

Lemma open_args_length x l vs rest : open_args x l = Some (vs, rest) ->
  (List.length rest <= List.length l)%nat.
Proof.
  pose proof (leading_args_length l). unfold open_args.
  destruct x; try (intros [= <- <-]; lia).
  destruct (leading_args l) as [[|v vs'] q]; [discriminate|]. intros [= <- <-]. exact H.
Qed.

Lemma consume_optional_length a t l n n' l' : consume_optional a t l n = Go (n', l') ->
  (List.length l' <= List.length l)%nat.
Proof.
  unfold consume_optional. destruct (o_act t) as [x|]; [|intros [= <- <-]; lia].
  destruct (o_explicit t) as [e|].
  - destruct (cluster x (o_short t) (o_eq t) e) as [[acts [y|u|]]|]; [| | |discriminate].
    + destruct (open_args y l) as [[vs rest]|] eqn:E; [|discriminate].
      apply open_args_length in E.
      destruct (take_all _ n); [|discriminate]. intros [= <- <-]. exact E.
    + destruct (take_all _ n); [|discriminate]. intros [= <- <-]. lia.
    + destruct (take_all _ n); [|discriminate]. intros [= <- <-]. lia.
  - destruct (open_args x l) as [[vs rest]|] eqn:E; [|discriminate].
    apply open_args_length in E.
    destruct (take x vs n); [|discriminate]. intros [= <- <-]. exact E.
Qed.

Lemma consume_positionals_length l n n' l' : consume_positionals l n = Some (n', l') ->
  (List.length l' < List.length l)%nat.
Proof.
  unfold consume_positionals. destruct (ns_files n); [discriminate|].
  pose proof (before_option_split l) as E. destruct (before_option l) as [p q]. simpl in E.
  destruct (existsb _ p) eqn:X; [|discriminate]. intros [= <- <-].
  rewrite E, app_length. destruct p; [discriminate X|]. simpl. lia.
Qed.

Lemma loop_fuel k l n : (List.length l < k)%nat -> loop k l n = loop (S (List.length l)) l n.
Proof.
  assert (G : forall k k' l n, (List.length l < k)%nat -> (List.length l < k')%nat ->
                               loop k l n = loop k' l n).
  { clear. intros k. induction k as [|k IH]; intros [|k'] l n H H'; try lia. simpl.
    destruct (existsb _ l) eqn:X; [|reflexivity].
    destruct l as [|[a w] r]; [discriminate X|].
    assert (P : match consume_positionals ((a, w) :: r) n with
                | Some (n', l') => loop k l' n'
                | None => let '(p, rest) := before_option ((a, w) :: r) in
                          loop k rest (add_extras (map fst p) n)
                end = match consume_positionals ((a, w) :: r) n with
                | Some (n', l') => loop k' l' n'
                | None => let '(p, rest) := before_option ((a, w) :: r) in
                          loop k' rest (add_extras (map fst p) n)
                end \/ is_option w = true).
    { destruct (is_option w) eqn:W; [right; reflexivity|left].
      destruct (consume_positionals _ n) as [[n' l']|] eqn:E.
      - apply consume_positionals_length in E. simpl in *. apply IH; lia.
      - simpl. rewrite W. pose proof (before_option_length r).
        destruct (before_option r) as [p q]. simpl in *. apply IH; lia. }
    destruct w as [| |t].
    - destruct P as [P|P]; [exact P|discriminate P].
    - destruct P as [P|P]; [exact P|discriminate P].
    - destruct (consume_optional a t r n) as [[n' l']|c] eqn:E; [|reflexivity].
      apply consume_optional_length in E. simpl in *. apply IH; lia. }
  intros H. apply G; lia.
Qed.

Lemma loop_S k l n : loop (S k) l n =
  if existsb (fun q => is_option (snd q)) l then
    match l with
    | (a, WOption t) :: r =>
        match consume_optional a t r n with Go (n', l') => loop k l' n' | Exit c => Exit c end
    | _ =>
        match consume_positionals l n with
        | Some (n', l') => loop k l' n'
        | None => let '(p, rest) := before_option l in loop k rest (add_extras (map fst p) n)
        end
    end
  else
    match consume_positionals l n with
    | Some (n', l') => Go (add_extras (map fst l') n')
    | None => Go (add_extras (map fst l) n)
    end.
Proof. reflexivity. Qed.

(** The loop with enough fuel, and its three steps. *)
Definition go (l : list (arg * word)) (n : ns) : stepres ns := loop (S (List.length l)) l n.

Lemma go_option a t r n :
  go ((a, WOption t) :: r) n =
  match consume_optional a t r n with Go (n', l') => go l' n' | Exit c => Exit c end.
Proof.
  unfold go at 1. rewrite loop_S. cbn [existsb is_option snd orb].
  destruct (consume_optional a t r n) as [[n' l']|c] eqn:E; [|reflexivity].
  apply consume_optional_length in E. apply loop_fuel. simpl. lia.
Qed.

Definition starts_option (l : list (arg * word)) : Prop :=
  match l with [] => True | (_, w) :: _ => is_option w = true end.

Lemma before_option_args p q : Forall (fun x => is_option (snd x) = false) p -> starts_option q ->
  before_option (p ++ q) = (p, q).
Proof.
  induction p as [|[a w] p IH]; intros F S.
  - destruct q as [|[b v] q]; [reflexivity|]. simpl in *. rewrite S. reflexivity.
  - inversion F as [|? ? F1 F2]; subst. simpl in *. rewrite F1, (IH F2 S). reflexivity.
Qed.

Lemma go_plain p q n : p <> [] -> Forall (fun x => is_option (snd x) = false) p -> starts_option q ->
  go (p ++ q) n =
  match ns_files n with
  | None => if existsb (fun x => match snd x with WArg => true | _ => false end) p
            then go q (mkNs (Some (remove_dashes (map fst p))) (ns_parseables n) (ns_pretty n)
                            (ns_tstats n) (ns_cstats n) (ns_extras n))
            else go q (add_extras (map fst p) n)
  | Some _ => go q (add_extras (map fst p) n)
  end.
Proof.
  intros NE F S. pose proof (before_option_args p q F S) as B.
  destruct p as [|[a w] p]; [congruence|].
  assert (W : is_option w = false) by (inversion F; auto).
  set (P := (a, w) :: p) in *.
  assert (H : forall n' k, (List.length q < k)%nat -> loop k q n' = go q n').
  { intros n' k Hk. apply loop_fuel. exact Hk. }
  assert (CP : consume_positionals (P ++ q) n =
    match ns_files n with
    | None => if existsb (fun x => match snd x with WArg => true | _ => false end) P
              then Some (mkNs (Some (remove_dashes (map fst P))) (ns_parseables n) (ns_pretty n)
                            (ns_tstats n) (ns_cstats n) (ns_extras n), q) else None
    | Some _ => None end).
  { unfold consume_positionals. rewrite B. destruct (ns_files n); reflexivity. }
  assert (L : (List.length q < List.length (P ++ q))%nat).
  { rewrite app_length. simpl. lia. }
  unfold go at 1. rewrite loop_S.
  destruct (existsb (fun q0 => is_option (snd q0)) (P ++ q)) eqn:X.
  - assert (E : forall (A : Type) (f : arg -> otuple -> list (arg * word) -> A) (d : A),
       match P ++ q with (a, WOption t) :: r => f a t r | _ => d end = d).
    { intros. unfold P. simpl. destruct w; try reflexivity. discriminate W. }
    rewrite E. rewrite CP, B.
    destruct (ns_files n); [apply H; exact L|].
    destruct (existsb _ P); apply H; exact L.
  - assert (Q : q = []).
    { rewrite existsb_app in X. apply orb_false_iff in X. destruct X as [_ X].
      destruct q as [|[b v] q]; [reflexivity|]. simpl in S, X. rewrite S in X. discriminate X. }
    subst q.
    assert (N : forall m, go [] m = Go m).
    { intros m. unfold go. simpl. unfold consume_positionals. destruct (ns_files m); simpl;
      unfold add_extras; simpl; rewrite app_nil_r; destruct m; reflexivity. }
    rewrite CP, !N, app_nil_r. destruct (ns_files n); [reflexivity|].
    destruct (existsb (fun x => match snd x with WArg => true | _ => false end) P); [|reflexivity].
    unfold add_extras. simpl. rewrite app_nil_r. reflexivity.
Qed.

Lemma go_nil n : go [] n = Go n.
Proof.
  unfold go. simpl. unfold consume_positionals. destruct (ns_files n) eqn:F; simpl;
  unfold add_extras; simpl; rewrite app_nil_r; destruct n; reflexivity.
Qed.

(** ** Classification *)

Section Digits.
Variable dg : Z -> bool.

Lemma classify_app ws l : Forall (fun w => w <> text "--") ws ->
  Forall2 (fun w e => fst e = w /\ parse_optional dg w = Some (snd e)) ws l ->
  forall r, classify dg (ws ++ r) = match classify dg r with Some q => Some (l ++ q) | None => None end.
Proof.
  intros F H r. induction H as [|w [a e] ws l [H1 H2] H IH].
  - simpl. destruct (classify dg r); reflexivity.
  - simpl in H1, H2. subst a. inversion F as [|? ? F1 F2]. specialize (IH F2).
    cbn [app classify].
    destruct (arg_eqb w (text "--")) eqn:E; [apply arg_eqb_eq in E; contradiction|].
    rewrite H2, IH. destruct (classify dg r); reflexivity.
Qed.

Lemma ordinary_word w : ordinary w -> w <> text "--" /\ parse_optional dg w = Some WArg.
Proof.
  destruct w as [|c r]; intros H.
  - split; [discriminate|reflexivity].
  - simpl in H. split.
    + intros [= -> ->]. destruct H as [H|H]; [apply H; reflexivity|discriminate H].
    + cbn [parse_optional]. destruct (c =? 45) eqn:E; cbn [negb]; [|reflexivity].
      apply Z.eqb_eq in E. destruct H as [H|H]; [contradiction|]. subst. reflexivity.
Qed.

Lemma classify_ordinary ws : Forall ordinary ws -> forall r,
  classify dg (ws ++ r) =
  match classify dg r with Some q => Some (map (fun w => (w, WArg)) ws ++ q) | None => None end.
Proof.
  intros F. apply classify_app.
  - eapply Forall_impl; [|exact F]. intros w H. apply (ordinary_word w H).
  - induction F as [|w ws H F IH]; simpl; constructor; [|exact IH].
    split; [reflexivity|]. apply (ordinary_word w H).
Qed.

(** ** Options *)

(** A word that stands for option [x] without an explicit argument. *)
Definition names_option (w : arg) (x : act) : Prop :=
  w <> text "--" /\ parse_optional dg w = Some (WOption (mkO (Some x) (is_short w) false None)).

Ltac spelled n :=
  do 15 (destruct n as [|n]; [try lia; (split; [discriminate|vm_compute; reflexivity])|]); lia.

Lemma spells_pretty_ok w : spells_pretty w -> names_option w APretty.
Proof.
  intros [->|(n & H & ->)]; [split; [discriminate|vm_compute; reflexivity]|].
  cbn [String.length] in H. spelled n.
Qed.

Lemma spells_tstats_ok w : spells_tstats w -> names_option w ATstats.
Proof. intros (n & H & ->). spelled n. Qed.

Lemma spells_cstats_ok w : spells_cstats w -> names_option w ACstats.
Proof. intros (n & H & ->). spelled n. Qed.

Lemma spells_parseables_ok w : spells_parseables w -> names_option w AParseables.
Proof.
  intros [->|(n & H & ->)]; [split; [discriminate|vm_compute; reflexivity]|].
  cbn [String.length] in H. spelled n.
Qed.

(** A word that stands for -P with the explicit argument [v]. *)
Definition gives_parseable (w v : arg) (eq : bool) : Prop :=
  w <> text "--" /\
  parse_optional dg w = Some (WOption (mkO (Some AParseables) (is_short w) eq (Some v))).

Lemma joined_ok p : In p parseable_names -> gives_parseable (text "-P" ++ text p) (text p) false.
Proof.
  intros H. simpl in H.
  repeat (destruct H as [<-|H]; [split; [discriminate|vm_compute; reflexivity]|]). destruct H.
Qed.

Lemma equals_ok w p : spells_parseables w -> In p parseable_names ->
  gives_parseable (w ++ text "=" ++ text p) (text p) true.
Proof.
  intros [->|(n & H & ->)] I; simpl in I.
  - repeat (destruct I as [<-|I]; [split; [discriminate|vm_compute; reflexivity]|]). destruct I.
  - cbn [String.length] in H.
    do 15 (destruct n as [|n]; [try lia;
      (repeat (destruct I as [<-|I]; [split; [discriminate|vm_compute; reflexivity]|]); destruct I)|]); lia.
Qed.

Lemma choices_ok ps : Forall (fun p => In p parseable_names) ps ->
  forallb (fun v => existsb (fun p => arg_eqb v (text p)) PARSEABLES) (map text ps) = true.
Proof.
  intros F. apply forallb_forall. intros v Hv. apply in_map_iff in Hv. destruct Hv as (p & <- & Hp).
  rewrite Forall_forall in F. apply existsb_exists. exists p. split; [exact (F p Hp)|apply arg_eqb_refl].
Qed.

Lemma name_ordinary p : In p parseable_names -> ordinary (text p).
Proof.
  intros H. simpl in H.
  repeat (destruct H as [<-|H]; [left; discriminate|]). destruct H.
Qed.

Definition ns_of (files : option (list arg)) (s : settings) (x : list arg) : ns :=
  mkNs files (option_map (map text) (want s)) (pretty s) (tstats s) (cstats s) x.

Lemma leading_args_app vs q :
  match q with (_, WArg) :: _ => False | _ => True end ->
  leading_args (map (fun w => (w, WArg)) vs ++ q) = (vs, q).
Proof.
  intros H. induction vs as [|v vs IH]; simpl.
  - destruct q as [|[a []] q]; simpl; auto. destruct H.
  - rewrite IH. reflexivity.
Qed.

Lemma group_go o ws s s' : option_group o ws s s' ->
  exists l, map fst l = ws /\ l <> [] /\ starts_option l /\
  (forall r, classify dg (ws ++ r) = match classify dg r with Some q => Some (l ++ q) | None => None end) /\
  forall files x q, (o = true -> match q with (_, WArg) :: _ => False | _ => True end) ->
    go (l ++ q) (ns_of files s x) = go q (ns_of files s' x).
Proof.
  assert (One : forall w x s s', names_option w x ->
    (forall files e l, open_args x l = Some ([], l) /\ take x [] (ns_of files s e) = Go (ns_of files s' e)) ->
    exists l, map fst l = [w] /\ l <> [] /\ starts_option l /\
    (forall r, classify dg ([w] ++ r) = match classify dg r with Some q => Some (l ++ q) | None => None end) /\
    forall files x q, (false = true -> match q with (_, WArg) :: _ => False | _ => True end) ->
      go (l ++ q) (ns_of files s x) = go q (ns_of files s' x)).
  { intros w x s0 s1 (D & P) T.
    exists [(w, WOption (mkO (Some x) (is_short w) false None))].
    apply conj; [reflexivity|]. apply conj; [discriminate|]. apply conj; [reflexivity|].
    apply conj.
    - apply classify_app; [constructor; [exact D|constructor]|].
      constructor; [split; [reflexivity|exact P]|constructor].
    - intros files e q _. cbn [app]. rewrite go_option. unfold consume_optional.
      cbn [o_act o_explicit]. destruct (T files e q) as [T1 T2]. rewrite T1, T2. reflexivity. }
  assert (Val : forall w p s eq, gives_parseable w (text p) eq -> In p parseable_names ->
    exists l, map fst l = [w] /\ l <> [] /\ starts_option l /\
    (forall r, classify dg ([w] ++ r) = match classify dg r with Some q => Some (l ++ q) | None => None end) /\
    forall files x q, (false = true -> match q with (_, WArg) :: _ => False | _ => True end) ->
      go (l ++ q) (ns_of files s x) = go q (ns_of files (with_want [p] s) x)).
  { intros w p s0 eq (D & P) I.
    exists [(w, WOption (mkO (Some AParseables) (is_short w) eq (Some (text p))))].
    apply conj; [reflexivity|]. apply conj; [discriminate|]. apply conj; [reflexivity|].
    apply conj.
    - apply classify_app; [constructor; [exact D|constructor]|].
      constructor; [split; [reflexivity|exact P]|constructor].
    - intros files e q _. cbn [app]. rewrite go_option. unfold consume_optional.
      cbn [o_act o_explicit o_short o_eq].
      assert (C : cluster AParseables (is_short w) eq (text p) = Some ([(AParseables, [text p])], TEnd))
        by (destruct (text p); destruct (is_short w); reflexivity).
      rewrite C. cbn [take_all take]. change [text p] with (map text [p]).
      rewrite (choices_ok [p]) by (constructor; [exact I|constructor]). reflexivity. }
  intros H. destruct H as [w s H|w s H|w s H|p s H|w p s H I|w ps s H N F].
  - apply (One w APretty); [apply spells_pretty_ok; exact H|]. intros. split; reflexivity.
  - apply (One w ATstats); [apply spells_tstats_ok; exact H|]. intros. split; reflexivity.
  - apply (One w ACstats); [apply spells_cstats_ok; exact H|]. intros. split; reflexivity.
  - apply (Val _ p s false); [apply joined_ok; exact H|exact H].
  - apply (Val _ p s true); [apply equals_ok; assumption|exact I].
  - destruct (spells_parseables_ok w H) as (D & P).
    exists ((w, WOption (mkO (Some AParseables) (is_short w) false None)) :: map (fun v => (v, WArg)) (map text ps)).
    apply conj; [simpl; f_equal; rewrite map_map; apply map_id|].
    apply conj; [discriminate|]. apply conj; [reflexivity|].
    apply conj.
    + intros r. change ((w :: map text ps) ++ r) with ([w] ++ (map text ps ++ r)).
      rewrite (classify_app [w] [(w, WOption (mkO (Some AParseables) (is_short w) false None))]).
      * rewrite classify_ordinary.
        -- destruct (classify dg r); reflexivity.
        -- apply Forall_forall. intros v Hv. apply in_map_iff in Hv. destruct Hv as (p & <- & Hp).
           rewrite Forall_forall in F. apply name_ordinary, F, Hp.
      * constructor; [exact D|constructor].
      * constructor; [split; [reflexivity|exact P]|constructor].
    + intros files e q Q. cbn [app]. rewrite go_option. unfold consume_optional.
      cbn [o_act o_explicit]. unfold open_args. rewrite leading_args_app by (apply Q; reflexivity).
      destruct ps as [|p ps]; [congruence|]. cbn [map]. change (text p :: map text ps) with (map text (p :: ps)).
      cbn [take]. rewrite (choices_ok _ F). reflexivity.
Qed.

Lemma groups_go o ws s s' : option_groups o ws s s' ->
  exists l, map fst l = ws /\ starts_option l /\
  (forall r, classify dg (ws ++ r) = match classify dg r with Some q => Some (l ++ q) | None => None end) /\
  forall files x q, (o = true -> match q with (_, WArg) :: _ => False | _ => True end) ->
    go (l ++ q) (ns_of files s x) = go q (ns_of files s' x).
Proof.
  induction 1 as [s|o ws s s' H|o o' ws ws' s s' s'' H Hs IH N].
  - exists []. simpl. apply conj; [reflexivity|]. apply conj; [exact I|]. apply conj.
    + intros r. destruct (classify dg r); reflexivity.
    + intros. reflexivity.
  - destruct (group_go _ _ _ _ H) as (l & A & B & C & D & E). exists l. auto.
  - destruct (group_go _ _ _ _ H) as (l & A & B & C & D & E).
    destruct IH as (l' & A' & C' & D' & E').
    exists (l ++ l'). apply conj; [rewrite map_app; congruence|]. apply conj.
    { destruct l as [|[a w] l]; [congruence|exact C]. }
    apply conj.
    + intros r. rewrite <- app_assoc, D, D'. destruct (classify dg r); [|reflexivity].
      rewrite app_assoc. reflexivity.
    + intros files x q Q. rewrite <- app_assoc. rewrite E.
      * apply E'. exact Q.
      * intros _. destruct l' as [|[a w] l']; [simpl in A'; congruence|].
        simpl in *. destruct w; try discriminate C'. exact I.
Qed.
End Digits.
