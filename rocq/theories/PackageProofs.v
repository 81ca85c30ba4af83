(** * Lemmas for C64 and C65: the states that imports of the package lead to *)
From Coq Require Import List ZArith Lia Bool String Ascii.
From Coq Require Import Init.Byte.
From Verif Require Import PyBase CTypes S_shared Model Spec SpecLog BaseProofs TableProofs SizedProofs PropHeader PropFormat.
From Verif Require Import PySyntax PyClasses SourceClasses PyEval PyProgram SpecClasses PropClasses.
From Verif Require Import PyPackage SourcePackage SpecPackage.
Import ListNotations.
Local Open Scope string_scope.
Local Open Scope list_scope.
Local Open Scope Z_scope.

(** ** Deciding equality of objects *)

Lemma obj_ind' (P : obj -> Prop) :
  (forall z, P (OInt z)) -> (forall s, P (OStr s)) -> P ONone -> (forall l, Forall P l -> P (OTuple l)) ->
  (forall l, Forall P l -> P (OList l)) -> (forall l, Forall (fun e => P (fst e) /\ P (snd e)) l -> P (ODict l)) ->
  (forall t, P (OType t)) ->
  (forall n b a f, Forall P b -> Forall (fun e => P (snd e)) a -> P (OClass n b a f)) ->
  (forall f, P (OField f)) -> (forall a b, P a -> P b -> P (OItem a b)) -> (forall m, P (OModule m)) ->
  (forall m f, P (OFun m f)) -> forall o, P o.
Proof.
  intros H1 H2 H3 H4 H5 H6 H7 H8 H9 H10 H11 H12. fix IH 1. intros [z|s| |l|l|l|t|n b a f|f|a b|m|m f].
  - apply H1.
  - apply H2.
  - exact H3.
  - apply H4. induction l as [|o l IHl]; constructor; [apply IH|exact IHl].
  - apply H5. induction l as [|o l IHl]; constructor; [apply IH|exact IHl].
  - apply H6. induction l as [|[o p] l IHl]; constructor; [split; apply IH|exact IHl].
  - apply H7.
  - apply H8.
    + induction b as [|o l IHl]; constructor; [apply IH|exact IHl].
    + induction a as [|[x o] l IHl]; constructor; [apply IH|exact IHl].
  - apply H9.
  - apply H10; apply IH.
  - apply H11.
  - apply H12.
Qed.

Definition opt_eqb {A} (e : A -> A -> bool) (a b : option A) : bool :=
  match a, b with Some x, Some y => e x y | None, None => true | _, _ => false end.

Fixpoint obj_eqb (a b : obj) : bool :=
  match a, b with
  | OInt x, OInt y => x =? y
  | OStr x, OStr y => String.eqb x y
  | ONone, ONone => true
  | OTuple l, OTuple m | OList l, OList m =>
      (fix go (l m : list obj) := match l, m with
         | [], [] => true
         | x :: l, y :: m => obj_eqb x y && go l m
         | _, _ => false
         end) l m
  | ODict l, ODict m =>
      (fix go (l m : list (obj * obj)) := match l, m with
         | [], [] => true
         | (x, v) :: l, (y, w) :: m => obj_eqb x y && obj_eqb v w && go l m
         | _, _ => false
         end) l m
  | OType t, OType u => ctype_eqb t u
  | OClass n b a f, OClass n' b' a' f' =>
      String.eqb n n' &&
      (fix go (l m : list obj) := match l, m with
         | [], [] => true
         | x :: l, y :: m => obj_eqb x y && go l m
         | _, _ => false
         end) b b' &&
      (fix go (l m : list (string * obj)) := match l, m with
         | [], [] => true
         | (x, v) :: l, (y, w) :: m => String.eqb x y && obj_eqb v w && go l m
         | _, _ => false
         end) a a' &&
      opt_eqb fields_eqb f f'
  | OField x, OField y => String.eqb x y
  | OItem x y, OItem x' y' => obj_eqb x x' && obj_eqb y y'
  | OModule x, OModule y => String.eqb x y
  | OFun x y, OFun x' y' => String.eqb x x' && String.eqb y y'
  | _, _ => false
  end.

Lemma obj_eqb_eq a : forall b, obj_eqb a b = true -> a = b.
Proof.
  induction a as [z|s| |l IH|l IH|l IH|t|n bs at' f IHb IHa|f|a b IHa IHb|m|m f] using obj_ind';
    intros [z'|s'| |l'|l'|l'|t'|n' bs' at'' f'|f'|a' b'|m'|m' f'] H; try discriminate H; cbn [obj_eqb] in H.
  - apply Z.eqb_eq in H. congruence.
  - apply String.eqb_eq in H. congruence.
  - reflexivity.
  - f_equal. revert l' H. induction IH as [|x l Hx _ IH]; intros [|y m] H; try discriminate H; [reflexivity|].
    apply andb_prop in H as [A B]. f_equal; [apply Hx, A|apply IH, B].
  - f_equal. revert l' H. induction IH as [|x l Hx _ IH]; intros [|y m] H; try discriminate H; [reflexivity|].
    apply andb_prop in H as [A B]. f_equal; [apply Hx, A|apply IH, B].
  - f_equal. revert l' H. induction IH as [|[x v] l [Hx Hv] _ IH]; intros [|[y w] m] H; try discriminate H; [reflexivity|].
    apply andb_prop in H as [H B]. apply andb_prop in H as [A C]. cbn [fst snd] in Hx, Hv. apply Hx in A. apply Hv in C. f_equal; [congruence|apply IH, B].
  - apply ctype_eqb_eq in H. congruence.
  - apply andb_prop in H as [H D]. apply andb_prop in H as [H C]. apply andb_prop in H as [A B].
    apply String.eqb_eq in A. subst n'.
    assert (bs = bs') as <-.
    { clear - IHb B. revert bs' B. induction IHb as [|x l Hx _ IH]; intros [|y m] H; try discriminate H; [reflexivity|].
      apply andb_prop in H as [A B]. f_equal; [apply Hx, A|apply IH, B]. }
    assert (at' = at'') as <-.
    { clear - IHa C. revert at'' C. induction IHa as [|[x v] l Hx _ IH]; intros [|[y w] m] H; try discriminate H; [reflexivity|].
      apply andb_prop in H as [H B]. apply andb_prop in H as [A C]. apply String.eqb_eq in A. apply Hx in C. cbn [snd] in C. f_equal; [congruence|apply IH, B]. }
    f_equal. destruct f as [f|], f' as [f'|]; try discriminate D; [|reflexivity]. apply fields_eqb_eq in D. congruence.
  - apply String.eqb_eq in H. congruence.
  - apply andb_prop in H as [A B]. f_equal; [apply IHa, A|apply IHb, B].
  - apply String.eqb_eq in H. congruence.
  - apply andb_prop in H as [A B]. apply String.eqb_eq in A, B. congruence.
Qed.

Definition calls_eqb : list (string * string) -> list (string * string) -> bool :=
  list_eqb (fun a b => String.eqb (fst a) (fst b) && String.eqb (snd a) (snd b)).
Lemma calls_eqb_eq a b : calls_eqb a b = true -> a = b.
Proof.
  apply list_eqb_eq. intros [x v] [y w] H. cbn [fst snd] in H. apply andb_prop in H as [A B].
  apply String.eqb_eq in A, B. congruence.
Qed.
(** ** Imports in general *)

Lemma assoc_set {V} x y (v : V) e : assoc x (dict_set e y v) = if String.eqb x y then Some v else assoc x e.
Proof.
  induction e as [|[k w] e IH]; cbn [dict_set assoc]; [destruct (String.eqb x y); reflexivity|].
  destruct (String.eqb y k) eqn:E; cbn [assoc].
  - apply String.eqb_eq in E. subst k. destruct (String.eqb x y); reflexivity.
  - destruct (String.eqb x k) eqn:F; [|exact IH]. apply String.eqb_eq in F. subst k. rewrite String.eqb_sym, E. reflexivity.
Qed.

Section Package.
Context (T : list (string * list ptop)).

(** More depth changes nothing. *)
Definition less (i j : string -> pstate -> option pstate) : Prop := forall m s s', i m s = Some s' -> j m s = Some s'.

Lemma run_ptop_less i j later m t s s' : less i j -> run_ptop i later m t s = Some s' -> run_ptop j later m t s = Some s'.
Proof.
  intros L H. destruct t as [m'|m' a x|x e|x a e|d|x bs body|c body]; cbn [run_ptop] in *; try exact H.
  - destruct (i m' s) as [s1|] eqn:E; [|discriminate H]. rewrite (L _ _ _ E). exact H.
  - destruct (i m' s) as [s1|] eqn:E; [|discriminate H]. rewrite (L _ _ _ E). destruct (pattr s1 (OModule m') a); [exact H|].
    destruct (i (m' ++ "." ++ a)%string s1) as [s2|] eqn:E2; [|discriminate H]. rewrite (L _ _ _ E2). exact H.
Qed.

Lemma run_ptops_less i j later m l : less i j -> forall s s', run_ptops i later m l s = Some s' -> run_ptops j later m l s = Some s'.
Proof.
  intros L. induction l as [|t l IH]; intros s s' H; cbn [run_ptops] in *; [exact H|].
  destruct (run_ptop i later m t s) as [s1|] eqn:E; [|discriminate H]. rewrite (run_ptop_less _ _ _ _ _ _ _ L E). exact (IH _ _ H).
Qed.

Lemma import_more k : less (import_module T k) (import_module T (S k)).
Proof.
  induction k as [|k IH]; intros m s s' H; [discriminate H|].
  cbn [import_module] in H. remember (S k) as k1 eqn:Hk. cbn [import_module].
  destruct (assoc m libraries); [exact H|]. destruct (assoc m (p_mods s)); [exact H|].
  assert (P : forall s1, match split_last m with Some (p, _) => import_module T k p s | None => Some s end = Some s1 ->
    match split_last m with Some (p, _) => import_module T k1 p s | None => Some s end = Some s1).
  { intros s1 Hs. destruct (split_last m) as [[p x]|]; [|exact Hs]. apply IH, Hs. }
  destruct (match split_last m with Some (p, _) => import_module T k p s | None => Some s end) as [s1|]; [|discriminate H].
  rewrite (P s1 eq_refl). destruct (assoc m (p_mods s1)); [exact H|]. destruct (assoc m T) as [text|]; [|discriminate H].
  destruct (run_ptops (import_module T k) (postponed text) m text (pbind_name m "__name__" (OStr m) s1)) as [s2|] eqn:E; [|discriminate H].
  rewrite (run_ptops_less _ (import_module T k1) _ _ _ IH _ _ E). exact H.
Qed.

Lemma import_deeper k j m s s' : import_module T k m s = Some s' -> import_module T (j + k) m s = Some s'.
Proof. intros H. induction j as [|j IH]; [exact H|]. apply import_more, IH. Qed.

(** A module that is there is not executed again; to import a module is to import its parent and
    go on from there. *)
Definition loaded_b (s : pstate) (m : string) : bool := match assoc m (p_mods s) with Some _ => true | None => false end.

Lemma import_loaded k m s : loaded_b s m = true -> import_module T (S k) m s = Some s.
Proof. unfold loaded_b. cbn [import_module]. destruct (assoc m libraries); [reflexivity|]. destruct (assoc m (p_mods s)); [reflexivity|discriminate]. Qed.

Lemma import_by_parent k m p x s s1 : split_last m = Some (p, x) -> loaded_b s m = false ->
  import_module T (S k) p s = Some s1 -> loaded_b s1 p = true -> import_module T (S (S k)) m s = import_module T (S (S k)) m s1.
Proof.
  intros Hp Hm H1 Hl. pose proof (import_loaded k p s1 Hl) as H2. remember (S k) as k1 eqn:Hk. cbn [import_module]. unfold loaded_b in Hm.
  destruct (assoc m libraries) eqn:El.
  { exfalso. revert Hp El. unfold libraries. cbn [assoc].
    repeat (match goal with |- context [String.eqb m ?z] => destruct (String.eqb m z) eqn:? end;
      [match goal with E : String.eqb m _ = true |- _ => apply String.eqb_eq in E; subst m; discriminate end|]). discriminate. }
  destruct (assoc m (p_mods s)); [discriminate Hm|]. rewrite Hp, H1, H2. destruct (assoc m (p_mods s1)); reflexivity.
Qed.

(** What an import leaves alone: the names in the modules that are there, but for submodules. *)
Definition same_or_sub (m : string) (ns ns' : namespace) : Prop := forall x, assoc x ns' = assoc x ns \/
  (assoc x ns' = Some (OModule (m ++ "." ++ x)%string) /\ assoc (m ++ "." ++ x)%string T <> None).
Definition grows (but : string -> Prop) (s s' : pstate) : Prop := forall m ns, ~ but m -> assoc m (p_mods s) = Some ns ->
  exists ns', assoc m (p_mods s') = Some ns' /\ same_or_sub m ns ns'.

Lemma grows_refl but s : grows but s s.
Proof. intros m ns _ H. exists ns. split; [exact H|]. intros x. left. reflexivity. Qed.
Lemma grows_trans but a b c : grows but a b -> grows but b c -> grows but a c.
Proof.
  intros H1 H2 m ns B H. destruct (H1 m ns B H) as (ns1 & A1 & S1). destruct (H2 m ns1 B A1) as (ns2 & A2 & S2).
  exists ns2. split; [exact A2|]. intros x. destruct (S2 x) as [-> | E]; [apply S1|right; exact E].
Qed.
Lemma grows_less (b b' : string -> Prop) s s' : (forall m, b m -> b' m) -> grows b s s' -> grows b' s s'.
Proof. intros L H m ns B E. apply H; [|exact E]. intros X. apply B, L, X. Qed.
Lemma grows_bind m x v s : grows (eq m) s (pbind_name m x v s).
Proof.
  intros k ns N E. exists ns. unfold pbind_name, bind_global. cbn [p_mods]. rewrite assoc_set.
  destruct (String.eqb k m) eqn:F; [apply String.eqb_eq in F; subst k; exfalso; apply N; reflexivity|]. split; [exact E|]. intros y. left. reflexivity.
Qed.

Lemma run_ptop_grows i later m t s s' : (forall k a b, i k a = Some b -> grows (fun _ => False) a b) ->
  run_ptop i later m t s = Some s' -> grows (eq m) s s'.
Proof.
  intros Hi. assert (Hi' : forall k a b, i k a = Some b -> grows (eq m) a b).
  { intros k a b E. apply (grows_less (fun _ => False)); [contradiction|exact (Hi k a b E)]. }
  destruct t as [m'|m' a x|x e|x a e|d|x bs body|c body]; cbn [run_ptop]; intros H.
  - destruct (i m' s) as [s1|] eqn:E; [|discriminate H]. injection H as <-. eapply grows_trans; [exact (Hi' _ _ _ E)|apply grows_bind].
  - destruct (i m' s) as [s1|] eqn:E; [|discriminate H]. destruct (pattr s1 (OModule m') a) as [v|].
    + injection H as <-. eapply grows_trans; [exact (Hi' _ _ _ E)|apply grows_bind].
    + destruct (i (m' ++ "." ++ a)%string s1) as [s2|] eqn:E2; [|discriminate H]. injection H as <-.
      eapply grows_trans; [exact (Hi' _ _ _ E)|]. eapply grows_trans; [exact (Hi' _ _ _ E2)|apply grows_bind].
  - destruct (peval _ _ e) as [v|]; [|discriminate H]. injection H as <-. apply grows_bind.
  - destruct (peval _ _ e) as [v|]; [|discriminate H]. destruct (if later then Some ONone else _) as [w|]; [|discriminate H]. injection H as <-. apply grows_bind.
  - destruct (def_ok _ _ _ d); [|discriminate H]. injection H as <-. apply grows_bind.
  - destruct (all_some _) as [bases|]; [|discriminate H]. destruct (pclass_body _ _ _ _ _ _ _) as [attrs|]; [|discriminate H].
    destruct (make_class _ bases attrs) as [v|]; [|discriminate H]. injection H as <-. apply grows_bind.
  - destruct (peval _ _ c) as [[z| | | | | | | | | | |]|]; try discriminate H. destruct (z =? 0); [injection H as <-; apply grows_refl|].
    destruct (top_calls s m body) as [cs|]; [|discriminate H]. injection H as <-.
    intros k ns _ E. exists ns. split; [exact E|]. intros y. left. reflexivity.
Qed.

Lemma run_ptops_grows i later m l : (forall k a b, i k a = Some b -> grows (fun _ => False) a b) ->
  forall s s', run_ptops i later m l s = Some s' -> grows (eq m) s s'.
Proof.
  intros Hi. induction l as [|t l IH]; intros s s' H; cbn [run_ptops] in H; [injection H as <-; apply grows_refl|].
  destruct (run_ptop i later m t s) as [s1|] eqn:E; [|discriminate H]. eapply grows_trans; [exact (run_ptop_grows _ _ _ _ _ _ Hi E)|exact (IH _ _ H)].
Qed.

Lemma split_last_eq m : forall p x, split_last m = Some (p, x) -> m = (p ++ "." ++ x)%string.
Proof.
  induction m as [|c r IH]; intros p x H; cbn [split_last] in H; [discriminate H|].
  destruct (split_last r) as [[p' x']|].
  - injection H as <- <-. rewrite (IH _ _ eq_refl) at 1. reflexivity.
  - destruct (Ascii.eqb c ".") eqn:E; [|discriminate H]. injection H as <- <-. apply Ascii.eqb_eq in E. subst c. reflexivity.
Qed.

Lemma import_grows k : forall m s s', import_module T k m s = Some s' -> grows (fun _ => False) s s'.
Proof.
  induction k as [|k IH]; intros m s s' H; [discriminate H|]. cbn [import_module] in H.
  destruct (assoc m libraries); [injection H as <-; apply grows_refl|]. destruct (assoc m (p_mods s)); [injection H as <-; apply grows_refl|].
  assert (P : forall s1, match split_last m with Some (p, _) => import_module T k p s | None => Some s end = Some s1 -> grows (fun _ => False) s s1).
  { intros s1 Hs. destruct (split_last m) as [[p x]|]; [exact (IH _ _ _ Hs)|]. injection Hs as <-. apply grows_refl. }
  destruct (match split_last m with Some (p, _) => import_module T k p s | None => Some s end) as [s1|]; [|discriminate H].
  specialize (P s1 eq_refl). destruct (assoc m (p_mods s1)) eqn:N; [injection H as <-; exact P|].
  destruct (assoc m T) as [text|] eqn:Et; [|discriminate H].
  destruct (run_ptops (import_module T k) (postponed text) m text (pbind_name m "__name__" (OStr m) s1)) as [s2|] eqn:E; [|discriminate H].
  apply run_ptops_grows in E; [|exact IH]. apply (grows_trans _ _ s1 _ P).
  pose proof (grows_trans _ _ _ _ (grows_bind m "__name__" (OStr m) s1) E) as G. clear P E IH.
  intros k0 ns _ Hk. assert (m <> k0) as Nk by (intros <-; rewrite N in Hk; discriminate Hk).
  destruct (G k0 ns Nk Hk) as (ns' & A & B). injection H as <-.
  destruct (split_last m) as [[p x]|] eqn:Es; [|exists ns'; split; assumption].
  unfold pbind_name, bind_global. cbn [p_mods]. rewrite assoc_set. destruct (String.eqb k0 p) eqn:F; [|exists ns'; split; assumption].
  apply String.eqb_eq in F. subst k0. rewrite A. eexists. split; [reflexivity|]. intros y. rewrite assoc_set.
  destruct (String.eqb y x) eqn:Fy; [|apply B]. apply String.eqb_eq in Fy. subst y. right. rewrite <- (split_last_eq m p x Es).
  split; [reflexivity|]. rewrite Et. discriminate.
Qed.
End Package.

(** ** The states that imports lead to *)

Definition after (m : string) (s : pstate) : pstate :=
  match import_module package 6 m s with Some s' => s' | None => fresh end.
Definition core : pstate := after "atoparser" fresh.
Definition core_p : pstate := after "atoparser.parsers" core.
Definition core_a : pstate := after "atoparser.parsers.atop_1_26" core_p.
Definition full : pstate := after "atoparser.reader" core.
Definition full_p : pstate := after "atoparser.reader" core_p.
Definition full_a : pstate := after "atoparser.reader" core_a.
Definition reach : list pstate := [core; core_p; core_a; full; full_p; full_a].

Definition is_none_b {A} (o : option A) : bool := match o with None => true | Some _ => false end.

Definition core_modules : list string :=
  ["atoparser"; "atoparser.utils"; "atoparser.structs"; "atoparser.structs.shared"] ++ map module_of spec_versions.
Definition later_modules : list string := ["atoparser.reader"; "atoparser.parsers"; "atoparser.parsers.atop_1_26"].
Lemma names_split m : In m module_names -> In m core_modules \/ In m later_modules.
Proof. unfold module_names, core_modules, later_modules. rewrite !in_app_iff. cbn [In]. tauto. Qed.

Definition submodule_b (m x : string) : bool := existsb (String.eqb (m ++ "." ++ x)) module_names.
Lemma submodule_b_in m x : submodule_b m x = true -> submodule m x.
Proof. unfold submodule_b. intros H. apply existsb_exists in H as (k & Hk & E). apply String.eqb_eq in E. subst k. exact Hk. Qed.
Lemma submodule_in_b m x : submodule m x -> submodule_b m x = true.
Proof. intros H. apply existsb_exists. exists (m ++ "." ++ x)%string. split; [exact H|apply String.eqb_refl]. Qed.

Definition names_in (s : pstate) (m : string) : list string :=
  match assoc m (p_mods s) with Some ns => map fst ns | None => [] end.
Definition has (s : pstate) (l : list string) : bool := forallb (loaded_b s) l.
Definition works (m : string) (s : pstate) : bool := match import_module package 6 m s with Some _ => true | None => false end.

(** What must be computed: the imports succeed; what is there then; the submodules. *)
Definition later_agree (f s : pstate) : bool :=
  forallb (fun m => negb (loaded_b s m) || forallb (fun x =>
      if submodule_b m x then match pattr s (OModule m) x with None => true | Some o => obj_eqb o (OModule (m ++ "." ++ x)) end
      else opt_eqb obj_eqb (pattr s (OModule m) x) (pattr f (OModule m) x)) (names_in s m ++ names_in f m)) later_modules.
Fixpoint strip (p s : string) : option string :=
  match p, s with
  | EmptyString, _ => Some s
  | String a p, String b s => if Ascii.eqb a b then strip p s else None
  | String _ _, EmptyString => None
  end.
Lemma strip_app p s : strip p (p ++ s) = Some s.
Proof. induction p as [|a p IH]; cbn [append strip]; [reflexivity|]. rewrite Ascii.eqb_refl. exact IH. Qed.
Definition subs_ok (s : pstate) : bool :=
  forallb (fun k => forallb (fun m =>
    match strip m k with
    | Some (String _ x) => match pattr s (OModule m) x with None => true | Some o => obj_eqb o (OModule k) end
    | _ => true
    end) core_modules) module_names.
Definition state_ok (f s : pstate) : bool :=
  has s core_modules && later_agree f s && match p_calls s with [] => true | _ => false end &&
  forallb (fun e => existsb (String.eqb (fst e)) module_names) (p_mods s).
Definition works_ok (s0 c p a : pstate) : bool :=
  works "atoparser" s0 && works "atoparser.parsers" c && works "atoparser.parsers.atop_1_26" p &&
  (works "atoparser.reader" c && works "atoparser.reader" p && works "atoparser.reader" a).
Definition states_ok (c p a f fp fa : pstate) : bool :=
  forallb (state_ok f) [c; p; a; f; fp; fa] && subs_ok c &&
  (has p ["atoparser.parsers"] && has a ["atoparser.parsers"; "atoparser.parsers.atop_1_26"] &&
   forallb (fun s => has s later_modules) [f; fp; fa]) &&
  (negb (loaded_b c "atoparser.parsers") && negb (loaded_b c "atoparser.parsers.atop_1_26")).
Definition static_ok : bool :=
  forallb (fun k => is_none_b (assoc k libraries)) module_names &&
  forallb (fun e => existsb (String.eqb (fst e)) module_names) package.
Lemma computed : works_ok fresh core core_p core_a && states_ok core core_p core_a full full_p full_a = true.
Proof. vm_cast_no_check (@eq_refl bool true). Qed.
Lemma static : static_ok = true.
Proof. vm_cast_no_check (@eq_refl bool true). Qed.
(** Lemmas about the checks have variables for the states, so that no proof evaluates a state. *)
Lemma works_split s0 c p a : works_ok s0 c p a = true ->
  works "atoparser" s0 = true /\ works "atoparser.parsers" c = true /\ works "atoparser.parsers.atop_1_26" p = true /\
  works "atoparser.reader" c = true /\ works "atoparser.reader" p = true /\ works "atoparser.reader" a = true.
Proof.
  unfold works_ok. intros H. apply andb_prop in H as [H W]. apply andb_prop in W as [W W3]. apply andb_prop in W as [W1 W2].
  apply andb_prop in H as [H H3]. apply andb_prop in H as [H1 H2]. auto 7.
Qed.
Lemma after_works m s : works m s = true -> import_module package 6 m s = Some (after m s).
Proof. unfold works, after. destruct (import_module package 6 m s); [reflexivity|discriminate]. Qed.

(** The results, with the states as variables. *)
Record facts (c p a f fp fa : pstate) : Prop := {
  fa_core : import_module package 6 "atoparser" fresh = Some c;
  fa_p : import_module package 6 "atoparser.parsers" c = Some p;
  fa_a : import_module package 6 "atoparser.parsers.atop_1_26" p = Some a;
  fa_f : import_module package 6 "atoparser.reader" c = Some f;
  fa_fp : import_module package 6 "atoparser.reader" p = Some fp;
  fa_fa : import_module package 6 "atoparser.reader" a = Some fa;
  fa_ok : states_ok c p a f fp fa = true }.
Lemma make_facts s0 c p a f fp fa : works_ok s0 c p a && states_ok c p a f fp fa = true ->
  s0 = fresh -> after "atoparser" s0 = c -> after "atoparser.parsers" c = p -> after "atoparser.parsers.atop_1_26" p = a ->
  after "atoparser.reader" c = f -> after "atoparser.reader" p = fp -> after "atoparser.reader" a = fa ->
  facts c p a f fp fa.
Proof.
  intros H E0 E1 E2 E3 E4 E5 E6. apply andb_prop in H as [W H]. apply works_split in W as (W1 & W2 & W3 & W4 & W5 & W6).
  apply after_works in W1, W2, W3, W4, W5, W6. rewrite E1 in W1. rewrite E2 in W2. rewrite E3 in W3. rewrite E4 in W4.
  rewrite E5 in W5. rewrite E6 in W6. subst s0. constructor; assumption.
Qed.
Lemma core_eq : after "atoparser" fresh = core.
Proof. unfold core. reflexivity. Qed.
Lemma core_p_eq : after "atoparser.parsers" core = core_p.
Proof. unfold core_p. reflexivity. Qed.
Lemma core_a_eq : after "atoparser.parsers.atop_1_26" core_p = core_a.
Proof. unfold core_a. reflexivity. Qed.
Lemma full_eq : after "atoparser.reader" core = full.
Proof. unfold full. reflexivity. Qed.
Lemma full_p_eq : after "atoparser.reader" core_p = full_p.
Proof. unfold full_p. reflexivity. Qed.
Lemma full_a_eq : after "atoparser.reader" core_a = full_a.
Proof. unfold full_a. reflexivity. Qed.
Lemma the_facts : facts core core_p core_a full full_p full_a.
Proof.
  exact (make_facts fresh core core_p core_a full full_p full_a computed eq_refl core_eq core_p_eq core_a_eq full_eq full_p_eq full_a_eq).
Qed.
Global Opaque core core_p core_a full full_p full_a.

Lemma has_in s l m : has s l = true -> In m l -> loaded_b s m = true.
Proof. unfold has. rewrite forallb_forall. auto. Qed.

Lemma loaded_in s m : loaded_b s m = true -> exists ns, In (m, ns) (p_mods s).
Proof.
  unfold loaded_b. destruct (assoc m (p_mods s)) as [ns|] eqn:E; [|discriminate]. intros _. exists ns. apply assoc_in', E.
Qed.

Lemma grows_loaded s s' m : grows package (fun _ => False) s s' -> loaded_b s m = true -> loaded_b s' m = true.
Proof.
  intros G H. unfold loaded_b in *. destruct (assoc m (p_mods s)) as [ns|] eqn:E; [|discriminate H].
  destruct (G m ns (fun x => x) E) as (ns' & -> & _). reflexivity.
Qed.

Section States.
Context (c p a f fp fa : pstate) (F : facts c p a f fp fa).
Let states : list pstate := [c; p; a; f; fp; fa].

Lemma fa_state s : In s states -> state_ok f s = true.
Proof.
  intros Hs. pose proof (fa_ok _ _ _ _ _ _ F) as H. unfold states_ok in H. do 3 (apply andb_prop in H as [H _]).
  rewrite forallb_forall in H. exact (H _ Hs).
Qed.
Lemma fa_has s m : In s states -> In m core_modules -> loaded_b s m = true.
Proof.
  intros Hs Hm. pose proof (fa_state s Hs) as H. unfold state_ok in H. do 3 (apply andb_prop in H as [H _]). exact (has_in _ _ _ H Hm).
Qed.
Lemma fa_later : has p ["atoparser.parsers"] = true /\ has a ["atoparser.parsers"; "atoparser.parsers.atop_1_26"] = true /\
  forall s, In s [f; fp; fa] -> has s later_modules = true.
Proof.
  pose proof (fa_ok _ _ _ _ _ _ F) as H. unfold states_ok in H. apply andb_prop in H as [H _]. apply andb_prop in H as [_ H].
  apply andb_prop in H as [H H3]. apply andb_prop in H as [H1 H2]. rewrite forallb_forall in H3. auto.
Qed.
Lemma fa_subs : subs_ok c = true.
Proof. pose proof (fa_ok _ _ _ _ _ _ F) as H. unfold states_ok in H. do 2 (apply andb_prop in H as [H _]). apply andb_prop in H as [_ H]. exact H. Qed.
Lemma fa_absent : loaded_b c "atoparser.parsers" = false /\ loaded_b c "atoparser.parsers.atop_1_26" = false.
Proof.
  pose proof (fa_ok _ _ _ _ _ _ F) as H. unfold states_ok in H. apply andb_prop in H as [_ H]. apply andb_prop in H as [H1 H2].
  destruct (loaded_b c "atoparser.parsers"); [discriminate H1|]. destruct (loaded_b c "atoparser.parsers.atop_1_26"); [discriminate H2|]. auto.
Qed.

(** Every state contains the first. *)
Lemma from_core s : In s states -> grows package (fun _ => False) c s.
Proof.
  assert (G1 : grows package (fun _ => False) c p) by exact (import_grows package _ _ _ _ (fa_p _ _ _ _ _ _ F)).
  assert (G2 : grows package (fun _ => False) c a) by (eapply grows_trans; [exact G1|exact (import_grows package _ _ _ _ (fa_a _ _ _ _ _ _ F))]).
  intros [<- | [<- | [<- | [<- | [<- | [<- | []]]]]]]; [apply grows_refl|exact G1|exact G2| | |].
  - exact (import_grows package _ _ _ _ (fa_f _ _ _ _ _ _ F)).
  - eapply grows_trans; [exact G1|exact (import_grows package _ _ _ _ (fa_fp _ _ _ _ _ _ F))].
  - eapply grows_trans; [exact G2|exact (import_grows package _ _ _ _ (fa_fa _ _ _ _ _ _ F))].
Qed.

(** Importing from the beginning, or from the first state. *)
Lemma deeper n m s s' : import_module package 6 m s = Some s' -> import_module package (8 + n) m s = Some s' /\
  import_module package (7 + n) m s = Some s' /\ import_module package (6 + n) m s = Some s'.
Proof.
  intros H. pose proof (import_deeper package 6 (2 + n) m s s' H) as A. pose proof (import_deeper package 6 (1 + n) m s s' H) as B.
  pose proof (import_deeper package 6 n m s s' H) as C.
  replace (8 + n)%nat with (2 + n + 6)%nat by lia. replace (7 + n)%nat with (1 + n + 6)%nat by lia. replace (6 + n)%nat with (n + 6)%nat by lia. auto.
Qed.

Lemma core_in : In c states.
Proof. left. reflexivity. Qed.

Lemma child n m x : split_last m = Some ("atoparser", x) ->
  import_module package (8 + n) m fresh = import_module package (8 + n) m c /\ import_module package (7 + n) m fresh = import_module package (7 + n) m c.
Proof.
  intros Hp. destruct (deeper n _ _ _ (fa_core _ _ _ _ _ _ F)) as (_ & A & B).
  assert (loaded_b c "atoparser" = true) as L by (apply fa_has; [exact core_in|left; reflexivity]).
  split; [exact (import_by_parent package _ m _ x fresh c Hp eq_refl A L)|exact (import_by_parent package _ m _ x fresh c Hp eq_refl B L)].
Qed.

Lemma grandchild n m q x y s : split_last m = Some (q, y) -> split_last q = Some ("atoparser", x) ->
  import_module package (7 + n) q c = Some s -> loaded_b s q = true ->
  import_module package (8 + n) m fresh = import_module package (8 + n) m s.
Proof.
  intros Hq Hp Hs L. apply (import_by_parent package _ m q y fresh s Hq eq_refl); [|exact L].
  exact (eq_trans (proj2 (child n q x Hp)) Hs).
Qed.

Lemma to_core n m : In m core_modules -> import_module package (8 + n) m fresh = Some c.
Proof.
  intros Hm. pose proof (fa_has c m core_in Hm) as L. pose proof (import_loaded package (7 + n) m c L) as E.
  assert (loaded_b c "atoparser.structs" = true) as Ls by (apply fa_has; [exact core_in|right; right; left; reflexivity]).
  assert (G : forall y, split_last m = Some ("atoparser.structs", y) -> import_module package (8 + n) m fresh = Some c).
  { intros y Hy. rewrite <- E. apply (grandchild n m "atoparser.structs" "structs" y c Hy eq_refl); [|exact Ls].
    apply (import_loaded package (6 + n)), Ls. }
  assert (C : forall x, split_last m = Some ("atoparser", x) -> import_module package (8 + n) m fresh = Some c).
  { intros x Hx. rewrite <- E. exact (proj1 (child n m x Hx)). }
  cbn [In core_modules app map spec_versions] in Hm.
  destruct Hm as [<- | Hm]; [exact (proj1 (deeper n _ _ _ (fa_core _ _ _ _ _ _ F)))|].
  destruct Hm as [<- | Hm]; [apply (C "utils"); reflexivity|].
  destruct Hm as [<- | Hm]; [apply (C "structs"); reflexivity|].
  repeat (destruct Hm as [<- | Hm]; [eapply G; reflexivity|]). destruct Hm.
Qed.

Lemma steps n s m : s = fresh \/ In s states -> In m module_names ->
  exists s', import_module package (8 + n) m s = Some s' /\ In s' states /\ loaded_b s' m = true /\
    forall k, loaded_b s k = true -> loaded_b s' k = true.
Proof.
  intros Hs Hm. destruct fa_later as (L2 & L3 & L4). destruct fa_absent as (N1 & N2).
  assert (Stay : In s states -> loaded_b s m = true ->
    exists s'', import_module package (8 + n) m s = Some s'' /\ In s'' states /\ loaded_b s'' m = true /\
    forall k, loaded_b s k = true -> loaded_b s'' k = true).
  { intros H1 H2. exists s. split; [apply (import_loaded package (7 + n)), H2|]. auto. }
  assert (Go : forall s', import_module package (8 + n) m s = Some s' -> In s' states -> loaded_b s' m = true ->
    exists s'', import_module package (8 + n) m s = Some s'' /\ In s'' states /\ loaded_b s'' m = true /\
    forall k, loaded_b s k = true -> loaded_b s'' k = true).
  { intros s' H1 H2 H3. exists s'. split; [exact H1|]. split; [exact H2|]. split; [exact H3|]. intros k.
    apply grows_loaded. exact (import_grows package _ _ _ _ H1). }
  assert (I : forall i t, nth_error states i = Some t -> In t states) by (intros i t; apply nth_error_In).
  pose proof (has_in p _ "atoparser.parsers" L2 (or_introl eq_refl)) as Lp.
  pose proof (has_in a _ "atoparser.parsers" L3 (or_introl eq_refl)) as Lap.
  pose proof (has_in a _ "atoparser.parsers.atop_1_26" L3 (or_intror (or_introl eq_refl))) as La.
  assert (Lf : forall s', In s' [f; fp; fa] -> In m later_modules -> loaded_b s' m = true) by (intros s' H1 H2; exact (has_in _ _ _ (L4 _ H1) H2)).
  destruct (deeper n _ _ _ (fa_p _ _ _ _ _ _ F)) as (P8 & P7 & _).
  destruct (deeper n _ _ _ (fa_a _ _ _ _ _ _ F)) as (A8 & _ & _).
  destruct (deeper n _ _ _ (fa_f _ _ _ _ _ _ F)) as (F8 & _ & _).
  destruct (deeper n _ _ _ (fa_fp _ _ _ _ _ _ F)) as (FP8 & _ & _).
  destruct (deeper n _ _ _ (fa_fa _ _ _ _ _ _ F)) as (FA8 & _ & _).
  destruct (names_split m Hm) as [Hc|Hl].
  - destruct Hs as [-> | Hs]; [|apply Stay; [exact Hs|exact (fa_has s m Hs Hc)]].
    apply (Go c); [exact (to_core n m Hc)|exact core_in|exact (fa_has c m core_in Hc)].
  - destruct Hs as [-> | Hs].
    + cbn [In later_modules] in Hl. destruct Hl as [<- | [<- | [<- | []]]].
      * apply (Go f); [rewrite (proj1 (child n "atoparser.reader" "reader" eq_refl)); exact F8|exact (I 3%nat _ eq_refl)|].
        apply (Lf f); left; reflexivity.
      * apply (Go p); [rewrite (proj1 (child n "atoparser.parsers" "parsers" eq_refl)); exact P8|exact (I 1%nat _ eq_refl)|exact Lp].
      * apply (Go a); [rewrite (grandchild n "atoparser.parsers.atop_1_26" "atoparser.parsers" "parsers" "atop_1_26" p eq_refl eq_refl P7 Lp); exact A8|exact (I 2%nat _ eq_refl)|exact La].
    + destruct Hs as [<- | [<- | [<- | Hs]]].
      * cbn [In later_modules] in Hl. destruct Hl as [<- | [<- | [<- | []]]].
        -- apply (Go f); [exact F8|exact (I 3%nat _ eq_refl)|apply (Lf f); left; reflexivity].
        -- apply (Go p); [exact P8|exact (I 1%nat _ eq_refl)|exact Lp].
        -- apply (Go a); [|exact (I 2%nat _ eq_refl)|exact La].
           exact (eq_trans (import_by_parent package (6 + n) "atoparser.parsers.atop_1_26" "atoparser.parsers" "atop_1_26" c p eq_refl N2 P7 Lp) A8).
      * cbn [In later_modules] in Hl. destruct Hl as [<- | [<- | [<- | []]]].
        -- apply (Go fp); [exact FP8|exact (I 4%nat _ eq_refl)|apply (Lf fp); [right; left; reflexivity|left; reflexivity]].
        -- apply Stay; [exact (I 1%nat _ eq_refl)|exact Lp].
        -- apply (Go a); [exact A8|exact (I 2%nat _ eq_refl)|exact La].
      * cbn [In later_modules] in Hl. destruct Hl as [<- | [<- | [<- | []]]].
        -- apply (Go fa); [exact FA8|exact (I 5%nat _ eq_refl)|apply (Lf fa); [right; right; left; reflexivity|left; reflexivity]].
        -- apply Stay; [exact (I 2%nat _ eq_refl)|exact Lap].
        -- apply Stay; [exact (I 2%nat _ eq_refl)|exact La].
      * apply Stay; [right; right; right; exact Hs|exact (Lf s Hs Hl)].
Qed.

Lemma state_facts s : In s states -> p_calls s = [] /\ forall m, loaded_b s m = true -> In m module_names.
Proof.
  intros Hs. pose proof (fa_state s Hs) as H. unfold state_ok in H. apply andb_prop in H as [H H2]. apply andb_prop in H as [_ H1]. split.
  - destruct (p_calls s); [reflexivity|discriminate H1].
  - intros m Hm. apply loaded_in in Hm as (ns & Hm). rewrite forallb_forall in H2. specialize (H2 _ Hm). cbn [fst] in H2.
    apply existsb_exists in H2 as (k & Hk & E). apply String.eqb_eq in E. subst k. exact Hk.
Qed.
Lemma agree s : In s states -> later_agree f s = true.
Proof. intros Hs. pose proof (fa_state s Hs) as H. unfold state_ok in H. apply andb_prop in H as [H _]. apply andb_prop in H as [H _]. apply andb_prop in H as [_ H]. exact H. Qed.
Lemma full_in : In f states.
Proof. right. right. right. left. reflexivity. Qed.
End States.

Lemma pattr_package s m x : assoc m libraries = None -> pattr s (OModule m) x = match assoc m (p_mods s) with Some n => assoc x n | None => None end.
Proof. intros H. cbn [pattr]. rewrite H. reflexivity. Qed.

Lemma no_library m : In m module_names -> assoc m libraries = None.
Proof.
  intros H. pose proof static as S. unfold static_ok in S. apply andb_prop in S as [S _]. rewrite forallb_forall in S. specialize (S _ H).
  destruct (assoc m libraries); [discriminate S|reflexivity].
Qed.
Lemma package_names m : assoc m package <> None -> In m module_names.
Proof.
  intros H. pose proof static as S. unfold static_ok in S. apply andb_prop in S as [_ S]. rewrite forallb_forall in S.
  destruct (assoc m package) as [t|] eqn:E; [|contradiction]. apply assoc_in' in E. specialize (S _ E). cbn [fst] in S.
  apply existsb_exists in S as (k & Hk & Eq). apply String.eqb_eq in Eq. subst k. exact Hk.
Qed.

Section Attributes.
Context (c p a f fp fa : pstate) (F : facts c p a f fp fa).

(** What a name means in a module of the core. *)
Lemma core_names s m x : In s [c; p; a; f; fp; fa] -> In m core_modules ->
  pattr s (OModule m) x = pattr c (OModule m) x \/ (pattr s (OModule m) x = Some (OModule (m ++ "." ++ x)%string) /\ submodule m x).
Proof.
  intros Hs Hm. assert (In m module_names) as Hn by (unfold module_names, core_modules in *; rewrite in_app_iff in *; cbn [In] in *; tauto).
  rewrite !(pattr_package _ m x (no_library m Hn)).
  pose proof (fa_has _ _ _ _ _ _ F c m (or_introl eq_refl) Hm) as L. unfold loaded_b in L.
  destruct (assoc m (p_mods c)) as [ns|] eqn:E; [|discriminate L].
  destruct (from_core _ _ _ _ _ _ F s Hs m ns (fun q => q) E) as (ns' & E' & G). rewrite E'.
  destruct (G x) as [-> | [-> N]]; [left; reflexivity|]. right. split; [reflexivity|]. exact (package_names _ N).
Qed.

Lemma attributes s m x : In s [c; p; a; f; fp; fa] -> loaded_b s m = true ->
  assoc m libraries = None /\
  (submodule m x -> pattr s (OModule m) x = None \/ pattr s (OModule m) x = Some (OModule (m ++ "." ++ x)%string)) /\
  (~ submodule m x -> pattr s (OModule m) x = pattr f (OModule m) x).
Proof.
  intros Hs Hl. pose proof (proj2 (state_facts _ _ _ _ _ _ F s Hs) m Hl) as Hn. pose proof (no_library m Hn) as Hlib. split; [exact Hlib|].
  destruct (names_split m Hn) as [Hc|Hm].
  - split.
    + intros Sub. destruct (core_names s m x Hs Hc) as [-> | [-> _]]; [|right; reflexivity].
      pose proof (fa_subs _ _ _ _ _ _ F) as H. unfold subs_ok in H. rewrite forallb_forall in H. specialize (H _ Sub). cbv beta in H.
      rewrite forallb_forall in H. specialize (H _ Hc). cbv beta in H. rewrite strip_app in H. cbn [append] in H.
      destruct (pattr c (OModule m) x) as [o|]; [right; f_equal; apply obj_eqb_eq, H|left; reflexivity].
    + intros N. destruct (core_names s m x Hs Hc) as [-> | [_ Sub]]; [|contradiction].
      destruct (core_names f m x (full_in c p a f fp fa) Hc) as [-> | [_ Sub]]; [reflexivity|contradiction].
  - pose proof (agree _ _ _ _ _ _ F s Hs) as A. unfold later_agree in A. rewrite forallb_forall in A. specialize (A _ Hm). cbv beta in A.
    rewrite Hl in A. cbn [negb orb] in A. rewrite forallb_forall in A.
    assert (K : In x (names_in s m ++ names_in f m) \/ (pattr s (OModule m) x = None /\ pattr f (OModule m) x = None)).
    { rewrite (pattr_package s m x Hlib), (pattr_package f m x Hlib), in_app_iff. unfold names_in.
      destruct (assoc m (p_mods s)) as [n1|]; [destruct (assoc x n1) as [v|] eqn:E1; [left; left; exact (assoc_in_names _ _ _ E1)|]|];
      (destruct (assoc m (p_mods f)) as [n2|]; [destruct (assoc x n2) as [v|] eqn:E2; [left; right; exact (assoc_in_names _ _ _ E2)|]|]); auto. }
    destruct K as [K|[K1 K2]]; [|rewrite K1, K2; split; auto].
    specialize (A _ K). cbv beta in A. destruct (submodule_b m x) eqn:Eb.
    + split; [|intros N; exfalso; apply N, submodule_b_in, Eb]. intros _.
      destruct (pattr s (OModule m) x) as [o|]; [right; f_equal; apply obj_eqb_eq, A|left; reflexivity].
    + split; [intros Sub; apply submodule_in_b in Sub; rewrite Sub in Eb; discriminate Eb|].
      intros _. destruct (pattr s (OModule m) x) as [o|], (pattr f (OModule m) x) as [o'|]; try discriminate A; [|reflexivity].
      f_equal. apply obj_eqb_eq, A.
Qed.
End Attributes.

(** ** The same for the actual states *)

Lemma step_from n s m : In s (fresh :: reach) -> In m module_names ->
  exists s', import_module package (8 + n) m s = Some s' /\ In s' reach /\ loaded_b s' m = true /\
    forall k, loaded_b s k = true -> loaded_b s' k = true.
Proof. intros [<- | Hs]; [exact (steps _ _ _ _ _ _ the_facts n fresh m (or_introl eq_refl))|exact (steps _ _ _ _ _ _ the_facts n s m (or_intror Hs))]. Qed.

Lemma imports_from n l : forall s, In s (fresh :: reach) -> (forall m, In m l -> In m module_names) ->
  exists s', imports package (8 + n) l s = Some s' /\ (l <> [] -> In s' reach) /\ (l = [] -> s' = s) /\
    (forall m, In m l -> loaded_b s' m = true) /\ forall k, loaded_b s k = true -> loaded_b s' k = true.
Proof.
  induction l as [|m l IH]; intros s Hs Hl; cbn [imports].
  - exists s. split; [reflexivity|]. repeat split; try contradiction; auto.
  - destruct (step_from n s m Hs (Hl m (or_introl eq_refl))) as (s1 & -> & R1 & L1 & K1).
    destruct (IH s1 (or_intror R1) (fun k H => Hl k (or_intror H))) as (s2 & E & R2 & N2 & L2 & K2).
    exists s2. split; [exact E|]. split; [intros _; destruct l; [rewrite (N2 eq_refl); exact R1|apply R2; discriminate]|].
    split; [discriminate|]. split; [|auto]. intros k [<-|Hk]; auto.
Qed.


Lemma reach_facts s : In s reach -> p_calls s = [].
Proof. intros H. exact (proj1 (state_facts _ _ _ _ _ _ the_facts s H)). Qed.

Lemma core_loaded st m : In st reach -> In m core_modules -> loaded_b st m = true.
Proof. exact (fa_has _ _ _ _ _ _ the_facts st m). Qed.

Lemma agree_attr s m x : In s reach -> loaded_b s m = true ->
  assoc m libraries = None /\
  (submodule m x -> pattr s (OModule m) x = None \/ pattr s (OModule m) x = Some (OModule (m ++ "." ++ x)%string)) /\
  (~ submodule m x -> pattr s (OModule m) x = pattr full (OModule m) x).
Proof. exact (attributes _ _ _ _ _ _ the_facts s m x). Qed.
