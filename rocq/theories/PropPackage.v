(** * C64: importing the package *)
From Coq Require Import List ZArith Lia Bool String Ascii.
From Coq Require Import Init.Byte.
From Verif Require Import PyBase CTypes S_shared Model Spec SpecLog BaseProofs TableProofs SizedProofs PropHeader PropFormat.
From Verif Require Import PySyntax PyClasses SourceClasses PyEval Source PyProgram SpecClasses PropClasses.
From Verif Require Import PyPackage SourcePackage SpecPackage PackageProofs.
Import ListNotations.
Local Open Scope string_scope.
Local Open Scope list_scope.
Local Open Scope Z_scope.

(** ** C64 *)

(** Whatever modules of the package are imported, in whatever order and however often: every
    import succeeds and calls no function, and the modules imported are then there. *)
Theorem C64_any_order n l : (forall m, In m l -> In m module_names) ->
  exists st, imports package (8 + n) l fresh = Some st /\ p_calls st = [] /\
    forall m, In m l -> exists ns, assoc m (p_mods st) = Some ns.
Proof.
  intros Hl. destruct (imports_from n l fresh (or_introl eq_refl) Hl) as (st & E & R & N & L & _). exists st. split; [exact E|]. split.
  - destruct l; [rewrite (N eq_refl); reflexivity|]. apply reach_facts, R. discriminate.
  - intros m Hm. specialize (L m Hm). unfold loaded_b in L. destruct (assoc m (p_mods st)) as [ns|]; [eauto|discriminate L].
Qed.

(** What a name of a module means does not depend on the order; only whether a submodule is
    already an attribute of its package does. *)
Theorem C64_order_irrelevant n n' l l' st st' m x :
  (forall m, In m l -> In m module_names) -> (forall m, In m l' -> In m module_names) ->
  imports package (8 + n) l fresh = Some st -> imports package (8 + n') l' fresh = Some st' ->
  In m l -> In m l' ->
  (~ submodule m x -> pattr st (OModule m) x = pattr st' (OModule m) x) /\
  (submodule m x -> pattr st (OModule m) x = None \/ pattr st (OModule m) x = Some (OModule (m ++ "." ++ x)%string)).
Proof.
  intros Hl Hl' E E' Hm Hm'.
  destruct (imports_from n l fresh (or_introl eq_refl) Hl) as (s & Es & R & _ & L & _). rewrite E in Es. injection Es as <-.
  destruct (imports_from n' l' fresh (or_introl eq_refl) Hl') as (s & Es & R' & _ & L' & _). rewrite E' in Es. injection Es as <-.
  assert (In st reach) as H1 by (apply R; intros ->; destruct Hm). assert (In st' reach) as H2 by (apply R'; intros ->; destruct Hm').
  destruct (agree_attr st m x H1 (L m Hm)) as (_ & A1 & A2). destruct (agree_attr st' m x H2 (L' m Hm')) as (_ & _ & B2).
  split; [|exact A1]. intros N. rewrite (A2 N), (B2 N). reflexivity.
Qed.

Lemma reached n l st : l <> [] -> (forall m, In m l -> In m module_names) -> imports package (8 + n) l fresh = Some st -> In st reach.
Proof.
  intros N Hl E. destruct (imports_from n l fresh (or_introl eq_refl) Hl) as (s & Es & R & _). rewrite E in Es. injection Es as <-. exact (R N).
Qed.

Lemma core_attr st m x : In st reach -> In m core_modules -> submodule_b m x = false -> pattr st (OModule m) x = pattr full (OModule m) x.
Proof.
  intros Hs Hm Hx. apply (agree_attr st m x Hs (core_loaded st m Hs Hm)). intros N. unfold submodule_b in Hx.
  assert (existsb (String.eqb (m ++ "." ++ x)) module_names = true) as T.
  { apply existsb_exists. exists (m ++ "." ++ x)%string. split; [exact N|apply String.eqb_refl]. }
  rewrite T in Hx. discriminate Hx.
Qed.

(** The functions of the public interface are those of utils.py. *)
Lemma public_b : forallb (fun f => is_fun_obj (pattr full (OModule "atoparser") f) "atoparser.utils" f && negb (submodule_b "atoparser" f) &&
  is_some (functions "atoparser.utils" f)) public_functions = true.
Proof. vm_cast_no_check (@eq_refl bool true). Qed.

Theorem C64_public_functions n l st f : l <> [] -> (forall m, In m l -> In m module_names) ->
  imports package (8 + n) l fresh = Some st -> In f public_functions ->
  pattr st (OModule "atoparser") f = Some (OFun "atoparser.utils" f) /\ functions "atoparser.utils" f <> None.
Proof.
  intros N Hl E Hf. pose proof (reached n l st N Hl E) as R. pose proof public_b as B. rewrite forallb_forall in B. specialize (B _ Hf).
  apply andb_prop in B as [B B3]. apply andb_prop in B as [B1 B2].
  rewrite (core_attr st "atoparser" f R (or_introl eq_refl)); [|destruct (submodule_b "atoparser" f); [discriminate B2|reflexivity]].
  split; [apply is_fun_obj_eq, B1|apply is_some_not, B3].
Qed.

(** Running the reader as a script calls main, once, when everything is defined; importing it does
    not ([C64_any_order]). *)
Definition calls_main (r : option pstate) : bool :=
  match r with Some st => calls_eqb (p_calls st) [("__main__", "main")] | None => false end.
Lemma script n : calls_main (run_script package (8 + n) "atoparser.reader" fresh) = true.
Proof. vm_cast_no_check (@eq_refl bool true). Qed.
Lemma calls_main_eq r : calls_main r = true -> exists st, r = Some st /\ p_calls st = [("__main__", "main")].
Proof. destruct r as [st|]; [|discriminate]. intros H. exists st. split; [reflexivity|]. apply calls_eqb_eq, H. Qed.

Theorem C64_script n : exists st, run_script package (8 + n) "atoparser.reader" fresh = Some st /\ p_calls st = [("__main__", "main")].
Proof. apply calls_main_eq, script. Qed.

(** The struct modules have no submodules. *)
Definition struct_names : list string := "atoparser.structs.shared" :: map module_of spec_versions.
Lemma no_sub m y : In m struct_names -> submodule_b m y = false.
Proof.
  intros Hi. unfold submodule_b. apply not_true_is_false. intros T. apply existsb_exists in T as (k & Hk & T). apply String.eqb_eq in T. subst k.
  unfold struct_names in Hi. cbn [In map spec_versions] in Hi. cbv [In module_names app map spec_versions] in Hk. cbn [module_of vs_name underscores] in Hi, Hk.
  repeat (destruct Hi as [<- | Hi]; [cbn in Hk; repeat (destruct Hk as [Hk|Hk]; [discriminate Hk|]); exact Hk|]). exact Hi.
Qed.
Lemma struct_core m : In m struct_names -> In m core_modules.
Proof. unfold core_modules, struct_names. rewrite in_app_iff. cbn [In]. tauto. Qed.
Lemma struct_name_in m : (m = "atoparser.structs.shared" \/ exists vs, In vs spec_versions /\ m = module_of vs) -> In m struct_names.
Proof. intros [-> | (vs & Hv & ->)]; [left; reflexivity|right; apply in_map, Hv]. Qed.

(** The struct modules, imported so, define what C62 is about. *)
Definition same_structs (ns : namespaces) : bool :=
  forallb (fun m => negb (String.eqb m "ctypes") && is_none_b (assoc m libraries) &&
    forallb (fun x => negb (submodule_b m x) && (String.eqb x "__name__" || opt_eqb obj_eqb (pattr full (OModule m) x) (mod_attr ns m x)))
      (names_in full m ++ match assoc m ns with Some n => map fst n | None => [] end)) struct_names.
Lemma structs_b : match import_all struct_source [] with Some ns => same_structs ns | None => false end = true.
Proof. vm_cast_no_check (@eq_refl bool true). Qed.

Theorem C64_struct_modules n l st ns m x : l <> [] -> (forall m, In m l -> In m module_names) ->
  imports package (8 + n) l fresh = Some st -> import_all struct_source [] = Some ns ->
  (m = "atoparser.structs.shared" \/ exists vs, In vs spec_versions /\ m = module_of vs) -> x <> "__name__" ->
  pattr st (OModule m) x = mod_attr ns m x.
Proof.
  intros N Hl E Hns Hm Hx. pose proof (reached n l st N Hl E) as R.
  pose proof (struct_name_in m Hm) as Hi. pose proof (struct_core m Hi) as Hc.
  pose proof structs_b as B. rewrite Hns in B. unfold same_structs in B. rewrite forallb_forall in B. specialize (B _ Hi).
  apply andb_prop in B as [B B2]. apply andb_prop in B as [B0 B1].
  assert (assoc m libraries = None) as Hn by (destruct (assoc m libraries); [discriminate B1|reflexivity]).
  rewrite forallb_forall in B2.
  rewrite (core_attr st m x R Hc (no_sub m x Hi)).
  assert (K : In x (names_in full m ++ match assoc m ns with Some n => map fst n | None => [] end) \/
              (pattr full (OModule m) x = None /\ mod_attr ns m x = None)).
  { rewrite (pattr_package full m x Hn), in_app_iff. unfold names_in, mod_attr.
    destruct (String.eqb m "ctypes"); [discriminate B0|].
    destruct (assoc m (p_mods full)) as [n1|]; [destruct (assoc x n1) as [v|] eqn:E1; [left; left; exact (assoc_in_names _ _ _ E1)|]|];
    (destruct (assoc m ns) as [n2|]; [destruct (assoc x n2) as [v|] eqn:E2; [left; right; exact (assoc_in_names _ _ _ E2)|]|]); auto. }
  destruct K as [K|[K1 K2]]; [|congruence].
  specialize (B2 _ K). apply andb_prop in B2 as [_ B2]. rewrite (proj2 (String.eqb_neq x "__name__") Hx) in B2. cbn [orb] in B2.
  destruct (pattr full (OModule m) x) as [o|], (mod_attr ns m x) as [o'|]; try discriminate B2; [|reflexivity].
  apply obj_eqb_eq in B2. rewrite B2. reflexivity.
Qed.

(** ** The names that the interpreted program uses *)

Fixpoint all2 {A B} (f : A -> B -> bool) (l : list A) (m : list B) : bool :=
  match l, m with [], [] => true | a :: l, b :: m => f a b && all2 f l m | _, _ => false end.
Lemma all2_forall {A B} (f : A -> B -> bool) (P : A -> B -> Prop) :
  (forall a b, f a b = true -> P a b) -> forall l m, all2 f l m = true -> Forall2 P l m.
Proof.
  intros H. induction l as [|a l IH]; intros [|b m] E; try discriminate E; constructor; cbn [all2] in E; apply andb_prop in E as [E1 E2]; auto.
Qed.

Fixpoint stands_b (k : nat) (o : obj) (v : value) : bool :=
  match v with
  | VFun m f => is_fun_obj (Some o) m f
  | VModule m => match o with OModule x => String.eqb x m | _ => false end
  | VStr s => is_str_obj (Some o) s
  | VInt z => is_int_obj (Some o) z
  | VCType t => is_some_type (type_of o) t
  | VHClass c => header_ok "atoparser.structs.atop_1_26" o c
  | VList i =>
      match k, nth_error heap0 i, o with
      | S k, Some (CList vs), OList l => all2 (stands_b k) l vs
      | _, _, _ => false
      end
  | VDict i =>
      match k, nth_error heap0 i, o with
      | S k, Some (CDict e), ODict d => all2 (fun a b => is_str_obj (Some (fst a)) (fst b) && stands_b k (snd a) (snd b)) d e
      | _, _, _ => false
      end
  | _ => false
  end.

Lemma stands_b_ok k : forall o v, stands_b k o v = true -> stands heap0 o v.
Proof.
  induction k as [|k IH]; intros o v H; destruct v; try discriminate H; cbn [stands_b] in H;
    try (apply is_fun_obj_eq in H; injection H as ->; apply st_fun);
    try (destruct o; try discriminate H; apply String.eqb_eq in H; subst; apply st_module);
    try (apply is_str_obj_eq in H; injection H as ->; apply st_plain; constructor);
    try (apply is_int_obj_eq in H; injection H as ->; apply st_plain; constructor);
    try (apply is_some_type_eq in H; apply st_plain; constructor; exact H);
    try (apply header_ok_facts in H; apply st_plain; destruct H; constructor; assumption).
  - destruct (nth_error heap0 id) as [[| | |vs|]|] eqn:E; try discriminate H. destruct o; try discriminate H.
    eapply st_list; [exact E|]. revert H. apply all2_forall, IH.
  - destruct (nth_error heap0 id) as [[| | | |e]|] eqn:E; try discriminate H. destruct o; try discriminate H.
    eapply st_dict; [exact E|]. revert H. apply all2_forall. intros [a x] [b y] H. cbn [fst snd] in *. apply andb_prop in H as [H1 H2].
    apply is_str_obj_eq in H1. split; [congruence|apply IH, H2].
Qed.

Definition interp_names (m : string) : list string :=
  match assoc m modules with Some e => map fst e | None => [] end ++ ["parse_args"] ++
  match assoc m program with Some md => map fst (md_funs md) ++ map fst (md_imports md) | None => [] end.

Lemma globals_names m x v : globals m x = Some v -> In x (interp_names m).
Proof.
  unfold globals, interp_names. cbn [global]. rewrite !in_app_iff.
  destruct (assoc m modules) as [e|]; [destruct (assoc x e) as [w|] eqn:E; [intros _; left; exact (assoc_in_names _ _ _ E)|]|];
  (destruct (String.eqb m RD && String.eqb x "parse_args")%bool eqn:Ep;
    [intros _; apply andb_prop in Ep as [_ Ep]; apply String.eqb_eq in Ep; subst x; right; left; left; reflexivity|]);
  (destruct (assoc m program) as [md|]; [|discriminate]);
  (destruct (assoc x (md_funs md)) as [fd|] eqn:Ef; [intros _; right; right; apply in_or_app; left; exact (assoc_in_names _ _ _ Ef)|]);
  (destruct (assoc x (md_imports md)) as [im|] eqn:Ei; [intros _; right; right; apply in_or_app; right; exact (assoc_in_names _ _ _ Ei)|discriminate]).
Qed.

Definition interp_modules : list string := ["atoparser.utils"; "atoparser.parsers.atop_1_26"; "atoparser"; "atoparser.reader"].
Definition skipped_b (m x : string) : bool :=
  existsb (String.eqb x) (["__name__"; "Union"; "annotations"] ++ public_types) || submodule_b m x.
Definition names_ok (f : pstate) : bool :=
  forallb (fun m =>
    forallb (fun x => match globals m x with
                      | Some v => match pattr f (OModule m) x with Some o => stands_b 3 o v && negb (submodule_b m x) | None => false end
                      | None => true
                      end) (interp_names m) &&
    forallb (fun x => is_some (globals m x) || skipped_b m x) (names_in f m)) interp_modules.
Lemma names_b : names_ok full = true.
Proof. vm_cast_no_check (@eq_refl bool true). Qed.

(** Every name that the interpreted program of C57 to C60 finds in a module is bound there by
    the imports, to what the interpreter works with; and the imports bind no other names than
    types, submodules and what concerns types. *)
Theorem C64_interpreter_names n l st m x : (forall m, In m l -> In m module_names) ->
  imports package (8 + n) l fresh = Some st -> In m l -> In m interp_modules ->
  (forall v, globals m x = Some v -> exists o, pattr st (OModule m) x = Some o /\ stands heap0 o v) /\
  (globals m x = None -> pattr st (OModule m) x <> None -> not_interpreted m x).
Proof.
  intros Hl E Hm Hi. destruct (imports_from n l fresh (or_introl eq_refl) Hl) as (s & Es & R & _ & L & _). rewrite E in Es. injection Es as <-.
  assert (In st reach) as H1 by (apply R; intros ->; destruct Hm). clear R. specialize (L m Hm).
  pose proof names_b as B. unfold names_ok in B. rewrite forallb_forall in B. specialize (B _ Hi). apply andb_prop in B as [B1 B2].
  rewrite forallb_forall in B1, B2. destruct (agree_attr st m x H1 L) as (Hn & A1 & A2). split.
  - intros v Hv. specialize (B1 _ (globals_names _ _ _ Hv)). cbv beta in B1. rewrite Hv in B1.
    destruct (pattr full (OModule m) x) as [o|] eqn:Ef; [|discriminate B1]. apply andb_prop in B1 as [B1 B3].
    exists o. split; [|eapply stands_b_ok; exact B1]. apply A2. intros N. unfold submodule_b in B3.
    assert (existsb (String.eqb (m ++ "." ++ x)) module_names = true) as T.
    { apply existsb_exists. exists (m ++ "." ++ x)%string. split; [exact N|apply String.eqb_refl]. }
    rewrite T in B3. discriminate B3.
  - intros Hv Hx. destruct (submodule_b m x) eqn:Es; [right; apply submodule_b_in, Es|].
    assert (~ submodule m x) as Ns.
    { intros N. unfold submodule_b in Es. assert (existsb (String.eqb (m ++ "." ++ x)) module_names = true) as T.
      { apply existsb_exists. exists (m ++ "." ++ x)%string. split; [exact N|apply String.eqb_refl]. }
      rewrite T in Es. discriminate Es. }
    rewrite (A2 Ns), (pattr_package full m x Hn) in Hx. unfold names_in in B2.
    destruct (assoc m (p_mods full)) as [nm|]; [|contradiction]. destruct (assoc x nm) as [w|] eqn:Ew; [|contradiction].
    specialize (B2 _ (assoc_in_names _ _ _ Ew)). cbv beta in B2. rewrite Hv in B2. cbn [is_some orb] in B2. unfold skipped_b in B2.
    rewrite Es, orb_false_r in B2. left. apply existsb_exists in B2 as (k & Hk & Eq). apply String.eqb_eq in Eq. subst k. exact Hk.
Qed.

