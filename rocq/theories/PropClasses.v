(** * C62: the text of the struct modules defines the file formats *)
From Coq Require Import List ZArith Lia Bool String Ascii.
From Coq Require Import Init.Byte.
From Verif Require Import PyBase CTypes S_shared S_1_26 S_2_11 S_2_12 Model Spec SpecLog SpecFormat SpecFormatTables SpecDocument
  BaseProofs TableProofs PropHeader PropFormat.
From Verif Require Import PySyntax PyClasses SourceClasses PyEval PyProgram SpecClasses.
Import ListNotations.
Local Open Scope string_scope.
Local Open Scope list_scope.
Local Open Scope Z_scope.

(** ** Deciding equality of types *)

Lemma ctype_ind' (P : ctype -> Prop) :
  (forall s n, P (TInt s n)) -> P TFloat -> P TChar -> (forall e n, P e -> P (TArr e n)) ->
  (forall n fs ls, Forall (fun f => P (snd f)) fs -> P (TStruct n fs ls)) -> forall t, P t.
Proof.
  intros H1 H2 H3 H4 H5. fix IH 1. intros [s n| | |e n|n fs ls].
  - apply H1.
  - exact H2.
  - exact H3.
  - apply H4, IH.
  - apply H5. induction fs as [|[x t] fs IHf]; constructor; [apply IH|exact IHf].
Qed.

Fixpoint ctype_eqb (a b : ctype) : bool :=
  match a, b with
  | TInt s n, TInt s' n' => Bool.eqb s s' && (n =? n')
  | TFloat, TFloat | TChar, TChar => true
  | TArr e n, TArr e' n' => ctype_eqb e e' && (n =? n')
  | TStruct n fs ls, TStruct n' fs' ls' =>
      String.eqb n n' &&
      (fix go (l m : list (string * ctype)) := match l, m with
         | [], [] => true
         | (x, t) :: l, (y, u) :: m => String.eqb x y && ctype_eqb t u && go l m
         | _, _ => false
         end) fs fs' &&
      list_eqb (fun p q : string * string => String.eqb (fst p) (fst q) && String.eqb (snd p) (snd q)) ls ls'
  | _, _ => false
  end.

Lemma ctype_eqb_eq a : forall b, ctype_eqb a b = true -> a = b.
Proof.
  induction a as [s n| | |e n IH|n fs ls IH] using ctype_ind'; intros [s' n'| | |e' n'|n' fs' ls'] H; try discriminate H; try reflexivity;
    cbn [ctype_eqb] in H.
  - apply andb_prop in H as [H1 H2]. apply eqb_prop in H1. apply Z.eqb_eq in H2. congruence.
  - apply andb_prop in H as [H1 H2]. apply IH in H1. apply Z.eqb_eq in H2. congruence.
  - apply andb_prop in H as [H H3]. apply andb_prop in H as [H1 H2]. apply String.eqb_eq in H1. subst n'.
    assert (fs = fs') as <-.
    { clear -IH H2. revert fs' H2. induction IH as [|[x t] l Hx _ IH2]; intros [|[y u] m] H; try discriminate H; [reflexivity|].
      apply andb_prop in H as [H H3]. apply andb_prop in H as [H1 H2]. apply String.eqb_eq in H1. cbn [snd] in Hx. apply Hx in H2.
      f_equal; [congruence|]. apply IH2, H3. }
    f_equal. revert H3. apply list_eqb_eq. intros [x y] [x' y'] H. cbn [fst snd] in H. apply andb_prop in H as [Ha Hb].
    apply String.eqb_eq in Ha, Hb. congruence.
Qed.

(** ** Names of attributes *)

Fixpoint attr_names (o : obj) : list string :=
  match o with
  | OClass _ bases attrs _ => map fst attrs ++ flat_map attr_names bases
  | _ => []
  end.

Lemma assoc_in_names {A} (k : string) (l : list (string * A)) v : assoc k l = Some v -> In k (map fst l).
Proof.
  induction l as [|[x w] l IH]; cbn [assoc]; [discriminate|].
  destruct (String.eqb k x) eqn:E; [intros _; left; apply String.eqb_eq in E; symmetry; exact E|].
  intros H. right. exact (IH H).
Qed.

Lemma lookup_in_names : forall o a v, class_lookup o a = Some v -> In a (attr_names o).
Proof.
  fix IH 1. intros o x v H. destruct o as [| | | | | | |n bases attrs f| | | |]; try discriminate H.
  cbn [class_lookup attr_names] in *. rewrite in_app_iff. destruct (assoc x attrs) as [w|] eqn:E; [left; exact (assoc_in_names _ _ _ E)|right].
  clear E. induction bases as [|b bases IHb]; [discriminate H|]. cbn [flat_map]. rewrite in_app_iff.
  destruct (class_lookup b x) as [w|] eqn:E; [left; exact (IH b x w E)|right; exact (IHb H)].
Qed.

(** ** Importing the modules, and what is checked of the result *)

Definition is_some_type (o : option ctype) (t : ctype) : bool := match o with Some u => ctype_eqb u t | None => false end.
Definition is_none_obj (o : option obj) : bool := match o with Some ONone => true | _ => false end.
Definition is_str_obj (o : option obj) (s : string) : bool := match o with Some (OStr x) => String.eqb x s | _ => false end.
Definition is_int_obj (o : option obj) (n : Z) : bool := match o with Some (OInt x) => x =? n | _ => false end.
Definition is_fun_obj (o : option obj) (m f : string) : bool :=
  match o with Some (OFun m' f') => String.eqb m' m && String.eqb f' f | _ => false end.
Definition is_chainer (o : option obj) : bool :=
  match o with Some (OClass n _ _ None) => String.eqb n "atop_2_11.CGChainer" | _ => false end.
Definition is_some {A} (o : option A) : bool := match o with Some _ => true | None => false end.

Definition header_ok (m : string) (h : obj) (c : hclass) : bool :=
  is_some_type (type_of h) (hc_header c) && is_str_obj (class_lookup h "supported_version") (hc_version c) &&
  is_some_type (attr_type h "Record") (hc_record c) && is_some_type (attr_type h "SStat") (hc_sstat c) &&
  is_some_type (attr_type h "TStat") (hc_tstat c) &&
  match hc_cstat c with
  | Some t => is_some_type (attr_type h "CStat") t && is_chainer (class_lookup h "CGChainer")
  | None => is_none_obj (class_lookup h "CStat") && is_none_obj (class_lookup h "CGChainer")
  end &&
  forallb (fun f => is_fun_obj (class_lookup h f) "atoparser.structs.shared" ("HeaderMixin." ++ f)%string) header_methods &&
  forallb (fun a => is_some (field_at (hc_header c) a) || is_some (hclass_attr c a) || existsb (String.eqb a) header_methods ||
                    (String.eqb a "PStat" && String.eqb m "atoparser.structs.atop_1_26")) (attr_names h).

Definition fields_eqb : list (string * ctype) -> list (string * ctype) -> bool :=
  list_eqb (fun a b => String.eqb (fst a) (fst b) && ctype_eqb (snd a) (snd b)).

Definition all_strings (l : list (obj * obj)) : bool :=
  forallb (fun e => match e with (OStr _, OStr _) => true | _ => false end) l.

(** A struct class: its [_fields_] are the fields of its instances, its limiters are strings. *)
Definition class_ok (o : obj) : bool :=
  match o with
  | OClass _ _ _ (Some fs) =>
      match class_lookup o "_fields_" with
      | Some (OList l) => match fields_of l with Some fs' => fields_eqb fs' fs | None => false end
      | _ => false
      end &&
      match class_lookup o "fields_limiters" with
      | Some (ODict l) => all_strings l && match l with [] => false | _ => true end
      | None => true
      | _ => false
      end
  | _ => true
  end.

(** Its attributes are its fields and these two. *)
Definition attrs_ok (x : string * obj) : bool :=
  if String.eqb (fst x) "Header" then true else
  match snd x with
  | OClass _ _ _ (Some fs) =>
      forallb (fun a => is_some (assoc a fs) || String.eqb a "_fields_" || String.eqb a "fields_limiters") (attr_names (snd x))
  | _ => true
  end.

(** The struct types inside a type. *)
Fixpoint structs_in (t : ctype) : list ctype :=
  match t with
  | TArr e _ => structs_in e
  | TStruct _ fs _ => t :: flat_map (fun f => structs_in (snd f)) fs
  | _ => []
  end.

Definition bound_classes (ns : namespaces) : list (string * string * ctype) :=
  flat_map (fun m => flat_map (fun x =>
    match mod_attr ns (fst m) (fst x) with
    | Some (OClass n b a (Some f)) => match type_of (OClass n b a (Some f)) with Some t => [(fst m, fst x, t)] | None => [] end
    | _ => []
    end) (snd m)) ns.

Definition named (o : obj) : option (string * obj) := match o with OTuple [OStr x; v] => Some (x, v) | _ => None end.
Definition pid_array (o : obj) : bool :=
  match o with
  | OItem (OClass n [] [] None) (OType u) => String.eqb n "ctypes.Array" && ctype_eqb u sh_pid_t
  | _ => false
  end.
Definition chainer_fields_ok (l : list obj) : bool :=
  match map named l with
  | [Some (x, t); Some (y, u)] =>
      String.eqb x "cstat" && is_some_type (type_of t) a2_11_CStat && String.eqb y "proclist" && pid_array u
  | _ => false
  end.
Definition chainer_ok (o : obj) : bool :=
  is_chainer (Some o) &&
  match class_lookup o "_fields_" with Some (OList l) => chainer_fields_ok l | _ => false end &&
  is_fun_obj (class_lookup o "__init__") "atoparser.structs.atop_2_11" "CGChainer.__init__".

Definition is_some_b {A} (f : A -> bool) (o : option A) : bool := match o with Some x => f x | None => false end.

Definition module_ok (ns : namespaces) (x : string * hclass) : bool :=
  let (m, c) := x in
  is_some_b (fun h => header_ok m h c) (mod_attr ns m "Header") &&
  is_some_b (fun r => is_some_type (type_of r) (hc_record c)) (mod_attr ns m "Record").

Definition ns_ok (ns : namespaces) : bool :=
  forallb (module_ok ns) struct_modules &&
  is_int_obj (mod_attr ns "atoparser.structs.atop_1_26" "PATCHSTAT") a1_26_PATCHSTAT &&
  is_int_obj (mod_attr ns "atoparser.structs.atop_1_26" "IOSTAT") a1_26_IOSTAT &&
  forallb (fun m => forallb (fun x => class_ok (snd x) && attrs_ok x) (snd m)) ns &&
  (let bt := map snd (bound_classes ns) in forallb (fun t => forallb (fun u => existsb (ctype_eqb u) bt) (structs_in t)) bt) &&
  is_some_b chainer_ok (mod_attr ns "atoparser.structs.atop_2_11" "CGChainer").

Lemma ns_ok_b : match import_all struct_source [] with Some ns => ns_ok ns | None => false end = true.
Proof. vm_compute. reflexivity. Qed.

Lemma imported ns : import_all struct_source [] = Some ns -> ns_ok ns = true.
Proof. intros H. pose proof ns_ok_b as B. rewrite H in B. exact B. Qed.

(** The modules are those of the versions. *)
Lemma modules_table : struct_modules = map (fun x => (module_of (fst x), snd x)) table.
Proof. vm_compute. reflexivity. Qed.

(** ** Readings of the checks *)

Lemma is_some_type_eq o t : is_some_type o t = true -> o = Some t.
Proof. destruct o as [u|]; [|discriminate]. intros H. f_equal. exact (ctype_eqb_eq u t H). Qed.
Lemma is_none_obj_eq o : is_none_obj o = true -> o = Some ONone.
Proof. destruct o as [[]|]; try discriminate. reflexivity. Qed.
Lemma is_str_obj_eq o s : is_str_obj o s = true -> o = Some (OStr s).
Proof. destruct o as [[]|]; try discriminate. cbn [is_str_obj]. intros H. apply String.eqb_eq in H. congruence. Qed.
Lemma is_int_obj_eq o s : is_int_obj o s = true -> o = Some (OInt s).
Proof. destruct o as [[]|]; try discriminate. cbn [is_int_obj]. intros H. apply Z.eqb_eq in H. congruence. Qed.
Lemma is_fun_obj_eq o m f : is_fun_obj o m f = true -> o = Some (OFun m f).
Proof.
  destruct o as [[]|]; try discriminate. cbn [is_fun_obj]. intros H. apply andb_prop in H as [H1 H2].
  apply String.eqb_eq in H1, H2. congruence.
Qed.
Lemma is_chainer_eq o : is_chainer o = true -> exists b a, o = Some (OClass "atop_2_11.CGChainer" b a None).
Proof.
  destruct o as [[| | | | | | |n b a [f|]| | | |]|]; try discriminate. cbn [is_chainer]. intros H. apply String.eqb_eq in H. subst n. eauto.
Qed.
Lemma fields_eqb_eq l m : fields_eqb l m = true -> l = m.
Proof.
  apply list_eqb_eq. intros [x t] [y u] H. cbn [fst snd] in H. apply andb_prop in H as [H1 H2]. apply String.eqb_eq in H1.
  apply ctype_eqb_eq in H2. congruence.
Qed.

Lemma module_in ns m c : import_all struct_source [] = Some ns -> In (m, c) struct_modules -> module_ok ns (m, c) = true.
Proof.
  intros H Hi. apply imported in H. unfold ns_ok in H. rewrite !andb_true_iff in H. destruct H as (((((H & _) & _) & _) & _) & _).
  rewrite forallb_forall in H. exact (H _ Hi).
Qed.

Record header_facts (m : string) (h : obj) (c : hclass) : Prop := {
  hf_type : type_of h = Some (hc_header c);
  hf_version : class_lookup h "supported_version" = Some (OStr (hc_version c));
  hf_record : attr_type h "Record" = Some (hc_record c);
  hf_sstat : attr_type h "SStat" = Some (hc_sstat c);
  hf_tstat : attr_type h "TStat" = Some (hc_tstat c);
  hf_cstat : match hc_cstat c with
             | Some t => attr_type h "CStat" = Some t /\ exists b a, class_lookup h "CGChainer" = Some (OClass "atop_2_11.CGChainer" b a None)
             | None => class_lookup h "CStat" = Some ONone /\ class_lookup h "CGChainer" = Some ONone
             end;
  hf_methods : forall f, In f header_methods -> class_lookup h f = Some (OFun "atoparser.structs.shared" ("HeaderMixin." ++ f)%string);
  hf_others : forall a, class_lookup h a <> None ->
    field_at (hc_header c) a <> None \/ hclass_attr c a <> None \/ In a header_methods \/
    (a = "PStat" /\ m = "atoparser.structs.atop_1_26") }.

Lemma is_some_not {A} (o : option A) : is_some o = true -> o <> None.
Proof. destruct o; [discriminate 2|discriminate]. Qed.

Lemma header_ok_facts m h c : header_ok m h c = true -> header_facts m h c.
Proof.
  unfold header_ok. rewrite !andb_true_iff. intros (((((((H1 & H2) & H3) & H4) & H5) & H6) & H7) & H8).
  constructor.
  - apply is_some_type_eq, H1.
  - apply is_str_obj_eq, H2.
  - apply is_some_type_eq, H3.
  - apply is_some_type_eq, H4.
  - apply is_some_type_eq, H5.
  - destruct (hc_cstat c) as [t|]; apply andb_prop in H6 as [Ha Hb].
    + split; [apply is_some_type_eq, Ha|apply is_chainer_eq, Hb].
    + split; apply is_none_obj_eq; assumption.
  - intros f Hf. rewrite forallb_forall in H7. apply is_fun_obj_eq, H7, Hf.
  - intros a Ha. destruct (class_lookup h a) as [v|] eqn:E; [|contradiction]. apply lookup_in_names in E.
    rewrite forallb_forall in H8. specialize (H8 _ E). cbv beta in H8. rewrite !orb_true_iff in H8.
    destruct H8 as [[[H8|H8]|H8]|H8].
    + left. apply is_some_not, H8.
    + right. left. apply is_some_not, H8.
    + right. right. left. apply existsb_exists in H8 as (x & Hx & He). apply String.eqb_eq in He. subst x. exact Hx.
    + right. right. right. apply andb_prop in H8 as [Hx Hy]. apply String.eqb_eq in Hx, Hy. split; assumption.
Qed.

Lemma module_facts ns m c : import_all struct_source [] = Some ns -> In (m, c) struct_modules ->
  exists h r, mod_attr ns m "Header" = Some h /\ header_facts m h c /\
              mod_attr ns m "Record" = Some r /\ type_of r = Some (hc_record c).
Proof.
  intros H Hi. pose proof (module_in _ _ _ H Hi) as M. unfold module_ok in M. apply andb_prop in M as [M1 M2].
  destruct (mod_attr ns m "Header") as [h|]; [|discriminate M1]. destruct (mod_attr ns m "Record") as [r|]; [|discriminate M2].
  cbn [is_some_b] in M1, M2. exists h, r. repeat (split; [first [reflexivity|apply header_ok_facts; exact M1]|]).
  apply is_some_type_eq, M2.
Qed.

Lemma part_of_header m h c q : header_facts m h c -> header_part h q = part_type c q.
Proof.
  intros F. destruct q; cbn [header_part part_type].
  - exact (hf_type _ _ _ F).
  - exact (hf_record _ _ _ F).
  - exact (hf_sstat _ _ _ F).
  - exact (hf_tstat _ _ _ F).
  - pose proof (hf_cstat _ _ _ F) as G. destruct (hc_cstat c) as [t|].
    + exact (proj1 G).
    + unfold attr_type. rewrite (proj1 G). reflexivity.
Qed.

(** ** C62 *)

(** Importing the struct modules succeeds. *)
Theorem C62_modules_import : exists ns, import_all struct_source [] = Some ns.
Proof. pose proof ns_ok_b as B. destruct (import_all struct_source []) as [ns|]; [eauto|discriminate B]. Qed.

(** The class Header that the text of the module of a version defines gives every part of a log
    the size, the fields and the dictionary of the file format, and no part that the format has
    not. *)
Theorem C62_format ns vs : import_all struct_source [] = Some ns -> In vs spec_versions ->
  exists h, mod_attr ns (module_of vs) "Header" = Some h /\
    class_lookup h "supported_version" = Some (OStr (vs_name vs)) /\
    forall q, option_map sizeof (header_part h q) = part_size vs q /\
      forall t b, header_part h q = Some t -> part_size vs q = Some (zlen b) ->
        object_is q (vs_name vs) b (mkObj t b) /\
        exists d, struct_to_dict (mkObj t b) = Ok d /\
          forall p ix x, json_scalar x -> (json_path d p ix = Some x <-> entry_is q (vs_name vs) b p ix x).
Proof.
  intros H Hv. destruct (table_spec vs Hv) as [c Hc].
  assert (In (module_of vs, c) struct_modules) as Hi.
  { rewrite modules_table. apply in_map_iff. exists (vs, c). split; [reflexivity|exact Hc]. }
  destruct (module_facts _ _ _ H Hi) as (h & r & Hh & F & _). exists h. split; [exact Hh|]. split.
  { rewrite (hf_version _ _ _ F). destruct (table_sizes _ _ Hc) as [-> _]. reflexivity. }
  intros q. rewrite (part_of_header _ _ _ q F). split; [exact (part_sizes vs c q Hc)|].
  intros t b Ht Hb. pose proof (part_sizes vs c q Hc) as P. rewrite Ht, Hb in P. injection P as P.
  split; [exact (object_of_part vs c q t b Hc Ht (eq_sym P))|].
  exact (C51_dictionary_exact vs c q t b (table_class_for _ _ Hc) Ht Hb).
Qed.

Lemma type_denoted h a t : attr_type h a = Some t -> exists o, class_lookup h a = Some o /\ denotes o (VCType t).
Proof.
  unfold attr_type. destruct (class_lookup h a) as [o|]; [|discriminate]. intros Ht. exists o. split; [reflexivity|]. constructor. exact Ht.
Qed.

(** What a struct class has as [_fields_] and [fields_limiters]. *)
Lemma fields_denoted l fs : fields_of l = Some fs -> Forall2 denotes l (map (fun f => VTuple [VStr (fst f); VCType (snd f)]) fs).
Proof.
  revert fs. induction l as [|o l IH]; intros fs H; cbn [fields_of] in H; [injection H as <-; constructor|].
  destruct o as [| | |[|[|s| | | | | | | | | |] [|v [|]]]| | | | | | | |]; try discriminate H.
  destruct (type_of v) as [t|] eqn:Et; [|discriminate H]. destruct (fields_of l) as [fs'|]; [|discriminate H]. injection H as <-.
  cbn [map fst snd]. constructor; [|exact (IH _ eq_refl)]. constructor. constructor; [constructor|]. constructor; [constructor; exact Et|constructor].
Qed.

Lemma limiters_denoted l : all_strings l = true ->
  Forall2 (fun e f => fst e = OStr (fst f) /\ denotes (snd e) (snd f)) l (map (fun f => (fst f, VStr (snd f))) (limiters (Some (ODict l)))).
Proof.
  cbn [limiters]. induction l as [|[k v] l IH]; intros H; cbn [flat_map map app]; [constructor|].
  unfold all_strings in H. cbn [forallb] in H. apply andb_prop in H as [H1 H2].
  destruct k; try discriminate H1. destruct v; try discriminate H1. cbn [app map fst snd]. constructor; [|exact (IH H2)].
  cbn [fst snd]. split; [reflexivity|constructor].
Qed.

Lemma class_ok_attr o t a : class_ok o = true -> type_of o = Some t -> (exists n b at' f, o = OClass n b at' (Some f)) ->
  match class_attr t a with
  | Some v => exists x, class_lookup o a = Some x /\ denotes x v
  | None => a <> "_fields_" /\ (a = "fields_limiters" -> class_lookup o a = None)
  end.
Proof.
  intros C Ht (n & b & at' & fs & ->). unfold class_ok in C. apply andb_prop in C as [C1 C2].
  change (Some (TStruct n fs (limiters (class_lookup (OClass n b at' (Some fs)) "fields_limiters"))) = Some t) in Ht.
  assert (t = TStruct n fs (limiters (class_lookup (OClass n b at' (Some fs)) "fields_limiters"))) as -> by congruence. clear Ht.
  unfold class_attr.
  destruct (String.eqb a "_fields_") eqn:E1.
  { apply String.eqb_eq in E1. subst a. destruct (class_lookup (OClass n b at' (Some fs)) "_fields_") as [[| | | |l| | | | | | |]|]; try discriminate C1.
    exists (OList l). split; [reflexivity|]. destruct (fields_of l) as [fs'|] eqn:Ef; [|discriminate C1]. apply fields_eqb_eq in C1. subst fs'.
    unfold fields_val. cbn [struct_fields]. constructor. exact (fields_denoted l fs Ef). }
  apply String.eqb_neq in E1.
  destruct (String.eqb a "fields_limiters") eqn:E2.
  { apply String.eqb_eq in E2. subst a.
    destruct (class_lookup (OClass n b at' (Some fs)) "fields_limiters") as [[| | | | |l| | | | | |]|]; try discriminate C2.
    - apply andb_prop in C2 as [C2 C3]. pose proof (limiters_denoted l C2) as D.
      destruct (limiters (Some (ODict l))) as [|p r] eqn:El.
      + exfalso. destruct l; [discriminate C3|]. inversion D.
      + exists (ODict l). split; [reflexivity|]. constructor. exact D.
    - cbn [limiters]. split; [exact E1|reflexivity]. }
  apply String.eqb_neq in E2. split; [exact E1|]. intros ->. contradiction.
Qed.

Lemma assoc_in' {A} (k : string) (l : list (string * A)) v : assoc k l = Some v -> In (k, v) l.
Proof.
  induction l as [|[x w] l IH]; cbn [assoc]; [discriminate|].
  destruct (String.eqb k x) eqn:E; [|intros H; right; exact (IH H)]. apply String.eqb_eq in E. subst x. intros [= ->]. left. reflexivity.
Qed.

Lemma bound_ok ns m x o : import_all struct_source [] = Some ns -> m <> "ctypes" -> mod_attr ns m x = Some o ->
  class_ok o = true /\ attrs_ok (x, o) = true.
Proof.
  intros H Hm Ho. apply imported in H. unfold ns_ok in H. rewrite !andb_true_iff in H. destruct H as (((_ & H) & _) & _).
  unfold mod_attr in Ho. destruct (String.eqb m "ctypes") eqn:E; [apply String.eqb_eq in E; contradiction|].
  destruct (assoc m ns) as [n|] eqn:En; [|discriminate Ho]. apply assoc_in' in En, Ho.
  rewrite forallb_forall in H. specialize (H _ En). cbv beta in H. rewrite forallb_forall in H. specialize (H _ Ho). cbv beta in H.
  cbn [snd] in H. apply andb_prop in H. exact H.
Qed.

(** The attributes of the struct classes are those that the interpreter gives them: the fields
    (which it reads from the memory), [_fields_] and [fields_limiters], and no others. *)
Theorem C62_struct_attributes ns m x o t a : import_all struct_source [] = Some ns -> m <> "ctypes" -> x <> "Header" ->
  mod_attr ns m x = Some o -> (exists n b at' f, o = OClass n b at' (Some f)) -> type_of o = Some t ->
  match class_attr t a with
  | Some v => exists y, class_lookup o a = Some y /\ denotes y v
  | None => class_lookup o a <> None -> exists f, In f (struct_fields t) /\ fst f = a
  end.
Proof.
  intros H Hm Hx Ho Hs Ht. destruct (bound_ok _ _ _ _ H Hm Ho) as [C A]. pose proof (class_ok_attr o t a C Ht Hs) as R.
  destruct (class_attr t a) as [v|]; [exact R|]. destruct R as [R1 R2]. intros Hl.
  destruct (class_lookup o a) as [w|] eqn:E; [|contradiction].
  destruct Hs as (n & b & at' & f & ->). unfold attrs_ok in A. cbn [fst snd] in A.
  destruct (String.eqb x "Header") eqn:Ex; [apply String.eqb_eq in Ex; contradiction|].
  rewrite forallb_forall in A. specialize (A _ (lookup_in_names _ _ _ E)). cbv beta in A. rewrite !orb_true_iff in A.
  change (Some (TStruct n f (limiters (class_lookup (OClass n b at' (Some f)) "fields_limiters"))) = Some t) in Ht.
  injection Ht as <-. cbn [struct_fields]. destruct A as [[A|A]|A].
  - destruct (assoc a f) as [u|] eqn:Ef; [|discriminate A]. exists (a, u). split; [exact (assoc_in' _ _ _ Ef)|reflexivity].
  - apply String.eqb_eq in A. contradiction.
  - apply String.eqb_eq in A. specialize (R2 A). discriminate R2.
Qed.

(** What the interpreter takes as the attributes of a struct module is what its text defines. *)
Theorem C62_interpreter_modules ns m c a v : import_all struct_source [] = Some ns -> In (m, c) struct_modules ->
  struct_module_attr m c a = Some v -> exists o, mod_attr ns m a = Some o /\ denotes o v.
Proof.
  intros H Hi. destruct (module_facts _ _ _ H Hi) as (h & r & Hh & F & Hr & Ht).
  unfold struct_module_attr.
  destruct (String.eqb a "Header") eqn:E1; [apply String.eqb_eq in E1; subst a; intros [= <-]; exists h; split; [exact Hh|]; destruct F; constructor; assumption|].
  destruct (String.eqb a "Record") eqn:E2; [apply String.eqb_eq in E2; subst a; intros [= <-]; exists r; split; [exact Hr|constructor; exact Ht]|].
  destruct (String.eqb m "atoparser.structs.atop_1_26") eqn:E3; [|discriminate]. apply String.eqb_eq in E3. subst m.
  apply imported in H. unfold ns_ok in H. rewrite !andb_true_iff in H. destruct H as (((((_ & H1) & H2) & _) & _) & _).
  destruct (String.eqb a "PATCHSTAT") eqn:E4; [apply String.eqb_eq in E4; subst a; intros [= <-]; exists (OInt a1_26_PATCHSTAT); split; [exact (is_int_obj_eq _ _ H1)|constructor]|].
  destruct (String.eqb a "IOSTAT") eqn:E5; [apply String.eqb_eq in E5; subst a; intros [= <-]; exists (OInt a1_26_IOSTAT); split; [exact (is_int_obj_eq _ _ H2)|constructor]|].
  discriminate.
Qed.

(** What it takes as the attributes of a Header class is what Python finds in the class and its
    bases: the tables of C62_interpreter_modules, the methods of HeaderMixin, and no others but
    the name PStat of version 1.26, which the code does not use. *)
Theorem C62_interpreter_headers ns m c h : import_all struct_source [] = Some ns -> In (m, c) struct_modules ->
  mod_attr ns m "Header" = Some h ->
  denotes h (VHClass c) /\
  (forall a v, hclass_attr c a = Some v -> exists o, class_lookup h a = Some o /\ denotes o v) /\
  (forall f, In f header_methods -> class_lookup h f = Some (OFun "atoparser.structs.shared" ("HeaderMixin." ++ f)%string)) /\
  (forall a, class_lookup h a <> None ->
     field_at (hc_header c) a <> None \/ hclass_attr c a <> None \/ In a header_methods \/
     (a = "PStat" /\ m = "atoparser.structs.atop_1_26")).
Proof.
  intros H Hi Hh. destruct (module_facts _ _ _ H Hi) as (h' & r & Hh' & F & _). rewrite Hh in Hh'. injection Hh' as <-.
  split; [destruct F; constructor; assumption|]. split; [|split; [exact (hf_methods _ _ _ F)|exact (hf_others _ _ _ F)]].
  intros a v. unfold hclass_attr.
  destruct (String.eqb a "supported_version") eqn:E1; [apply String.eqb_eq in E1; subst a; intros [= <-]; exists (OStr (hc_version c)); split; [exact (hf_version _ _ _ F)|constructor]|].
  destruct (String.eqb a "Record") eqn:E2; [apply String.eqb_eq in E2; subst a; intros [= <-]; exact (type_denoted _ _ _ (hf_record _ _ _ F))|].
  destruct (String.eqb a "SStat") eqn:E3; [apply String.eqb_eq in E3; subst a; intros [= <-]; exact (type_denoted _ _ _ (hf_sstat _ _ _ F))|].
  destruct (String.eqb a "TStat") eqn:E4; [apply String.eqb_eq in E4; subst a; intros [= <-]; exact (type_denoted _ _ _ (hf_tstat _ _ _ F))|].
  pose proof (hf_cstat _ _ _ F) as G.
  destruct (String.eqb a "CStat") eqn:E5.
  { apply String.eqb_eq in E5; subst a; intros [= <-]. destruct (hc_cstat c) as [t|].
    - exact (type_denoted _ _ _ (proj1 G)).
    - exists ONone. split; [exact (proj1 G)|constructor]. }
  destruct (String.eqb a "CGChainer") eqn:E6.
  { apply String.eqb_eq in E6; subst a; intros [= <-]. destruct (hc_cstat c) as [t|].
    - destruct G as [_ (b & at' & G)]. exists (OClass "atop_2_11.CGChainer" b at' None). split; [exact G|constructor].
    - exists ONone. split; [exact (proj2 G)|constructor]. }
  intros Hv. assert (m <> "ctypes") as Hm.
  { intros ->. revert Hi. clear. cbn [In struct_modules]. intuition discriminate. }
  destruct (bound_ok _ _ _ _ H Hm Hh) as [C _].
  assert (exists n b at' f, h = OClass n b at' (Some f)) as Hs.
  { pose proof (hf_type _ _ _ F) as Ft.
    assert (exists n fs l, hc_header c = TStruct n fs l) as (n & fs & l & Es)
      by (destruct (hc_header c); try discriminate Hv; eauto).
    rewrite Es in Ft. destruct h as [| | | | | |t|n' b at' [f|]| | | |]; try discriminate Ft; [|eauto].
    exfalso. cbn [type_of] in Ft. pose proof (hf_version _ _ _ F) as Fv. discriminate Fv. }
  pose proof (class_ok_attr h _ a C (hf_type _ _ _ F) Hs) as R. rewrite Hv in R. exact R.
Qed.

(** Those methods have the text that the interpreter runs. *)
Theorem C62_method_text f : In f header_methods ->
  functions "atoparser.structs.shared" ("HeaderMixin." ++ f) <> None.
Proof. cbn [In header_methods]. intros [<- | [<- | [<- | [<- | []]]]]; discriminate. Qed.

(** Structs inside structs are classes of the modules too, so that the above covers every object
    that can be reached from a log. *)
Theorem C62_nested ns m x o t u : import_all struct_source [] = Some ns -> m <> "ctypes" ->
  mod_attr ns m x = Some o -> (exists n b at' f, o = OClass n b at' (Some f)) -> type_of o = Some t ->
  In u (structs_in t) ->
  exists m' x' o', mod_attr ns m' x' = Some o' /\ (exists n b at' f, o' = OClass n b at' (Some f)) /\ type_of o' = Some u.
Proof.
  intros H Hm Ho Hs Ht Hu. apply imported in H. unfold ns_ok in H. rewrite !andb_true_iff in H. destruct H as ((_ & H) & _).
  pose proof Ho as Ho'. unfold mod_attr in Ho. destruct (String.eqb m "ctypes") eqn:E; [apply String.eqb_eq in E; contradiction|].
  destruct (assoc m ns) as [n|] eqn:En; [|discriminate Ho]. apply assoc_in' in En, Ho.
  rewrite forallb_forall in H.
  assert (In t (map snd (bound_classes ns))) as Hb.
  { apply in_map_iff. exists (m, x, t). split; [reflexivity|]. apply in_flat_map. exists (m, n). split; [exact En|].
    apply in_flat_map. exists (x, o). split; [exact Ho|]. cbn [fst].
    rewrite Ho'. destruct Hs as (n' & b & at' & f & ->). rewrite Ht. left. reflexivity. }
  specialize (H _ Hb). cbv beta in H. rewrite forallb_forall in H. specialize (H _ Hu). apply existsb_exists in H as (u' & Hu' & He).
  apply ctype_eqb_eq in He. subst u'. apply in_map_iff in Hu' as (((m', x'), t') & Et & Hu'). cbn [snd] in Et. subst t'.
  apply in_flat_map in Hu' as ((m1, n1) & _ & Hu'). apply in_flat_map in Hu' as ((x1, o1) & _ & Hu').
  cbn [fst snd] in Hu'. destruct (mod_attr ns m1 x1) as [[| | | | | | |n2 b2 a2 [f2|]| | | |]|] eqn:E2; try contradiction.
  destruct (type_of _) as [t2|] eqn:Et2; [|contradiction]. destruct Hu' as [Hu'|[]]. injection Hu' as -> -> ->.
  exists m', x', (OClass n2 b2 a2 (Some f2)). split; [exact E2|]. split; [eauto|exact Et2].
Qed.

Lemma named_eq o x v : named o = Some (x, v) -> o = OTuple [OStr x; v].
Proof.
  destruct o as [| | |l| | | | | | | |]; try discriminate. destruct l as [|a l]; [discriminate|]. destruct a; try discriminate.
  destruct l as [|b l]; [discriminate|]. destruct l; [|discriminate]. intros [= -> ->]. reflexivity.
Qed.
Lemma pid_array_eq o : pid_array o = true -> o = OItem (OClass "ctypes.Array" [] [] None) (OType sh_pid_t).
Proof.
  destruct o as [| | | | | | | | |a b| |]; try discriminate. destruct a as [| | | | | | |n bs at' f| | | |]; try discriminate.
  destruct bs; [|discriminate]. destruct at'; [|discriminate]. destruct f; [discriminate|]. destruct b as [| | | | | |u| | | | |]; try discriminate.
  cbn [pid_array]. intros H. apply andb_prop in H as [H1 H2]. apply String.eqb_eq in H1. apply ctype_eqb_eq in H2. subst. reflexivity.
Qed.
Lemma chainer_fields_denoted l : chainer_fields_ok l = true -> denotes (OList l) chainer_fields.
Proof.
  unfold chainer_fields_ok. destruct l as [|a l]; [discriminate|]. destruct l as [|b l]; cbn [map].
  { destruct (named a) as [[]|]; discriminate. }
  destruct (named a) as [[x t]|] eqn:Ea; [|discriminate]. destruct (named b) as [[y u]|] eqn:Eb; [|discriminate].
  destruct l as [|d l]; [|discriminate]. cbn [map]. apply named_eq in Ea, Eb. subst a b. rewrite !andb_true_iff. intros (((H1 & H2) & H3) & H4).
  apply String.eqb_eq in H1, H3. apply is_some_type_eq in H2. apply pid_array_eq in H4. subst.
  unfold chainer_fields. repeat (constructor; try assumption).
Qed.

(** The class CGChainer (which is not a ctypes struct in the interpreter): its [_fields_] and its
    constructor. *)
Theorem C62_chainer ns : import_all struct_source [] = Some ns ->
  exists o l, mod_attr ns "atoparser.structs.atop_2_11" "CGChainer" = Some o /\ denotes o (VClass "CGChainer") /\
    class_lookup o "_fields_" = Some l /\ denotes l chainer_fields /\
    class_lookup o "__init__" = Some (OFun "atoparser.structs.atop_2_11" "CGChainer.__init__") /\
    functions "atoparser.structs.atop_2_11" "CGChainer.__init__" <> None.
Proof.
  intros H. apply imported in H. unfold ns_ok in H. rewrite !andb_true_iff in H. destruct H as [_ H].
  destruct (mod_attr ns "atoparser.structs.atop_2_11" "CGChainer") as [o|]; [|discriminate H]. cbn [is_some_b] in H.
  unfold chainer_ok in H. rewrite !andb_true_iff in H. destruct H as ((H1 & H2) & H3). apply is_fun_obj_eq in H3.
  apply is_chainer_eq in H1 as (b & a & H1). injection H1 as ->.
  destruct (class_lookup _ "_fields_") as [l|] eqn:El; [|discriminate H2]. exists (OClass "atop_2_11.CGChainer" b a None), l.
  split; [reflexivity|]. split; [constructor|]. split; [exact El|]. clear El. split; [|split; [exact H3|vm_compute; discriminate]].
  destruct l as [| | | |l| | | | | | |]; try discriminate H2. exact (chainer_fields_denoted l H2).
Qed.

(** The class statements of the modules define different classes: the name of a struct type
    tells which. *)
Theorem C62_class_names : NoDup (flat_map (fun x => classes_of (fst x) (snd x)) struct_source).
Proof. apply (distinct_nodup String.eqb); [exact String.eqb_refl|]. vm_compute. reflexivity. Qed.

(** Concrete cases: the cgroup struct of 2.11's Header; the limiters of the CPU table of 2.12,
    a class that the module takes over from an earlier one; a Header that inherits its fields. *)
Example C62_example :
  match import_all struct_source [] with
  | Some ns =>
      match mod_attr ns "atoparser.structs.atop_2_11" "Header", mod_attr ns "atoparser.structs.atop_2_12" "CPUStat",
            mod_attr ns "atoparser.structs.atop_2_4" "Header" with
      | Some h, Some s, Some k =>
          match header_part h PCStat, class_lookup s "fields_limiters", class_lookup k "_fields_", header_part k PHeader with
          | Some t, Some (ODict [(OStr f, OStr l)]), Some (OList (OTuple [OStr x; _] :: _)), Some u =>
              (sizeof t =? 432) && String.eqb f "cpu" && String.eqb l "nrcpu" && String.eqb x "magic" && (sizeof u =? 480)
          | _, _, _, _ => false
          end
      | _, _, _ => false
      end
  | None => false
  end = true.
Proof. vm_compute. reflexivity. Qed.
