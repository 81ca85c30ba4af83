(** * C65: the exported types *)
From Coq Require Import List ZArith Lia Bool String Ascii.
From Coq Require Import Init.Byte.
From Verif Require Import PyBase CTypes S_shared Model Spec SpecLog BaseProofs TableProofs RunProofs SizedProofs Inflate LogBuild PropHeader PropLog PropFormat.
From Verif Require Import PySyntax PyClasses SourceClasses PyEval Source PyProgram SpecClasses PropClasses.
From Verif Require Import PyPackage SourcePackage SpecPackage PackageProofs PropPackage.
Import ListNotations.
Local Open Scope string_scope.
Local Open Scope list_scope.
Local Open Scope Z_scope.

(** ** C65 *)

Lemma struct_attr st m x : In st reach -> In m struct_names -> pattr st (OModule m) x = pattr full (OModule m) x.
Proof. intros R Hm. exact (core_attr st m x R (struct_core m Hm) (no_sub m x Hm)). Qed.

Definition header_classes (f : pstate) : list obj :=
  flat_map (fun vs => match pattr f (OModule (module_of vs)) "Header" with Some h => [h] | None => [] end) spec_versions.
Definition classes_for (f : pstate) (k : string) : list obj :=
  flat_map (fun h => match class_for_name h k with Some ONone | None => [] | Some o => [o] end) (header_classes f).
Definition is_class (o : obj) : bool := match o with OClass _ _ _ _ => true | _ => false end.
Definition bound_objects (f : pstate) : list obj :=
  flat_map (fun m => flat_map (fun x => match pattr f (OModule m) x with
                                        | Some o => if is_class o then [o] else []
                                        | None => [] end) (names_in f m)) struct_names.
Definition type_ok (f : pstate) (bs : list obj) (k : string) : bool :=
  match pattr f (OModule "atoparser") k with
  | Some t =>
      let cs := classes_for f k in
      forallb (fun o => is_class o && instance_of o t && existsb (obj_eqb o) bs) cs &&
      forallb (fun o => negb (instance_of o t) || existsb (obj_eqb o) cs) bs &&
      forallb (fun k' => String.eqb k k' || forallb (fun o => negb (existsb (obj_eqb o) (classes_for f k'))) cs) public_types &&
      Bool.eqb (instance_of none_class t) (String.eqb k "CStat" || String.eqb k "CGChainer")
  | None => false
  end.
Definition types_ok (f : pstate) : bool :=
  let bs := bound_objects f in forallb (type_ok f bs) public_types && forallb (fun k => negb (submodule_b "atoparser" k)) public_types &&
  forallb (fun m => is_none_b (assoc m libraries)) struct_names && negb (existsb (obj_eqb none_class) bs).
Lemma types_b : types_ok full = true.
Proof. vm_cast_no_check (@eq_refl bool true). Qed.

Lemma existsb_obj o l : existsb (obj_eqb o) l = true -> In o l.
Proof. intros H. apply existsb_exists in H as (p & Hp & E). apply obj_eqb_eq in E. subst p. exact Hp. Qed.

Lemma obj_eqb_refl o : obj_eqb o o = true.
Proof.
  assert (CT : forall t, ctype_eqb t t = true).
  { induction t as [s n| | |e n IH|n fs ls IH] using ctype_ind'; cbn [ctype_eqb]; try reflexivity.
    - rewrite eqb_reflx, Z.eqb_refl. reflexivity.
    - rewrite IH, Z.eqb_refl. reflexivity.
    - rewrite String.eqb_refl. cbn [andb]. apply andb_true_intro. split.
      + induction IH as [|[x t] l Hx _ IH2]; [reflexivity|]. cbn [snd] in Hx. rewrite String.eqb_refl, Hx. exact IH2.
      + induction ls as [|[x y] ls IH2]; [reflexivity|]. cbn [list_eqb fst snd]. rewrite !String.eqb_refl. exact IH2. }
  induction o as [z|s| |l IH|l IH|l IH|t|n bs at' f IHb IHa|f|a b IHa IHb|m|m f] using obj_ind'; cbn [obj_eqb];
    rewrite ?Z.eqb_refl, ?String.eqb_refl; try reflexivity.
  - induction IH as [|x l Hx _ IH]; [reflexivity|]. rewrite Hx. exact IH.
  - induction IH as [|x l Hx _ IH]; [reflexivity|]. rewrite Hx. exact IH.
  - induction IH as [|[x v] l [Hx Hv] _ IH]; [reflexivity|]. cbn [fst snd] in Hx, Hv. rewrite Hx, Hv. exact IH.
  - apply CT.
  - cbn [andb]. apply andb_true_intro. split; [apply andb_true_intro; split|].
    + induction IHb as [|x l Hx _ IH]; [reflexivity|]. rewrite Hx. exact IH.
    + induction IHa as [|[x v] l Hx _ IH]; [reflexivity|]. cbn [snd] in Hx. rewrite String.eqb_refl, Hx. exact IH.
    + destruct f as [f|]; [|reflexivity]. cbn [opt_eqb]. induction f as [|[x t] f IH]; [reflexivity|].
      unfold fields_eqb in *. cbn [list_eqb fst snd]. rewrite String.eqb_refl, CT. exact IH.
  - rewrite IHa. exact IHb.
Qed.

Lemma in_existsb o l : In o l -> existsb (obj_eqb o) l = true.
Proof. intros H. apply existsb_exists. exists o. split; [exact H|apply obj_eqb_refl]. Qed.


(** What the check says, about any state [f] that passes it, and any state [st] that has the same
    names in the struct modules and the same exported types. *)
Section Generic.
Context (f st : pstate).
Hypothesis Hf : types_ok f = true.
Hypothesis Hs : forall m x, In m struct_names -> pattr st (OModule m) x = pattr f (OModule m) x.
Hypothesis Ha : forall k, submodule_b "atoparser" k = false -> pattr st (OModule "atoparser") k = pattr f (OModule "atoparser") k.

Lemma header_attr vs : In vs spec_versions -> pattr st (OModule (module_of vs)) "Header" = pattr f (OModule (module_of vs)) "Header".
Proof. intros Hv. apply Hs. right. apply in_map, Hv. Qed.

Lemma classes_for_in k o : In o (classes_for f k) <-> version_class st k o.
Proof.
  unfold classes_for, header_classes, version_class. rewrite in_flat_map. split.
  - intros (h & Hh & Ho). apply in_flat_map in Hh as (vs & Hv & Hh). exists vs, h. split; [exact Hv|].
    rewrite (header_attr vs Hv). destruct (pattr f (OModule (module_of vs)) "Header") as [h'|]; [|destruct Hh].
    destruct Hh as [-> | []]. split; [reflexivity|].
    destruct (class_for_name h k) as [o'|]; [|destruct Ho]. destruct o'; try (destruct Ho as [<- | []]; split; [reflexivity|discriminate]). destruct Ho.
  - intros (vs & h & Hv & Hh & Hk & Ho). exists h. split.
    + apply in_flat_map. exists vs. split; [exact Hv|]. rewrite (header_attr vs Hv) in Hh. rewrite Hh. left. reflexivity.
    + rewrite Hk. destruct o; try (left; reflexivity). contradiction.
Qed.

Lemma types_split : forallb (type_ok f (bound_objects f)) public_types = true /\
  forallb (fun k => negb (submodule_b "atoparser" k)) public_types = true /\
  forallb (fun m => is_none_b (assoc m libraries)) struct_names = true.
Proof.
  pose proof Hf as T. unfold types_ok in T. cbv zeta in T. apply andb_prop in T as [T _]. apply andb_prop in T as [T T2]. apply andb_prop in T as [T T1]. auto.
Qed.

Lemma bound_in o : struct_class st o -> In o (bound_objects f).
Proof.
  intros ((n & b & a & g & Ho) & m & x & Hm & Hx). apply struct_name_in in Hm.
  rewrite (Hs m x Hm) in Hx. unfold bound_objects. apply in_flat_map. exists m. split; [exact Hm|].
  apply in_flat_map. exists x. split; [|rewrite Hx, Ho; left; reflexivity].
  destruct types_split as (_ & _ & T). rewrite forallb_forall in T. specialize (T _ Hm).
  assert (assoc m libraries = None) as Hn by (destruct (assoc m libraries); [discriminate T|reflexivity]).
  rewrite (pattr_package f m x Hn) in Hx. unfold names_in. destruct (assoc m (p_mods f)) as [ns|]; [|discriminate Hx].
  exact (assoc_in_names _ _ _ Hx).
Qed.

Lemma in_bound o : In o (bound_objects f) -> struct_class st o.
Proof.
  intros H. unfold bound_objects in H. apply in_flat_map in H as (m & Hm & H). apply in_flat_map in H as (x & Hx & H).
  rewrite <- (Hs m x Hm) in H. destruct (pattr st (OModule m) x) as [o'|] eqn:E; [|destruct H].
  destruct (is_class o') eqn:Ec; [|destruct H]. destruct H as [-> | []]. split; [destruct o; try discriminate Ec; eauto|]. exists m, x. split; [|exact E].
  destruct Hm as [<- | Hm]; [left; reflexivity|right]. apply in_map_iff in Hm as (vs & <- & Hv). eauto.
Qed.
Lemma type_facts k t : In k public_types -> pattr st (OModule "atoparser") k = Some t ->
  (forall o, version_class st k o -> is_class o = true /\ instance_of o t = true /\ struct_class st o) /\
  (forall o, struct_class st o -> instance_of o t = true -> version_class st k o) /\
  (forall k' o, In k' public_types -> version_class st k o -> version_class st k' o -> k = k') /\
  instance_of none_class t = (String.eqb k "CStat" || String.eqb k "CGChainer").
Proof.
  intros Hk Ht. destruct types_split as (T1 & T2 & _). rewrite forallb_forall in T1, T2. specialize (T1 _ Hk). specialize (T2 _ Hk). cbv beta in T2.
  assert (submodule_b "atoparser" k = false) as Hx by (destruct (submodule_b "atoparser" k); [discriminate T2|reflexivity]).
  rewrite (Ha k Hx) in Ht. unfold type_ok in T1. rewrite Ht in T1. cbv zeta in T1.
  apply andb_prop in T1 as [T1 D]. apply andb_prop in T1 as [T1 C]. apply andb_prop in T1 as [A B].
  rewrite forallb_forall in A, B, C. repeat split.
  - apply (classes_for_in k o) in H. specialize (A _ H). apply andb_prop in A as [A _]. apply andb_prop in A as [A _]. exact A.
  - apply (classes_for_in k o) in H. specialize (A _ H). apply andb_prop in A as [A _]. apply andb_prop in A as [_ A]. exact A.
  - apply (in_bound o). apply (classes_for_in k o) in H. specialize (A _ H). apply andb_prop in A as [_ A]. exact (existsb_obj _ _ A).
  - apply (in_bound o). apply (classes_for_in k o) in H. specialize (A _ H). apply andb_prop in A as [_ A]. exact (existsb_obj _ _ A).
  - intros o Ho Hi. apply (classes_for_in k o). specialize (B _ (bound_in o Ho)). cbv beta in B. rewrite Hi in B. exact (existsb_obj _ _ B).
  - intros k' o Hk' Ho Ho'. apply (classes_for_in k o) in Ho. apply (classes_for_in k' o) in Ho'. specialize (C _ Hk'). cbv beta in C.
    destruct (String.eqb k k') eqn:E; [apply String.eqb_eq in E; exact E|]. cbn [orb] in C. rewrite forallb_forall in C. specialize (C _ Ho).
    cbv beta in C. rewrite (in_existsb _ _ Ho') in C. discriminate C.
  - apply eqb_prop, D.
Qed.

Lemma exported k : In k public_types -> exists t, pattr st (OModule "atoparser") k = Some t.
Proof.
  intros Hk. destruct types_split as (T1 & T2 & _). rewrite forallb_forall in T1, T2. specialize (T1 _ Hk). specialize (T2 _ Hk). cbv beta in T2.
  rewrite (Ha k) by (destruct (submodule_b "atoparser" k); [discriminate T2|reflexivity]).
  unfold type_ok in T1. destruct (pattr f (OModule "atoparser") k) as [t|]; [eauto|discriminate T1].
Qed.
Lemma none_not_bound : ~ struct_class st none_class.
Proof.
  intros H. apply bound_in in H. apply in_existsb in H. pose proof Hf as T. unfold types_ok in T. cbv zeta in T. apply andb_prop in T as [_ T].
  rewrite H in T. discriminate T.
Qed.
End Generic.

Section Types.
Context (n : nat) (l : list string) (st : pstate).
Hypothesis Hne : l <> [].
Hypothesis Hl : forall m, In m l -> In m module_names.
Hypothesis Hst : imports package (8 + n) l fresh = Some st.

Let R : In st reach := reached n l st Hne Hl Hst.

Let Hs : forall m x, In m struct_names -> pattr st (OModule m) x = pattr full (OModule m) x := fun m x => struct_attr st m x R.
Let Ha : forall k, submodule_b "atoparser" k = false -> pattr st (OModule "atoparser") k = pattr full (OModule "atoparser") k :=
  fun k => core_attr st "atoparser" k R (or_introl eq_refl).
Let facts := fun k t => type_facts full st types_b Hs Ha k t.

(** The six types are exported. *)
Theorem C65_exported k : In k public_types -> exists t, pattr st (OModule "atoparser") k = Some t.
Proof. exact (exported full st types_b Ha k). Qed.

(** isinstance with an exported type tells exactly the objects of that kind, of any version, from
    the objects of all other classes of the struct modules. *)
Theorem C65_isinstance k t o : In k public_types -> pattr st (OModule "atoparser") k = Some t -> struct_class st o ->
  (instance_of o t = true <-> version_class st k o).
Proof. intros Hk Ht Ho. destruct (facts k t Hk Ht) as (A & B & _). split; [apply B, Ho|intros H; apply (A o H)]. Qed.

Theorem C65_every_version k t o : In k public_types -> pattr st (OModule "atoparser") k = Some t -> version_class st k o ->
  struct_class st o /\ instance_of o t = true.
Proof. intros Hk Ht Ho. destruct (facts k t Hk Ht) as (A & _). split; apply (A o Ho). Qed.

Theorem C65_kinds_disjoint k k' t t' o : In k public_types -> In k' public_types ->
  pattr st (OModule "atoparser") k = Some t -> pattr st (OModule "atoparser") k' = Some t' -> struct_class st o ->
  instance_of o t = true -> instance_of o t' = true -> k = k'.
Proof.
  intros Hk Hk' Ht Ht' Ho Hi Hi'. destruct (facts k t Hk Ht) as (_ & B & C & _). destruct (facts k' t' Hk' Ht') as (_ & B' & _).
  exact (C k' o Hk' (B o Ho Hi) (B' o Ho Hi')).
Qed.

(** One would expect that an object that passes isinstance(x, atoparser.CStat) is a cgroup
    statistic.  But None passes, because of the versions without cgroups; it does so for CStat
    and CGChainer and for no other type. *)
Theorem C65_none_is_cstat_refuted :
  ~ (forall k t c, In k public_types -> pattr st (OModule "atoparser") k = Some t -> instance_of c t = true -> struct_class st c).
Proof.
  intros H. destruct (C65_exported "CStat") as [t Ht]; [cbn; tauto|].
  assert (instance_of none_class t = true) as Hi.
  { destruct (facts "CStat" t ltac:(cbn; tauto) Ht) as (_ & _ & _ & E). rewrite E. reflexivity. }
  specialize (H "CStat" t none_class ltac:(cbn; tauto) Ht Hi). exact (none_not_bound full st types_b Hs H).
Qed.

Theorem C65_none k t : In k public_types -> pattr st (OModule "atoparser") k = Some t ->
  (instance_of none_class t = true <-> k = "CStat" \/ k = "CGChainer").
Proof.
  intros Hk Ht. destruct (facts k t Hk Ht) as (_ & _ & _ & ->). rewrite orb_true_iff, !String.eqb_eq. reflexivity.
Qed.
End Types.

(** The header of any file, and the parts of any sample read with it, pass isinstance with the
    exported types. *)
Section Samples.
Context (n : nat) (l : list string) (st : pstate).
Hypothesis Hne : l <> [].
Hypothesis Hl : forall m, In m l -> In m module_names.
Hypothesis Hst : imports package (8 + n) l fresh = Some st.

Lemma import_all_some : exists ns, import_all struct_source [] = Some ns.
Proof. pose proof structs_b as B. destruct (import_all struct_source []) as [ns|]; [eauto|discriminate B]. Qed.

Lemma class_type c k o ty : In c versions -> In k public_types ->
  (forall m h, header_facts m h c -> exists o', class_for_name h k = Some o' /\ o' <> ONone /\ (o' = o \/ type_of o' = Some ty)) ->
  exists t o', pattr st (OModule "atoparser") k = Some t /\ version_class st k o' /\ instance_of o' t = true /\ (o' = o \/ type_of o' = Some ty).
Proof.
  intros Hc Hk Hh. destruct (C65_exported n l st Hne Hl Hst k Hk) as [t Ht]. exists t.
  destruct import_all_some as [ns Hns]. destruct (class_table c Hc) as [vs Hv].
  assert (In (module_of vs, c) struct_modules) as Hi.
  { rewrite modules_table. apply in_map_iff. exists (vs, c). split; [reflexivity|exact Hv]. }
  destruct (module_facts ns _ c Hns Hi) as (h & r & H1 & F & _). destruct (Hh _ h F) as (o' & A & B & C). exists o'.
  assert (version_class st k o') as V.
  { exists vs, h. split; [apply (table_class _ _ Hv)|]. split; [|split; [exact A|exact B]].
    rewrite (C64_struct_modules n l st ns (module_of vs) "Header" Hne Hl Hst Hns); [exact H1| |discriminate].
    right. exists vs. split; [apply (table_class _ _ Hv)|reflexivity]. }
  split; [exact Ht|]. split; [exact V|]. split; [|exact C]. apply (C65_every_version n l st Hne Hl Hst k t o' Hk Ht V).
Qed.

Lemma struct_type c k ty : In c versions -> In k public_types ->
  (forall m h, header_facts m h c -> if String.eqb k "Header" then type_of h = Some ty else attr_type h k = Some ty) -> has_type st k ty.
Proof.
  intros Hc Hk Hh.
  destruct (class_type c k ONone ty Hc Hk) as (t & o & A & B & C & D).
  - intros m h F. specialize (Hh m h F). unfold class_for_name. destruct (String.eqb k "Header").
    + exists h. split; [reflexivity|]. split; [intros ->; discriminate Hh|right; exact Hh].
    + unfold attr_type in Hh. destruct (class_lookup h k) as [o|]; [|discriminate Hh]. exists o. split; [reflexivity|].
      split; [intros ->; discriminate Hh|right; exact Hh].
  - exists t, o. repeat split; try assumption. destruct D as [-> | D]; [|exact D].
    destruct B as (? & ? & _ & _ & _ & N). contradiction.
Qed.

Theorem C65_samples dec check b h f0 strict ms f ss e f' : get_header check (plain b) = (Ok h, f0) ->
  run dec (Some h) strict ms f = (ss, e, f') ->
  has_type st "Header" (hc_header (h_class h)) /\
  forall s, In s ss ->
    has_type st "Record" (o_type (s_record s)) /\ has_type st "SStat" (o_type (s_sstat s)) /\
    (forall p, In p (s_tstats s) -> has_type st "TStat" (o_type p)) /\
    (forall k, In k (s_cgroups s) -> has_type st "CStat" (o_type (cg_cstat k))).
Proof.
  intros Hh Hr. destruct (C04_class_choice _ _ _ _ Hh) as (Hc & _). split.
  { apply (struct_type _ _ _ Hc); [cbn; tauto|]. intros m o F. exact (hf_type _ _ _ F). }
  apply (run_sized dec _ _ _ _ _ _ _ Hc) in Hr. rewrite Forall_forall in Hr. intros s Hs. destruct (Hr s Hs) as (R & S & T & C).
  rewrite Forall_forall in T, C. destruct R as [-> _], S as [-> _]. repeat split.
  - apply (struct_type _ _ _ Hc); [cbn; tauto|]. intros m o F. exact (hf_record _ _ _ F).
  - apply (struct_type _ _ _ Hc); [cbn; tauto|]. intros m o F. exact (hf_sstat _ _ _ F).
  - intros p Hp. destruct (T p Hp) as [-> _]. apply (struct_type _ _ _ Hc); [cbn; tauto|]. intros m o F. exact (hf_tstat _ _ _ F).
  - intros k Hk. destruct (C k Hk) as (ct & E & [-> _] & _). apply (struct_type _ _ _ Hc); [cbn; tauto|]. intros m o F.
    pose proof (hf_cstat _ _ _ F) as G. rewrite E in G. exact (proj1 G).
Qed.

(** And the object that holds a cgroup with its processes, where the version has cgroups. *)
Theorem C65_chainer dec check b h f0 strict ms f ss e f' s k : get_header check (plain b) = (Ok h, f0) ->
  run dec (Some h) strict ms f = (ss, e, f') -> In s ss -> In k (s_cgroups s) ->
  exists t bases attrs, pattr st (OModule "atoparser") "CGChainer" = Some t /\
    version_class st "CGChainer" (OClass "atop_2_11.CGChainer" bases attrs None) /\
    instance_of (OClass "atop_2_11.CGChainer" bases attrs None) t = true.
Proof.
  intros Hh Hr Hs Hk. destruct (C04_class_choice _ _ _ _ Hh) as (Hc & _).
  apply (run_sized dec _ _ _ _ _ _ _ Hc) in Hr. rewrite Forall_forall in Hr. destruct (Hr s Hs) as (_ & _ & _ & C).
  rewrite Forall_forall in C. destruct (C k Hk) as (ct & E & _).
  destruct import_all_some as [ns Hns]. destruct (class_table _ Hc) as [vs Hv].
  assert (In (module_of vs, h_class h) struct_modules) as Hi.
  { rewrite modules_table. apply in_map_iff. exists (vs, h_class h). split; [reflexivity|exact Hv]. }
  destruct (module_facts ns _ _ Hns Hi) as (o & r & H1 & F & _). pose proof (hf_cstat _ _ _ F) as G. rewrite E in G.
  destruct G as (_ & bs & at' & G). destruct (C65_exported n l st Hne Hl Hst "CGChainer") as [t Ht]; [cbn; tauto|].
  exists t, bs, at'. split; [exact Ht|].
  assert (version_class st "CGChainer" (OClass "atop_2_11.CGChainer" bs at' None)) as V.
  { exists vs, o. split; [apply (table_class _ _ Hv)|]. split; [|split; [exact G|discriminate]].
    rewrite (C64_struct_modules n l st ns (module_of vs) "Header" Hne Hl Hst Hns); [exact H1| |discriminate].
    right. exists vs. split; [apply (table_class _ _ Hv)|reflexivity]. }
  split; [exact V|]. exact (proj2 (C65_every_version n l st Hne Hl Hst "CGChainer" t _ ltac:(cbn; tauto) Ht V)).
Qed.
End Samples.

(** ** The hypotheses are met: importing the reader alone; there are classes of every kind, and
    classes of no kind. *)
Definition reader_only : list string := ["atoparser.reader"].
Definition nontrivial (st : pstate) : bool :=
  forallb (fun k => match classes_for st k with [] => false | _ => true end) public_types &&
  existsb (fun o => forallb (fun k => negb (existsb (obj_eqb o) (classes_for st k))) public_types) (bound_objects st).
Example reader_state : match imports package 8 reader_only fresh with Some st => nontrivial st | None => false end = true.
Proof. vm_cast_no_check (@eq_refl bool true). Qed.

(** A header and a log, for every version and number of samples. *)
Example C65_example vs n strict : In vs spec_versions ->
  exists b h f0 ss f', get_header true (plain b) = (Ok h, f0) /\
    run zdecompress (Some h) strict (Z.of_nat n) f0 = (ss, Some None, f') /\ zlen ss = Z.of_nat n.
Proof.
  intros Hv. destruct (C09_example vs n strict Hv) as (hb & ls & ys & _ & _ & L & R). rewrite run_none in R.
  destruct (get_header true (plain (log_bytes hb ls))) as [[h|x] f0] eqn:E; [|discriminate R].
  exists (log_bytes hb ls), h, f0, ys, (plain []). split; [exact E|]. split; [exact R|exact L].
Qed.
