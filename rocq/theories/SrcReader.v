(** * reader.py: facts needed to run parse_file's source

    The text of samples as JSON values in memory, the types of samples, and the path test. *)
From Coq Require Import List ZArith Lia Bool String.
From Coq Require Import Init.Byte.
From Coq Require Import ZifyBool.
From Verif Require Import PyBase Utf8 CTypes S_shared S_1_26 S_2_11 Model Parsers Json Gzip Reader Messages.
From Verif Require Import Spec SpecDict BaseProofs LayoutProofs RepProofs DictProofs TableProofs HeaderProofs.
From Verif Require Import PySyntax PyEval Source PyProgram PyGenerator SpecSource SpecSource2 SrcBase SrcHeader SrcUtils SrcStat SrcDict SrcCgroup SrcGen SrcGen2 SrcParse.
Import ListNotations.
Local Open Scope string_scope.
Local Open Scope list_scope.
Local Open Scope Z_scope.

(** ** ".gz" in file *)

Lemma text_cons c s : text (String c s) = Z.of_nat (Ascii.nat_of_ascii c) :: text s.
Proof. reflexivity. Qed.

Lemma starts_prefix a : forall b, starts_with (text a) (text b) = String.prefix a b.
Proof.
  induction a as [|x a IH]; intros b.
  - destruct b; reflexivity.
  - destruct b as [|y b]; [reflexivity|]. rewrite !text_cons. cbn [starts_with String.prefix].
    rewrite IH. destruct (Ascii.ascii_dec x y) as [->|Hne].
    + rewrite Z.eqb_refl. reflexivity.
    + replace (Z.of_nat (Ascii.nat_of_ascii x) =? Z.of_nat (Ascii.nat_of_ascii y)) with false; [reflexivity|].
      symmetry. apply Z.eqb_neq. intros E. apply Hne. apply Nat2Z.inj in E.
      rewrite <- (Ascii.ascii_nat_embedding x), <- (Ascii.ascii_nat_embedding y), E. reflexivity.
Qed.

Lemma contains_text a b : contains (text a) (text b) = str_contains a b.
Proof.
  induction b as [|y b IH].
  - change (contains (text a) (text "")) with (starts_with (text a) (text "") || false).
    rewrite starts_prefix. reflexivity.
  - rewrite text_cons. cbn [contains str_contains]. rewrite <- text_cons, starts_prefix, IH. reflexivity.
Qed.

Lemma gz_member w fv path : cps fv = Some path -> member w (VStr ".gz") fv = Some (uses_gzip path).
Proof.
  intros H. unfold uses_gzip. destruct fv; try discriminate H.
  - injection H as <-. cbn [member]. rewrite contains_text. reflexivity.
  - injection H as <-. reflexivity.
Qed.

(** ** How deep a JSON value is *)

Fixpoint jdepth (j : json) : nat :=
  match j with
  | JList l => S (list_max (map jdepth l))
  | JDict d => S (list_max (map (fun e => jdepth (snd e)) d))
  | _ => O
  end.

Lemma list_max_ge l x : In x l -> (x <= list_max l)%nat.
Proof. intros H. pose proof (list_max_le l (list_max l)) as [K _]. specialize (K (le_n _)). rewrite Forall_forall in K. auto. Qed.

Lemma to_json_val j : forall fuel w lo hi v, (jdepth j < fuel)%nat -> json_val j w lo hi v -> to_json fuel w v = Some j.
Proof.
  induction j as [z|b|s| |l IH|d IH] using json_ind'; intros fuel w lo hi v L; (destruct fuel as [|k]; [lia|]);
    cbn [json_val to_json jdepth] in *.
  - intros ->. reflexivity.
  - intros ->. reflexivity.
  - intros H. destruct v; try discriminate H; injection H as <-; reflexivity.
  - destruct v; try contradiction; reflexivity.
  - intros (id & vs & -> & Hi & Hc & Ha). rewrite Hc.
    assert (K : omap (to_json k w) vs = Some l); [|rewrite K; reflexivity].
    clear Hc. apply all2_iff in Ha. induction Ha as [|j v l vs Hj Ha IHl]; [reflexivity|]. cbn [omap].
    cbn [map list_max fold_right] in L. change (fold_right Nat.max 0%nat (map jdepth l)) with (list_max (map jdepth l)) in L.
    apply Nat.succ_lt_mono in L. apply Nat.max_lub_lt_iff in L as [L1 L2].
    rewrite (Forall_inv IH k w lo hi v L1 Hj).
    rewrite IHl; [reflexivity|exact (Forall_inv_tail IH)|]. apply -> Nat.succ_lt_mono. exact L2.
  - intros (id & vs & -> & Hi & Hc & Ha). rewrite Hc.
    assert (K : omap (fun e => option_map (pair (fst e)) (to_json k w (snd e))) vs = Some d); [|rewrite K; reflexivity].
    clear Hc. apply all2_iff in Ha. induction Ha as [|[k1 j] [k2 v] d vs [Hk Hj] Ha IHl]; [reflexivity|]. cbn [omap fst snd] in *.
    cbn [map list_max fold_right snd] in L.
    change (fold_right Nat.max 0%nat (map (fun e => jdepth (snd e)) d)) with (list_max (map (fun e => jdepth (snd e)) d)) in L.
    apply Nat.succ_lt_mono in L. apply Nat.max_lub_lt_iff in L as [L1 L2].
    rewrite (Forall_inv IH k w lo hi v L1 Hj). cbn [option_map]. subst k2.
    rewrite IHl; [reflexivity|exact (Forall_inv_tail IH)|]. apply -> Nat.succ_lt_mono. exact L2.
Qed.

Lemma dict_set_in {V} (d : list (string * V)) k v e : In e (dict_set d k v) -> In e d \/ snd e = v.
Proof.
  induction d as [|[k' v'] d IH]; cbn [dict_set].
  - intros [<-|[]]. right. reflexivity.
  - destruct (String.eqb k k'); intros [<-|H]; cbn [In]; auto. destruct (IH H); auto.
Qed.

Lemma jdict_bound d n : Forall (fun e : string * json => (jdepth (snd e) <= n)%nat) d -> (jdepth (JDict d) <= S n)%nat.
Proof.
  intros H. cbn [jdepth]. apply le_n_S. apply list_max_le. rewrite Forall_forall in *. intros x Hx.
  apply in_map_iff in Hx as (e & <- & He). auto.
Qed.
Lemma jlist_bound l n : Forall (fun j => (jdepth j <= n)%nat) l -> (jdepth (JList l) <= S n)%nat.
Proof.
  intros H. cbn [jdepth]. apply le_n_S. apply list_max_le. rewrite Forall_forall in *. intros x Hx.
  apply in_map_iff in Hx as (e & <- & He). auto.
Qed.
Lemma dict_set_bound (d : list (string * json)) k v n : Forall (fun e => (jdepth (snd e) <= n)%nat) d -> (jdepth v <= n)%nat ->
  Forall (fun e => (jdepth (snd e) <= n)%nat) (dict_set d k v).
Proof.
  intros H Hv. apply Forall_forall. intros e He. destruct (dict_set_in _ _ _ _ He) as [Hi|Hi].
  - rewrite Forall_forall in H. auto.
  - rewrite Hi. exact Hv.
Qed.

Lemma rmap_bound {A} (f : A -> res json) n l js : (forall x j, f x = Ok j -> (jdepth j <= n)%nat) -> rmap f l = Ok js ->
  Forall (fun j => (jdepth j <= n)%nat) js.
Proof.
  intros H. revert js. induction l as [|x l IH]; intros js; cbn [rmap].
  - intros E. injection E as <-. constructor.
  - destruct (f x) as [j|] eqn:E; cbn [rbind]; [|discriminate]. destruct (rmap f l) as [r|]; cbn [rbind]; [|discriminate].
    intros E'. injection E' as <-. constructor; [eapply H, E|apply IH; reflexivity].
Qed.

Lemma dict_depth n : forall t buf j, (sdepth t <= n)%nat -> struct_to_dict_ t buf = Ok j -> (jdepth j <= 2 * n)%nat.
Proof.
  induction n as [|n IH]; intros t buf j L.
  { destruct t; try discriminate. cbn [sdepth] in L. lia. }
  destruct t as [| | |e k|sn fs lims] eqn:Et; try discriminate. rewrite struct_to_dict_go. rewrite <- Et.
  assert (Lf : forall nm ft, In (nm, ft) fs -> (sdepth ft <= n)%nat).
  { intros nm ft Hin. pose proof (depth_field _ _ Hin) as K. cbn [snd] in K. cbn [sdepth] in L. lia. }
  assert (G : forall rest off acc, (forall nm ft, In (nm, ft) rest -> (sdepth ft <= n)%nat) ->
     Forall (fun e => (jdepth (snd e) <= 2 * n + 1)%nat) acc -> dict_go t buf rest off acc = Ok j -> (jdepth j <= 2 * S n)%nat).
  { induction rest as [|[nm ft] rest IHr]; intros off acc Lr Ha.
    - cbn [dict_go]. intros E. injection E as <-. pose proof (jdict_bound _ _ Ha). lia.
    - rewrite dict_go_cons. cbn zeta. set (fb := sub_bytes _ _ _).
      destruct (field_json t buf nm ft fb) as [oj|] eqn:Ef; cbn [rbind]; [|discriminate].
      apply IHr; [intros; eapply Lr; right; eassumption|].
      destruct oj as [x|]; [|exact Ha]. apply dict_set_bound; [exact Ha|].
      pose proof (Lr _ _ (or_introl eq_refl)) as Lft.
      unfold field_json in Ef. destruct ft as [sg sz| | |e k|sn' fs' l'].
      1-4: destruct (str_contains "future" nm); [discriminate Ef|].
      + injection Ef as <-. cbn. lia.
      + injection Ef as <-. cbn. lia.
      + injection Ef as <-. cbn. lia.
      + assert (El : forall b y, elem_conv e b = Ok y -> (jdepth y <= 2 * n)%nat).
        { intros b y. unfold elem_conv. cbn [sdepth] in Lft.
          destruct e; try (intros E'; injection E' as <-; cbn; lia). apply IH. exact Lft. }
        destruct e as [| | |e' k'|].
        3: { injection Ef as <-. cbn. lia. }
        all: destruct (limited (mkObj t buf) nm _) as [sel|]; cbn [rbind] in Ef; [|discriminate Ef];
          match type of Ef with context [rmap ?f sel] => destruct (rmap f sel) as [js|] eqn:Er end; cbn [rbind] in Ef; [|discriminate Ef];
          injection Ef as <-; pose proof (jlist_bound _ _ (rmap_bound _ _ _ _ El Er)); lia.
      + destruct (struct_to_dict_ (TStruct sn' fs' l') fb) as [y|] eqn:Ey; cbn [rbind] in Ef; [|discriminate Ef].
        injection Ef as <-. pose proof (IH _ _ _ Lft Ey). lia. }
  apply (G fs 0 []); [exact Lf|constructor].
Qed.

Lemma obj_depth o j : fine (o_type o) -> struct_to_dict o = Ok j -> (jdepth j <= 8)%nat.
Proof. intros (_ & _ & _ & L) H. exact (dict_depth max_depth _ _ _ L H). Qed.

Lemma chain_depth g j : fine (o_type (cg_cstat g)) -> chainer_to_dict g = Ok j -> (jdepth j <= 9)%nat.
Proof.
  intros Hf H. unfold chainer_to_dict in H. destruct (struct_to_dict (cg_cstat g)) as [jc|] eqn:E; [|discriminate H].
  cbn [rbind] in H. injection H as <-. apply jdict_bound. constructor; [cbn [snd]; exact (obj_depth _ _ Hf E)|].
  constructor; [|constructor]. cbn [snd]. etransitivity; [apply (jlist_bound _ 0)|lia].
  destruct (o_type (cg_proclist g)) as [| | |e n|]; try constructor. rewrite Forall_map. apply Forall_forall. intros x _.
  destruct e; cbn; lia.
Qed.

Lemma flat_depth j v : flat j v -> jdepth j = 0%nat.
Proof.
  intros H. specialize (H (mkW [] (plain []) []) 0%nat 0%nat). destruct j; try reflexivity; cbn [json_val] in H;
    destruct H as (id & e & _ & Hi & _); lia.
Qed.
Lemma row_depth d r : flat_row d r -> (jdepth (JDict r) <= 1)%nat.
Proof.
  intros H. apply (jdict_bound _ 0). induction H as [|[k v] [k' j] d r [_ Hf] H IH]; constructor; [|exact IH].
  cbn [snd] in *. rewrite (flat_depth _ _ Hf). lia.
Qed.

(** JSON values survive the creation of objects. *)
Lemma jin_grows j : forall w w' lo hi v, grows w w' -> json_val j w lo hi v -> json_val j w' lo hi v.
Proof.
  induction j as [z|b|s| |l IH|d IH] using json_ind'; intros w w' lo hi v G; cbn [json_val]; auto.
  - intros (id & vs & -> & Hi & Hc & Ha). exists id, vs. split; [reflexivity|]. split; [exact Hi|].
    split; [eapply list_grows; eassumption|]. clear Hc. apply all2_iff. apply all2_iff in Ha.
    induction Ha as [|j v l vs Hj Ha IHl]; constructor; [|exact (IHl (Forall_inv_tail IH))].
    exact (Forall_inv IH _ _ _ _ _ G Hj).
  - intros (id & vs & -> & Hi & Hc & Ha). exists id, vs. split; [reflexivity|]. split; [exact Hi|].
    split; [eapply dict_grows; eassumption|]. clear Hc. apply all2_iff. apply all2_iff in Ha.
    induction Ha as [|j v l vs [Hk Hj] Ha IHl]; constructor; [|exact (IHl (Forall_inv_tail IH))].
    split; [exact Hk|]. exact (Forall_inv IH _ _ _ _ _ G Hj).
Qed.

(** ** The types of a sample *)

Definition typed (c : hclass) (s : sample) : Prop :=
  o_type (s_record s) = hc_record c /\ o_type (s_sstat s) = hc_sstat c /\
  Forall (fun t => o_type t = hc_tstat c) (s_tstats s) /\
  Forall (fun g => exists ct k, hc_cstat c = Some ct /\ o_type (cg_cstat g) = ct /\ o_type (cg_proclist g) = TArr sh_pid_t k)
         (s_cgroups s).

Lemma copy_type t b o : from_buffer_copy t b = Ok o -> o_type o = t.
Proof. unfold from_buffer_copy. destruct (zlen b <? sizeof t); [discriminate|]. intros H. injection H as <-. reflexivity. Qed.

Lemma tstat_types t len d n : forall i l, tstat_loop t len d n i = Ok l -> Forall (fun x => o_type x = t) l.
Proof.
  induction n as [|n IH]; intros i l; cbn [tstat_loop].
  - intros H. injection H as <-. constructor.
  - destruct (from_buffer_copy t _) as [o|] eqn:E; cbn [rbind]; [|discriminate].
    destruct (tstat_loop t len d n (i + 1)) as [r|] eqn:Er; cbn [rbind]; [|discriminate].
    intros H. injection H as <-. constructor; [exact (copy_type _ _ _ E)|exact (IH _ _ Er)].
Qed.

Lemma cstat_types ct len d d2 n : forall a b l, cstat_loop ct len d d2 n a b = Ok l ->
  Forall (fun g => o_type (cg_cstat g) = ct /\ exists k, o_type (cg_proclist g) = TArr sh_pid_t k) l.
Proof.
  induction n as [|n IH]; intros a b l; cbn [cstat_loop].
  - intros H. injection H as <-. constructor.
  - destruct (from_buffer_copy ct _) as [o|] eqn:E; cbn [rbind]; [|discriminate].
    destruct (getobj o "gen") as [gen|]; cbn [rbind]; [|discriminate].
    destruct (getint gen "structlen") as [sl|]; cbn [rbind]; [|discriminate].
    destruct (getint gen "nprocs") as [np|]; cbn [rbind]; [|discriminate].
    destruct (np <? 0); [discriminate|].
    destruct (from_buffer_copy (TArr sh_pid_t np) _) as [p|] eqn:Ep; cbn [rbind]; [|discriminate].
    match goal with |- context [cstat_loop ct len d d2 n ?x ?y] => destruct (cstat_loop ct len d d2 n x y) as [r|] eqn:Er end;
      cbn [rbind]; [|discriminate].
    intros H. injection H as <-. constructor; [|exact (IH _ _ _ Er)].
    cbn [cg_cstat cg_proclist]. split; [exact (copy_type _ _ _ E)|]. exists np. exact (copy_type _ _ _ Ep).
Qed.

Lemma mbind_inv {A B} (m : M A) (k : A -> M B) f b f' : mbind m k f = (Ok b, f') ->
  exists a f1, m f = (Ok a, f1) /\ k a f1 = (Ok b, f').
Proof. unfold mbind. destruct (m f) as [[a|e] f1]; [|discriminate]. eauto. Qed.

Lemma sample_types dec h gate f s f' : read_sample dec h gate f = (Ok (Some s), f') -> typed (h_class h) s.
Proof.
  unfold read_sample. intros H. apply mbind_inv in H as (r & f1 & E1 & H). apply mbind_inv in H as (sc & f2 & E2 & H).
  destruct (sc <=? 0); [discriminate H|].
  apply mbind_inv in H as (ss & f3 & E3 & H). apply mbind_inv in H as (ts & f4 & E4 & H).
  apply mbind_inv in H as (cs & f5 & E5 & H). unfold mret in H. injection H as <- _.
  unfold typed. cbn [s_record s_sstat s_tstats s_cgroups]. split; [|split; [|split]].
  - unfold get_record in E1. apply mbind_inv in E1 as (b & f6 & _ & E1). unfold mret in E1. injection E1 as <- _. reflexivity.
  - unfold get_sstat in E3. repeat (apply mbind_inv in E3 as (? & ? & _ & E3)). unfold mlift in E3.
    injection E3 as E3 _. exact (copy_type _ _ _ E3).
  - unfold get_tstat in E4. repeat (apply mbind_inv in E4 as (? & ? & _ & E4)). unfold mlift in E4.
    injection E4 as E4 _. exact (tstat_types _ _ _ _ _ _ E4).
  - destruct gate; [|unfold mret in E5; injection E5 as <- _; constructor].
    unfold get_cstat in E5. repeat (apply mbind_inv in E5 as (? & ? & _ & E5)). unfold mlift in E5. injection E5 as E5 _.
    destruct (hc_cstat (h_class h)) as [ct|].
    + apply cstat_types in E5. eapply Forall_impl; [|exact E5]. cbv beta. intros g (A & k & B). exists ct, k. auto.
    + destruct (0 <? _); [discriminate E5|]. injection E5 as <-. constructor.
Qed.

(** The header a generator was given. *)
Definition gen_of (h : hobj) (g : gstate) : Prop :=
  match g with GInit (Some h') _ _ => h' = h | GInit None _ _ => False | GYielded h' _ _ _ => h' = h | GDone => True end.

Definition todo_of (g : gstate) : Z :=
  match g with GInit _ _ ms => ms | GYielded _ _ _ todo => todo | GDone => 0 end.

Lemma next_types dec h g f s g' f' : gen_of h g -> gnext dec g f = (Yield s, g', f') ->
  typed (h_class h) s /\ gen_of h g' /\ 0 < todo_of g /\ todo_of g' = todo_of g - 1.
Proof.
  assert (L : forall gate strict todo, gloop dec h gate strict todo f = (Yield s, g', f') ->
    typed (h_class h) s /\ gen_of h g' /\ 0 < todo /\ todo_of g' = todo - 1).
  { intros gate strict todo. unfold gloop. destruct (todo <=? 0) eqn:Et; [discriminate|].
    destruct (read_sample dec h gate f) as [[[x|]|e] f1] eqn:E; intros H; try discriminate H.
    - injection H as <- <- _. split; [exact (sample_types _ _ _ _ _ _ E)|]. split; [reflexivity|]. cbn [todo_of]. lia.
    - unfold on_exception in H. destruct e; try discriminate H. destruct strict; discriminate H. }
  intros Hg. destruct g as [[h'|] strict ms|h' gate strict todo|]; cbn [gen_of gnext todo_of] in *; try contradiction; try subst h'.
  - unfold gstart. destruct (cgroup_gate h) as [gate|e]; [apply L|]. unfold on_exception. destruct e; try discriminate.
    destruct strict; discriminate.
  - apply L.
  - discriminate.
Qed.
