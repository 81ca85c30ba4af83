(** * C55: the objects handed out are independent

    Heap.v models memory; SpecHeap.v says what callers may assume.  Every program of iteration and
    attribute assignment sees the same in both. *)
From Coq Require Import List ZArith Lia Bool String.
From Coq Require Import Init.Byte.
From Verif Require Import PyBase CTypes S_shared S_2_12 Model BaseProofs LayoutProofs TableProofs HeaderProofs SizedProofs Spec Inflate LogBuild Heap SpecHeap.
Import ListNotations.
Open Scope list_scope.
Open Scope Z_scope.

(** ** Memory *)

Definition grows (H H' : heap) : Prop := exists new, H' = H ++ new.

Lemma grows_refl H : grows H H.
Proof. exists []. now rewrite app_nil_r. Qed.
Lemma grows_trans H H1 H2 : grows H H1 -> grows H1 H2 -> grows H H2.
Proof. intros [a ->] [b ->]. exists (a ++ b). now rewrite app_assoc. Qed.
Lemma grows_length H H' : grows H H' -> (List.length H <= List.length H')%nat.
Proof. intros [a ->]. rewrite app_length. lia. Qed.
Lemma grows_alloc H b : grows H (H ++ [b]).
Proof. now exists [b]. Qed.

Lemma block_grows H H' n : grows H H' -> (n < List.length H)%nat -> block_of H' n = block_of H n.
Proof. intros [a ->] ?. unfold block_of. now rewrite app_nth1. Qed.

Lemma block_alloc H b : block_of (H ++ [b]) (List.length H) = b.
Proof. unfold block_of. rewrite app_nth2, Nat.sub_diag by lia. reflexivity. Qed.

Lemma poke_length off x : forall H n, List.length (poke n off x H) = List.length H.
Proof. induction H as [|b r IH]; intros [|n]; cbn; auto. Qed.

Lemma block_poke_same off x : forall H n, (n < List.length H)%nat ->
  block_of (poke n off x H) n = overwrite off x (block_of H n).
Proof.
  induction H as [|b r IH]; intros [|n] L; cbn in *; try lia; auto.
  unfold block_of in *. cbn. apply IH. lia.
Qed.

Lemma block_poke_other off x : forall H n m, n <> m -> block_of (poke n off x H) m = block_of H m.
Proof.
  induction H as [|b r IH]; intros [|n] [|m] N; cbn; auto; try congruence.
  unfold block_of in *. cbn. apply IH. congruence.
Qed.

Lemma poke_alloc off x b H : poke (List.length H) off x (H ++ [b]) = H ++ [overwrite off x b].
Proof. induction H as [|c r IH]; cbn; [reflexivity|now rewrite IH]. Qed.

Lemma overwrite_length off x b : inside off x (zlen b) = true -> zlen (overwrite off x b) = zlen b.
Proof.
  unfold inside. rewrite andb_true_iff, !Z.leb_le. intros [A B]. unfold overwrite.
  pose proof (zlen_nonneg x).
  rewrite !zlen_app, zlen_ztake, zlen_zdrop. lia.
Qed.

Lemma replaced_overwrite off x b : 0 <= off -> replaced off x b = overwrite off x b.
Proof.
  intros H. unfold replaced, overwrite, ztake, zdrop, zlen. rewrite Z2Nat.inj_add by lia. rewrite Nat2Z.id. reflexivity.
Qed.
Lemma set_obj_eq off x o : set_obj off x o =
  if inside off x (sizeof (o_type o)) then mkObj (o_type o) (overwrite off x (o_buf o)) else o.
Proof.
  unfold set_obj, inside. destruct (Z.leb_spec 0 off) as [L|L]; cbn [andb]; [|reflexivity]. rewrite replaced_overwrite by exact L. reflexivity.
Qed.
Lemma set_header_eq off x h : set_header off x h =
  if (6 <=? off) && inside off x (sizeof (hc_header (h_class h))) then mkHdr (h_class h) (overwrite off x (h_buf h)) else h.
Proof.
  unfold set_header, inside. destruct (Z.leb_spec 6 off) as [L|L]; cbn [andb]; [|reflexivity].
  destruct (Z.leb_spec 0 off) as [L0|L0]; [|lia]. cbn [andb]. rewrite replaced_overwrite by exact L0. reflexivity.
Qed.

(** Writing inside the first [n] bytes. *)
Lemma ztake_overwrite n off x b : inside off x n = true -> n <= zlen b ->
  ztake n (overwrite off x b) = overwrite off x (ztake n b).
Proof.
  unfold inside. rewrite andb_true_iff, !Z.leb_le. intros [A B] L. unfold overwrite.
  pose proof (zlen_nonneg x).
  rewrite ztake_app, (ztake_all n (ztake off b)) by (rewrite zlen_ztake; lia).
  rewrite ztake_app, (ztake_all _ x) by (rewrite zlen_ztake; lia).
  rewrite ztake_ztake, (Z.min_l off n), zdrop_ztake, zlen_ztake by lia.
  do 3 f_equal. lia.
Qed.

(** ** Well-formed objects *)

(** The block exists and has the size of the class. *)
Definition sound (H : heap) (r : ref) : Prop :=
  (r_block r < List.length H)%nat /\ zlen (block_of H (r_block r)) = sizeof (r_type r).
Definition sound_header (H : heap) (r : href) : Prop :=
  In (hr_class r) versions /\ (hr_block r < List.length H)%nat /\ sizeof (hc_header (hr_class r)) <= zlen (block_of H (hr_block r)).

Lemma sound_grows H H' r : grows H H' -> sound H r -> sound H' r.
Proof.
  intros G [L S]. split.
  - pose proof (grows_length _ _ G). lia.
  - now rewrite (block_grows _ _ _ G).
Qed.
Lemma sound_header_grows H H' r : grows H H' -> sound_header H r -> sound_header H' r.
Proof.
  intros G (I & L & S). split; [exact I|]. split.
  - pose proof (grows_length _ _ G). lia.
  - now rewrite (block_grows _ _ _ G).
Qed.
Lemma deref_grows H H' r : grows H H' -> sound H r -> deref H' r = deref H r.
Proof. intros G [L S]. unfold deref. now rewrite (block_grows _ _ _ G). Qed.
Lemma deref_header_grows H H' r : grows H H' -> sound_header H r -> deref_header H' r = deref_header H r.
Proof. intros G (I & L & S). unfold deref_header. now rewrite (block_grows _ _ _ G). Qed.

Lemma map_deref_grows H H' rs : grows H H' -> Forall (sound H) rs -> map (deref H') rs = map (deref H) rs.
Proof. intros G F. apply map_ext_Forall. revert F. apply Forall_impl. intros. now apply deref_grows. Qed.

(** Objects made since [base], no two with the same block. *)
Definition fresh (base H : heap) (rs : list ref) : Prop :=
  NoDup (map r_block rs) /\ Forall (fun r => sound H r /\ (List.length base <= r_block r)%nat) rs.

Lemma fresh_nil base H : fresh base H [].
Proof. split; constructor. Qed.
Lemma fresh_sound base H rs : fresh base H rs -> Forall (sound H) rs.
Proof. intros [_ F]. revert F. apply Forall_impl. now intros ? []. Qed.
Lemma fresh_grows base H H' rs : grows H H' -> fresh base H rs -> fresh base H' rs.
Proof.
  intros G [N F]. split; [exact N|]. revert F. apply Forall_impl. intros r [S L].
  split; [eapply sound_grows; eassumption|exact L].
Qed.
Lemma fresh_later base base' H rs : grows base base' -> fresh base' H rs -> fresh base H rs.
Proof.
  intros G [N F]. split; [exact N|]. revert F. apply Forall_impl. intros r [S L].
  split; [exact S|]. pose proof (grows_length _ _ G). lia.
Qed.
Lemma NoDup_app_disjoint {A} (l m : list A) : NoDup l -> NoDup m -> (forall a, In a l -> In a m -> False) -> NoDup (l ++ m).
Proof.
  induction 1 as [|a l N D IH]; cbn; [auto|]. intros M X. constructor.
  - rewrite in_app_iff. intros [I|I]; [auto|]. apply (X a); cbn; auto.
  - apply IH; [exact M|]. intros b I J. apply (X b); cbn; auto.
Qed.
Lemma fresh_app base H1 H2 rs1 rs2 : grows base H1 -> grows H1 H2 -> fresh base H1 rs1 -> fresh H1 H2 rs2 -> fresh base H2 (rs1 ++ rs2).
Proof.
  intros G1 G2 F1 F2. split.
  - rewrite map_app. apply NoDup_app_disjoint; [apply F1|apply F2|]. intros n I J.
    apply in_map_iff in I as (r & <- & I). apply in_map_iff in J as (q & E & J).
    destruct F1 as [_ F1]. rewrite Forall_forall in F1. destruct (F1 _ I) as [[L _] _].
    destruct F2 as [_ F2]. rewrite Forall_forall in F2. destruct (F2 _ J) as [_ K]. lia.
  - apply Forall_app. split.
    + apply (fresh_grows _ _ H2) in F1; [|exact G2]. apply F1.
    + apply (fresh_later base) in F2; [|exact G1]. apply F2.
Qed.

(** ** A computation with memory against the same computation on values *)

Definition sim {A V} (Q : heap -> A -> V -> Prop) (base : heap) (rh : res A * heap * file) (rp : res V * file) : Prop :=
  grows base (snd (fst rh)) /\ snd rh = snd rp /\
  match fst (fst rh), fst rp with
  | Ok a, Ok v => Q (snd (fst rh)) a v
  | Raise e, Raise e' => e = e'
  | _, _ => False
  end.

Lemma sim_bind {A V B W} (Q1 : heap -> A -> V -> Prop) (Q2 : heap -> B -> W -> Prop) base f m mp k kp :
  sim Q1 base (m base f) (mp f) ->
  (forall H1 a v f1, grows base H1 -> Q1 H1 a v -> sim Q2 H1 (k a H1 f1) (kp v f1)) ->
  sim Q2 base (hbind m k base f) (mbind mp kp f).
Proof.
  unfold hbind, mbind. destruct (m base f) as [[ra H1] f1], (mp f) as [rv f2].
  intros (G & E & R) K. cbn in *. subst f2. destruct ra as [a|e], rv as [v|e']; try contradiction.
  - destruct (K H1 a v f1 G R) as (G' & E' & R'). split; [eapply grows_trans; eassumption|]. now split.
  - subst. now repeat split.
Qed.

Lemma sim_weaken {A V} (Q Q' : heap -> A -> V -> Prop) base rh rp :
  (forall H a v, grows base H -> Q H a v -> Q' H a v) -> sim Q base rh rp -> sim Q' base rh rp.
Proof.
  intros W (G & E & R). split; [exact G|]. split; [exact E|].
  destruct (fst (fst rh)), (fst rp); auto.
Qed.

Definition same {A} : heap -> A -> A -> Prop := fun _ a v => a = v.

Lemma sim_lift {A} (r : res A) base f : sim same base (hlift r base f) (mlift r f).
Proof. split; [apply grows_refl|]. split; [reflexivity|]. cbn. destruct r; reflexivity. Qed.
Lemma sim_pure {A} (r : res A) base f (g : heap -> res A) : g base = r -> sim same base (g base, base, f) (mlift r f).
Proof. intros ->. apply sim_lift. Qed.
Lemma sim_read n base f : sim same base (hread n base f) (fread n f).
Proof.
  unfold hread. destruct (fread n f) as [r f']. split; [apply grows_refl|]. split; [reflexivity|].
  cbn. destruct r; reflexivity.
Qed.

Definition one (base : heap) : heap -> ref -> cobj -> Prop := fun H r v => deref H r = v /\ fresh base H [r].
Definition many (base : heap) : heap -> list ref -> list cobj -> Prop := fun H rs vs => map (deref H) rs = vs /\ fresh base H rs.
Definition halves (ps : list (ref * ref)) : list ref := flat_map (fun p => [fst p; snd p]) ps.
Definition deref_chain (H : heap) (p : ref * ref) : chainer := mkChain (deref H (fst p)) (deref H (snd p)).
Definition chains (base : heap) : heap -> list (ref * ref) -> list chainer -> Prop :=
  fun H ps vs => map (deref_chain H) ps = vs /\ fresh base H (halves ps).

Lemma one_grows base H H' r v : grows H H' -> one base H r v -> one base H' r v.
Proof.
  intros G [E F]. split; [|eapply fresh_grows; eassumption].
  rewrite <- E. apply deref_grows; [exact G|]. apply fresh_sound in F. now inversion F.
Qed.

Lemma new_block base t b : zlen b = sizeof t -> one base (base ++ [b]) (mkRef t (List.length base)) (mkObj t b).
Proof.
  intros L. split.
  - unfold deref. cbn. rewrite block_alloc, ztake_all by lia. reflexivity.
  - split; [repeat constructor; now intros []|]. constructor; [|constructor]. split; [|cbn; lia].
    split; cbn; [rewrite app_length; cbn; lia|]. now rewrite block_alloc.
Qed.

Lemma sim_new_readinto n base f : 0 <= n ->
  sim (fun H k b => H = base ++ [b] /\ k = List.length base /\ zlen b = n) base (new_readinto n base f) (freadinto n f).
Proof.
  intros N. unfold new_readinto, freadinto, alloc.
  assert (S : forall b f', fread n f = (Ok b, f') -> zlen b <= n).
  { intros b f' E. unfold fread in E. destruct (n <=? zlen (f_rem f)) eqn:C.
    - injection E as <- _. rewrite zlen_ztake. pose proof (zlen_nonneg (f_rem f)). lia.
    - apply Z.leb_gt in C. destruct (f_fault f); [discriminate E|]. injection E as <- _. lia. }
  destruct (fread n f) as [[b|e] f'] eqn:E.
  - specialize (S b f' eq_refl). rewrite poke_alloc.
    assert (O : overwrite 0 b (zeros n) = b ++ zeros (n - zlen b)).
    { unfold overwrite. rewrite ztake_0 by lia. cbn [app]. f_equal. unfold zdrop, zeros.
      rewrite Z.add_0_l. pose proof (zlen_nonneg b). clear - S H N.
      replace (Z.to_nat n) with (Z.to_nat (zlen b) + Z.to_nat (n - zlen b))%nat by lia.
      rewrite repeat_app, skipn_app, repeat_length, Nat.sub_diag, skipn_all2 by (rewrite repeat_length; lia).
      reflexivity. }
    split; [apply grows_alloc|]. split; [reflexivity|]. cbn. rewrite O.
    split; [reflexivity|]. split; [reflexivity|].
    rewrite zlen_app. unfold zeros. unfold zlen at 2. rewrite repeat_length. lia.
  - split; [apply grows_alloc|]. now split.
Qed.

Lemma sim_from_buffer_copy t b base f : 0 <= sizeof t -> sim (one base) base (from_buffer_copy_h t b base f) (mlift (from_buffer_copy t b) f).
Proof.
  intros S. unfold from_buffer_copy_h, from_buffer_copy, mlift, alloc. destruct (zlen b <? sizeof t) eqn:C.
  - split; [apply grows_refl|]. now split.
  - apply Z.ltb_ge in C. split; [apply grows_alloc|]. split; [reflexivity|]. cbn.
    apply new_block. rewrite zlen_ztake. lia.
Qed.

Lemma in_class_record c : In (hc_record c) (class_types c).
Proof. unfold class_types. cbn. auto. Qed.
Lemma in_class_sstat c : In (hc_sstat c) (class_types c).
Proof. unfold class_types. cbn. auto. Qed.
Lemma in_class_tstat c : In (hc_tstat c) (class_types c).
Proof. unfold class_types. cbn. auto. Qed.
Lemma in_class_cstat c ct : hc_cstat c = Some ct -> In ct (class_types c).
Proof. unfold class_types. intros ->. cbn. auto 6. Qed.

Lemma assoc_in {V} (k : string) (d : list (string * V)) v : assoc k d = Some v -> In v (map snd d).
Proof.
  induction d as [|[k' v'] r IH]; cbn; [intros X; discriminate X|].
  destruct (String.eqb k k'); [intros E; injection E as ->; auto|auto].
Qed.
Lemma header_by_version_classes : map snd header_by_version = versions.
Proof. reflexivity. Qed.

Lemma same_unit_bind {A B} (r : res A) (k k' : A -> res B) : (forall a, k a = k' a) -> rbind r k = rbind r k'.
Proof. intros E. destruct r; cbn; auto. Qed.

Definition header_ok (base : heap) : heap -> href -> hobj -> Prop :=
  fun H r h => deref_header H r = h /\ sound_header H r /\ (List.length base <= hr_block r)%nat.

(** ** The functions *)

Lemma sim_get_header check base f : sim (header_ok base) base (get_header_h check base f) (get_header check f).
Proof.
  unfold get_header_h, get_header.
  assert (S : sizeof (hc_header default_class) = 480).
  { rewrite default_class_is. apply header_class_size. exact (proj2 (table_class _ _ latest_in)). }
  apply (sim_bind (fun H k b => H = base ++ [b] /\ k = List.length base /\ zlen b = sizeof (hc_header default_class))).
  { apply sim_new_readinto. lia. }
  intros H1 n b f1 G (-> & -> & L). unfold mlift.
  assert (D : forall c, In c versions -> deref_header (base ++ [b]) (mkHref c (List.length base)) = mkHdr c b).
  { intros c I. unfold deref_header. cbn [hr_class hr_block]. rewrite block_alloc, ztake_all; [reflexivity|].
    rewrite (header_class_size c I). lia. }
  assert (I0 : In default_class versions).
  { rewrite default_class_is. exact (proj2 (table_class _ _ latest_in)). }
  assert (K : forall c, In c versions -> header_ok base (base ++ [b]) (mkHref c (List.length base)) (mkHdr c b)).
  { intros c I. split; [now apply D|]. split; [|cbn; lia]. split; [exact I|]. cbn [hr_class hr_block].
    split; [rewrite app_length; cbn; lia|]. rewrite block_alloc, (header_class_size c I). lia. }
  rewrite (D _ I0), block_alloc. unfold get_header_of_bytes.
  split; [apply grows_refl|]. split; [reflexivity|]. cbn [fst snd].
  destruct (getint (h_obj (mkHdr default_class b)) "magic") as [magic|e]; cbn [rbind]; [|reflexivity].
  destruct (negb (magic =? MAGIC)); [reflexivity|].
  destruct (semantic_version (mkHdr default_class b)) as [v|e]; cbn [rbind]; [|reflexivity].
  assert (Fin : forall c, In c versions ->
     match (if check then let? _ := check_compatibility (deref_header (base ++ [b]) (mkHref c (List.length base))) in Ok (mkHref c (List.length base))
            else Ok (mkHref c (List.length base))),
           (if check then let? _ := check_compatibility (mkHdr c b) in Ok (mkHdr c b) else Ok (mkHdr c b)) with
     | Ok a, Ok v => header_ok base (base ++ [b]) a v
     | Raise e, Raise e' => e = e'
     | _, _ => False
     end).
  { intros c I. rewrite (D c I). destruct check; [|now apply K].
    destruct (check_compatibility (mkHdr c b)); cbn [rbind]; [now apply K|reflexivity]. }
  destruct (negb (String.eqb v default_version)).
  - destruct (assoc v header_by_version) as [c|] eqn:A; cbn [rbind].
    + assert (I : In c versions). { rewrite <- header_by_version_classes. eapply assoc_in, A. }
      destruct (zlen b <? sizeof (hc_header c)); cbn [rbind]; [reflexivity|].
      rewrite (ztake_all (sizeof (hc_header c)) b) by (rewrite (header_class_size c I); lia). now apply Fin.
    + now apply Fin.
  - cbn [rbind]. now apply Fin.
Qed.

Lemma sim_get_record hr base f : In (hr_class hr) versions ->
  sim (one base) base (get_record_h hr base f) (get_record (deref_header base hr) f).
Proof.
  intros I. unfold get_record_h, get_record. cbn [h_class deref_header].
  apply (sim_bind (fun H k b => H = base ++ [b] /\ k = List.length base /\ zlen b = sizeof (hc_record (hr_class hr)))).
  { apply sim_new_readinto. eapply class_size_nonneg; [exact I|apply in_class_record]. }
  intros H1 n b f1 G (-> & -> & L). split; [apply grows_refl|]. split; [reflexivity|]. cbn [fst snd hret mret].
  apply new_block. exact L.
Qed.

Section Decompressor.
Variable dec : list byte -> option (list byte).

Section Fixed.
(** The header object and the record in use; [H0] is the memory when they were last changed. *)
Variable H0 : heap.
Variable hr : href.
Hypothesis Hh : sound_header H0 hr.
Variable r : ref.
Hypothesis Hr : sound H0 r.
Let h := deref_header H0 hr.
Let o := deref H0 r.

Lemma attr_now name H f : grows H0 H -> sim same H (attr r name H f) (mlift (getint o name) f).
Proof. intros G. unfold attr. apply (sim_pure _ _ _ (fun H => getint (deref H r) name)). now rewrite (deref_grows H0 H). Qed.

Lemma sim_get_sstat H f : grows H0 H -> sim (one H) H (get_sstat_h dec hr r H f) (get_sstat dec h o f).
Proof.
  intros G. unfold get_sstat_h, get_sstat.
  apply (sim_bind same); [now apply attr_now|]. intros H1 n n' f1 G1 <-.
  apply (sim_bind same); [apply sim_read|]. intros H2 b b' f2 G2 <-.
  apply (sim_bind same); [apply sim_lift|]. intros H3 d d' f3 G3 <-.
  apply (sim_weaken (one H3)).
  - intros K a v _ [E F]. split; [exact E|]. eapply fresh_later; [|exact F]. eauto using grows_trans.
  - apply sim_from_buffer_copy. eapply class_size_nonneg; [apply Hh|apply in_class_sstat].
Qed.

Lemma sim_tstat_loop t len d : 0 <= sizeof t -> forall count index H f,
  sim (many H) H (tstat_loop_h t len d count index H f) (mlift (tstat_loop t len d count index) f).
Proof.
  intros S. induction count as [|k IH]; intros index H f; cbn [tstat_loop_h tstat_loop].
  - split; [apply grows_refl|]. split; [reflexivity|]. cbn. split; [reflexivity|apply fresh_nil].
  - set (x := from_buffer_copy t _). set (y := fun o => let? r := tstat_loop t len d k (index + 1) in Ok (o :: r)).
    assert (E : mlift (rbind x y) f = mbind (mlift x) (fun o => mbind (mlift (tstat_loop t len d k (index + 1))) (fun r => mret (o :: r))) f).
    { unfold mlift, mbind, y. destruct x; cbn; [|reflexivity]. destruct (tstat_loop t len d k (index + 1)); reflexivity. }
    rewrite E. clear E. unfold x.
    apply (sim_bind (one H)); [now apply sim_from_buffer_copy|]. intros H1 a v f1 G1 O.
    apply (sim_bind (many H1)); [apply IH|]. intros H2 l vs f2 G2 [E F].
    split; [apply grows_refl|]. split; [reflexivity|]. cbn [fst snd hret mret].
    assert (O2 : one H H2 a v) by (eapply one_grows; eassumption).
    split.
    + cbn. f_equal; [apply O2|exact E].
    + apply (fresh_app H H1 H2 [a] l); [exact G1|exact G2|apply O|exact F].
Qed.

Lemma header_attr_now name H f : grows H0 H -> sim same H (header_attr hr name H f) (mlift (getint (h_obj h) name) f).
Proof.
  intros G. unfold header_attr. apply (sim_pure _ _ _ (fun H => getint (h_obj (deref_header H hr)) name)).
  now rewrite (deref_header_grows H0 H).
Qed.

Lemma sim_get_tstat H f : grows H0 H -> sim (many H) H (get_tstat_h dec hr r H f) (get_tstat dec h o f).
Proof.
  intros G. unfold get_tstat_h, get_tstat.
  apply (sim_bind same); [now apply attr_now|]. intros H1 n n' f1 G1 <-.
  apply (sim_bind same); [apply sim_read|]. intros H2 b b' f2 G2 <-.
  apply (sim_bind same); [apply sim_lift|]. intros H3 d d' f3 G3 <-.
  assert (GA : grows H0 H3) by eauto using grows_trans.
  apply (sim_bind same).
  { apply (sim_pure _ _ _ (fun H => if is_record_1_26 (deref H r) then getint (deref H r) "nlist" else getint (deref H r) "ndeviat")).
    now rewrite (deref_grows H0 H3). }
  intros H4 c c' f4 G4 <-. apply (sim_bind same).
  { apply (sim_pure _ _ _ (fun H => version_at_least_2 (deref_header H hr) 3)).
    rewrite (deref_header_grows H0 H4); [reflexivity|eauto using grows_trans|exact Hh]. }
  intros H5 v v' f5 G5 <-. apply (sim_bind same).
  { destruct v; apply header_attr_now; eauto using grows_trans. }
  intros H6 l l' f6 G6 <-.
  apply (sim_weaken (many H6)).
  - intros K a w _ [E F]. split; [exact E|]. eapply fresh_later; [|exact F]. eauto 6 using grows_trans.
  - apply sim_tstat_loop. eapply class_size_nonneg; [apply Hh|apply in_class_tstat].
Qed.

Lemma sim_cstat_loop ct len dc dp : 0 <= sizeof ct -> forall count a b H f,
  sim (chains H) H (cstat_loop_h ct len dc dp count a b H f) (mlift (cstat_loop ct len dc dp count a b) f).
Proof.
  intros S. induction count as [|k IH]; intros a b H f; cbn [cstat_loop_h cstat_loop].
  - split; [apply grows_refl|]. split; [reflexivity|]. cbn. split; [reflexivity|apply fresh_nil].
  - pose proof (sim_from_buffer_copy ct (pyslice a (a + len) dc) H f S) as C.
    unfold hbind at 1. destruct (from_buffer_copy_h ct _ H f) as [[rc H1] f1], (from_buffer_copy ct _) as [vc|e].
    all: destruct C as (G1 & E1 & C); cbn in G1, E1, C; subst f1.
    all: destruct rc as [c|e']; try contradiction; cbn [rbind].
    2: { subst. split; [exact G1|]. now split. }
    destruct C as [<- FC]. unfold hbind at 1. destruct (getobj (deref H1 c) "gen") as [gen|e]; cbn [rbind].
    2: { split; [exact G1|]. now split. }
    unfold hbind at 1, hlift at 1. destruct (getint gen "structlen") as [sl|e]; cbn [rbind].
    2: { split; [exact G1|]. now split. }
    unfold hbind at 1, hlift at 1. destruct (getint gen "nprocs") as [np|e]; cbn [rbind].
    2: { split; [exact G1|]. now split. }
    destruct (np <? 0) eqn:N.
    { split; [exact G1|]. now split. }
    apply Z.ltb_ge in N. assert (SP : 0 <= sizeof (TArr sh_pid_t np)) by (cbn; lia).
    pose proof (sim_from_buffer_copy (TArr sh_pid_t np) (pyslice b (b + sizeof (TArr sh_pid_t np)) dp) H1 f SP) as P.
    cbv zeta. unfold hbind at 1.
    destruct (from_buffer_copy_h (TArr sh_pid_t np) _ H1 f) as [[rp H2] f2], (from_buffer_copy (TArr sh_pid_t np) _) as [vp|e].
    all: destruct P as (G2 & E2 & P); cbn in G2, E2, P; subst f2.
    all: destruct rp as [p|e']; try contradiction; cbn [rbind].
    2: { subst. split; [eapply grows_trans; eassumption|]. now split. }
    destruct P as [<- FP].
    pose proof (IH (a + sl) (b + sizeof (TArr sh_pid_t np)) H2 f) as R. unfold hbind at 1.
    destruct (cstat_loop_h ct len dc dp k _ _ H2 f) as [[rr H3] f3], (cstat_loop ct len dc dp k _ _) as [vr|e].
    all: destruct R as (G3 & E3 & R); cbn in G3, E3, R; subst f3.
    all: destruct rr as [l|e']; try contradiction; cbn [rbind].
    2: { subst. split; [eauto using grows_trans|]. now split. }
    destruct R as [<- FR]. split; [cbn; eauto using grows_trans|]. split; [reflexivity|]. cbn [fst snd hret mlift].
    assert (F12 : fresh H H2 [c; p]) by (apply (fresh_app H H1 H2 [c] [p]); assumption).
    split.
    + cbn [map]. f_equal. unfold deref_chain. cbn [fst snd]. f_equal.
      * apply deref_grows; [eauto using grows_trans|]. apply fresh_sound in FC. now inversion FC.
      * apply deref_grows; [assumption|]. apply fresh_sound in FP. now inversion FP.
    + apply (fresh_app H H2 H3 [c; p] (halves l)); eauto using grows_trans.
Qed.

Lemma sim_get_cstat H f : grows H0 H -> sim (chains H) H (get_cstat_h dec hr r H f) (get_cstat dec h o f).
Proof.
  intros G. unfold get_cstat_h, get_cstat.
  apply (sim_bind same); [now apply attr_now|]. intros H1 n n' f1 G1 <-.
  apply (sim_bind same); [apply sim_read|]. intros H2 b b' f2 G2 <-.
  apply (sim_bind same); [apply sim_lift|]. intros H3 d d' f3 G3 <-.
  assert (GA : grows H0 H3) by eauto using grows_trans.
  apply (sim_bind same); [now apply attr_now|]. intros H4 m m' f4 G4 <-.
  apply (sim_bind same); [apply sim_read|]. intros H5 c c' f5 G5 <-.
  apply (sim_bind same); [apply sim_lift|]. intros H6 e e' f6 G6 <-.
  assert (GB : grows H0 H6) by eauto using grows_trans.
  apply (sim_bind same); [now apply header_attr_now|]. intros H7 l l' f7 G7 <-.
  apply (sim_bind same); [apply attr_now; eauto using grows_trans|]. intros H8 q q' f8 G8 <-.
  cbn [h_class deref_header h].
  apply (sim_weaken (chains H8)).
  - intros K a w _ [E F]. split; [exact E|]. eapply fresh_later; [|exact F]. eauto 8 using grows_trans.
  - change (h_class h) with (hr_class hr). destruct (hc_cstat (hr_class hr)) as [ct|] eqn:C.
    + apply sim_cstat_loop. eapply class_size_nonneg; [apply Hh|]. now apply in_class_cstat.
    + unfold hlift, mlift. destruct (0 <? q); (split; [apply grows_refl|]; split; [reflexivity|]; cbn; try reflexivity).
      split; [reflexivity|apply fresh_nil].
Qed.

End Fixed.

(** All the objects of a sample. *)
Definition objects (s : srefs) : list ref := sr_record s :: sr_sstat s :: sr_tstats s ++ halves (sr_cgroups s).

Definition sample_ok (base : heap) : heap -> srefs -> sample -> Prop :=
  fun H s v => deref_sample H s = v /\ fresh base H (objects s).
Definition option_ok (base : heap) : heap -> option srefs -> option sample -> Prop :=
  fun H s v => match s, v with Some s, Some v => sample_ok base H s v | None, None => True | _, _ => False end.

Lemma sim_read_sample hr gate base f : sound_header base hr ->
  sim (option_ok base) base (read_sample_h dec hr gate base f) (read_sample dec (deref_header base hr) gate f).
Proof.
  intros Hh. unfold read_sample_h, read_sample.
  apply (sim_bind (one base)); [apply sim_get_record, Hh|]. intros H1 r vr f1 G1 [<- F1].
  assert (Hr : sound H1 r) by (apply fresh_sound in F1; now inversion F1).
  assert (Hh1 : sound_header H1 hr) by (eapply sound_header_grows; eassumption).
  rewrite <- (deref_header_grows base H1) by assumption.
  apply (sim_bind same); [apply (attr_now H1 r Hr), grows_refl|]. intros H2 n n' f2 G2 <-.
  destruct (n <=? 0); [split; [apply grows_refl|]; now split|].
  apply (sim_bind (one H2)); [now apply sim_get_sstat|]. intros H3 s vs f3 G3 O.
  assert (GA : grows H1 H3) by eauto using grows_trans.
  apply (sim_bind (many H3)); [now apply sim_get_tstat|]. intros H4 ts vt f4 G4 [T FT].
  assert (GB : grows H1 H4) by eauto using grows_trans.
  apply (sim_bind (chains H4)).
  { destruct gate; [now apply sim_get_cstat|]. split; [apply grows_refl|]. split; [reflexivity|].
    split; [reflexivity|apply fresh_nil]. }
  intros H5 cs vc f5 G5 [C FC]. split; [apply grows_refl|]. split; [reflexivity|]. cbn [fst snd hret mret option_ok].
  assert (GC : grows H1 H5) by eauto using grows_trans.
  assert (O5 : one H2 H5 s vs) by (eapply one_grows; [|eassumption]; eauto using grows_trans).
  split.
  - unfold deref_sample. f_equal.
    + now apply deref_grows.
    + apply O5.
    + rewrite <- T. apply map_deref_grows; [exact G5|]. eapply fresh_sound, FT.
    + rewrite <- C. apply map_ext. reflexivity.
  - unfold objects. apply (fresh_app base H1 H5 [r]); [exact G1|exact GC|exact F1|].
    apply (fresh_later H1 H2); [exact G2|].
    apply (fresh_app H2 H3 H5 [s]); [exact G3|eauto using grows_trans|apply O|].
    apply (fresh_app H3 H4 H5); [exact G4|exact G5|exact FT|exact FC].
Qed.

(** ** The generator *)

Definition out_ok (base H : heap) (o : hout) (v : gout) : Prop :=
  match o, v with
  | HYield s, Yield v => sample_ok base H s v
  | HStop, StopIteration => True
  | HRaised e, Raised e' => e = e'
  | _, _ => False
  end.

Lemma hout_exception_ok base H strict e : out_ok base H (hout_exception strict e) (on_exception strict e).
Proof. unfold hout_exception, on_exception. destruct e; cbn; try reflexivity. now destruct strict. Qed.

Definition after (hr : href) (base : heap) (x : hout * hgen * heap * file) (y : gout * gstate * file) : Prop :=
  match x, y with
  | (o, g, H, f), (v, g', f') =>
      grows base H /\ f = f' /\ out_ok base H o v /\
      (g = HDone /\ g' = GDone \/
       exists gate strict todo, g = HYielded hr gate strict todo /\ g' = GYielded (deref_header base hr) gate strict todo)
  end.

Lemma hloop_ok hr gate strict todo base f : sound_header base hr ->
  after hr base (hloop dec hr gate strict todo base f) (gloop dec (deref_header base hr) gate strict todo f).
Proof.
  intros Hh. unfold hloop, gloop. destruct (todo <=? 0).
  { split; [apply grows_refl|]. split; [reflexivity|]. split; [exact I|]. now left. }
  pose proof (sim_read_sample hr gate base f Hh) as S.
  destruct (read_sample_h dec hr gate base f) as [[rs H1] f1], (read_sample dec (deref_header base hr) gate f) as [rv f2].
  destruct S as (G & E & S). cbn in G, E, S. subst f2.
  destruct rs as [[s|]|e], rv as [[v|]|e']; try contradiction.
  - split; [exact G|]. split; [reflexivity|]. split; [exact S|]. right. eauto.
  - split; [exact G|]. split; [reflexivity|]. split; [exact I|]. now left.
  - subst. split; [exact G|]. split; [reflexivity|]. split; [apply hout_exception_ok|]. now left.
Qed.

Lemma hstart_ok hr strict ms base f : sound_header base hr ->
  after hr base (hstart dec hr strict ms base f) (gstart dec (deref_header base hr) strict ms f).
Proof.
  intros Hh. unfold hstart, gstart. destruct (cgroup_gate (deref_header base hr)).
  - now apply hloop_ok.
  - split; [apply grows_refl|]. split; [reflexivity|]. split; [apply hout_exception_ok|]. now left.
Qed.

(** ** Worlds *)

Definition blocks (ss : list srefs) : list nat := map r_block (flat_map objects ss).

(** The header object is sound and shares no memory with a sample. *)
Definition header_apart (H : heap) (ss : list srefs) (r : href) : Prop :=
  sound_header H r /\ ~ In (hr_block r) (blocks ss).

Definition gen_ok (H : heap) (ss : list srefs) (hdr : option href) (g : hgen) (v : gstate) : Prop :=
  match g, v with
  | HInit x s m, GInit y s' m' => x = hdr /\ y = option_map (deref_header H) x /\ s = s' /\ m = m'
  | HYielded hr g s t, GYielded h g' s' t' =>
      header_apart H ss hr /\ (forall r, hdr = Some r -> hr = r) /\ h = deref_header H hr /\ g = g' /\ s = s' /\ t = t'
  | HDone, GDone => True
  | _, _ => False
  end.

Definition agree (w : hworld) (v : vworld) : Prop :=
  w_file w = v_file v /\
  (forall r, w_header w = Some r -> header_apart (w_heap w) (w_samples w) r) /\
  v_header v = option_map (deref_header (w_heap w)) (w_header w) /\
  gen_ok (w_heap w) (w_samples w) (w_header w) (w_gen w) (v_gen v) /\
  map (deref_sample (w_heap w)) (w_samples w) = v_samples v /\
  NoDup (blocks (w_samples w)) /\
  Forall (sound (w_heap w)) (flat_map objects (w_samples w)).

Lemma deref_sample_ext H H' s : (forall r, In r (objects s) -> deref H' r = deref H r) -> deref_sample H' s = deref_sample H s.
Proof.
  intros E. unfold deref_sample. f_equal.
  - apply E. cbn. auto.
  - apply E. cbn. auto.
  - apply map_ext_in. intros r I. apply E. cbn. rewrite in_app_iff. auto.
  - apply map_ext_in. intros p I.
    assert (J : forall q, q = fst p \/ q = snd p -> In q (objects s)).
    { intros q Q. cbn. rewrite in_app_iff. do 3 right. apply in_flat_map. exists p. split; [exact I|].
      cbn. destruct Q as [-> | ->]; auto. }
    f_equal; apply E, J; auto.
Qed.

Lemma deref_samples_grow H H' ss : grows H H' -> Forall (sound H) (flat_map objects ss) ->
  map (deref_sample H') ss = map (deref_sample H) ss.
Proof.
  intros G F. apply map_ext_in. intros s I. apply deref_sample_ext. intros r J. apply deref_grows; [exact G|].
  rewrite Forall_forall in F. apply F. apply in_flat_map. eauto.
Qed.

Lemma blocks_app ss s : blocks (ss ++ [s]) = blocks ss ++ map r_block (objects s).
Proof. unfold blocks. rewrite flat_map_app, map_app. cbn [flat_map]. now rewrite app_nil_r. Qed.

Lemma sound_block H ss n : Forall (sound H) (flat_map objects ss) -> In n (blocks ss) -> (n < List.length H)%nat.
Proof.
  intros F I. apply in_map_iff in I as (r & <- & I). rewrite Forall_forall in F. apply (F r I).
Qed.
Lemma fresh_block base H rs n : fresh base H rs -> In n (map r_block rs) -> (List.length base <= n)%nat.
Proof. intros [_ F] I. apply in_map_iff in I as (r & <- & I). rewrite Forall_forall in F. apply (F r I). Qed.

Lemma header_apart_grows H H' ss r : grows H H' -> header_apart H ss r -> header_apart H' ss r.
Proof. intros G [S N]. split; [eapply sound_header_grows; eassumption|exact N]. Qed.

(** A call of next, from a generator whose header object is [hr]. *)
Lemma next_step w v hr base x y :
  agree w v -> grows (w_heap w) base -> header_apart base (w_samples w) hr -> (forall r, w_header w = Some r -> hr = r) ->
  after hr base x y ->
  match x, y with
  | (o, g, H, f), (v', g', f') =>
      match o, v' with
      | HYield s, Yield z => deref_sample H s = z /\
          agree (mkHW H f g (w_header w) (w_samples w ++ [s])) (mkVW f' g' (v_header v) (v_samples v ++ [z]))
      | HStop, StopIteration => agree (mkHW H f g (w_header w) (w_samples w)) (mkVW f' g' (v_header v) (v_samples v))
      | HRaised e, Raised e' => e = e' /\ agree (mkHW H f g (w_header w) (w_samples w)) (mkVW f' g' (v_header v) (v_samples v))
      | _, _ => False
      end
  end.
Proof.
  intros (Af & Ah & Av & Ag & As & An & Al) G0 Ha Hsame. destruct x as [[[o g] H] f], y as [[v' g'] f'].
  intros (G & -> & O & Gen).
  assert (GH : grows (w_heap w) H) by eauto using grows_trans.
  assert (Ha' : header_apart H (w_samples w) hr) by (apply (header_apart_grows base H _ _ G Ha)).
  assert (Gen' : forall ss, ~ In (hr_block hr) (blocks ss) -> gen_ok H ss (w_header w) g g').
  { intros ss N. destruct Gen as [[-> ->]|(gate & strict & todo & -> & ->)]; cbn; [exact I|].
    split; [split; [apply Ha'|exact N]|]. split; [exact Hsame|]. split; [|auto].
    symmetry. apply deref_header_grows; [exact G|apply Ha]. }
  assert (Hv : v_header v = option_map (deref_header H) (w_header w)).
  { rewrite Av. destruct (w_header w) as [r|]; [|reflexivity]. cbn. f_equal. symmetry.
    apply deref_header_grows; [exact GH|apply (Ah r eq_refl)]. }
  assert (Same : agree (mkHW H f' g (w_header w) (w_samples w)) (mkVW f' g' (v_header v) (v_samples v))).
  { split; [reflexivity|]. cbn [w_heap w_file w_gen w_header w_samples v_file v_gen v_header v_samples].
    split; [intros r E; eapply header_apart_grows; [exact GH|auto]|]. split; [exact Hv|].
    split; [apply Gen', Ha|]. split; [rewrite <- As; apply deref_samples_grow; assumption|]. split; [exact An|].
    revert Al. apply Forall_impl. intros. eapply sound_grows; eassumption. }
  destruct o as [s| |e], v' as [z| |e']; cbn in O; try contradiction; auto.
  destruct O as [<- F]. split; [reflexivity|].
  assert (Hb : ~ In (hr_block hr) (blocks (w_samples w ++ [s]))).
  { rewrite blocks_app, in_app_iff. intros [I|I]; [now apply Ha|].
    apply (fresh_block _ _ _ _ F) in I. destruct Ha as [(_ & L & _) _]. lia. }
  split; [reflexivity|]. cbn [w_heap w_file w_gen w_header w_samples v_file v_gen v_header v_samples].
  split. { intros r E. rewrite (Hsame r E) in *. split; [apply Ha'|exact Hb]. }
  split; [exact Hv|]. split; [now apply Gen'|].
  split. { rewrite map_app. cbn [map]. f_equal. rewrite <- As. now apply deref_samples_grow. }
  split.
  - rewrite blocks_app. apply NoDup_app_disjoint; [exact An|apply F|]. intros n I J.
    apply (fresh_block _ _ _ _ F) in J. apply (sound_block _ _ _ Al) in I.
    pose proof (grows_length _ _ G0). lia.
  - rewrite flat_map_app. cbn [flat_map]. rewrite app_nil_r. apply Forall_app. split.
    + revert Al. apply Forall_impl. intros. eapply sound_grows; eassumption.
    + eapply fresh_sound, F.
Qed.

(** ** Writes *)

Lemma sound_poke H n off x r : inside off x (sizeof (r_type r)) = true -> sound H r -> n = r_block r -> sound (poke n off x H) r.
Proof.
  intros I [L S] ->. split; [now rewrite poke_length|].
  rewrite block_poke_same by exact L. rewrite overwrite_length; [exact S|now rewrite S].
Qed.
Lemma sound_poke_other H n off x r : sound H r -> n <> r_block r -> sound (poke n off x H) r.
Proof. intros [L S] N. split; [now rewrite poke_length|]. now rewrite block_poke_other. Qed.
Lemma deref_poke_other H n off x r : n <> r_block r -> deref (poke n off x H) r = deref H r.
Proof. intros N. unfold deref. now rewrite block_poke_other. Qed.
Lemma deref_poke_same H off x r : inside off x (sizeof (r_type r)) = true -> sound H r ->
  deref (poke (r_block r) off x H) r = set_obj off x (deref H r).
Proof.
  intros I [L S]. rewrite set_obj_eq. unfold deref. cbn [o_type o_buf]. rewrite I, block_poke_same by exact L.
  rewrite ztake_overwrite; [reflexivity|exact I|lia].
Qed.
Lemma header_poke_other H n off x r : n <> hr_block r -> deref_header (poke n off x H) r = deref_header H r.
Proof. intros N. unfold deref_header. now rewrite block_poke_other. Qed.
Lemma sound_header_poke_other H n off x r : sound_header H r -> n <> hr_block r -> sound_header (poke n off x H) r.
Proof. intros (I & L & S) N. split; [exact I|]. split; [now rewrite poke_length|]. now rewrite block_poke_other. Qed.
Lemma inside_larger off x n m : inside off x n = true -> n <= m -> inside off x m = true.
Proof. unfold inside. rewrite !andb_true_iff, !Z.leb_le. lia. Qed.
Lemma sound_header_poke H off x r : inside off x (sizeof (hc_header (hr_class r))) = true -> sound_header H r ->
  sound_header (poke (hr_block r) off x H) r.
Proof.
  intros I (C & L & S). split; [exact C|]. split; [now rewrite poke_length|].
  rewrite block_poke_same by exact L. rewrite overwrite_length; [exact S|]. eapply inside_larger; eassumption.
Qed.
Lemma header_poke_same H off x r : (6 <=? off) && inside off x (sizeof (hc_header (hr_class r))) = true -> sound_header H r ->
  deref_header (poke (hr_block r) off x H) r = set_header off x (deref_header H r).
Proof.
  intros I (C & L & S). rewrite set_header_eq. change (h_class (deref_header H r)) with (hr_class r).
  rewrite I. unfold deref_header. cbn [h_buf]. rewrite block_poke_same by exact L.
  apply andb_prop in I as [_ I]. rewrite ztake_overwrite; [reflexivity|exact I|exact S].
Qed.

Lemma set_nth_none {A} (g : A -> A) : forall l k, nth_error l k = None -> set_nth k g l = l.
Proof. induction l as [|a l IH]; intros [|k] E; cbn in *; auto; [discriminate E|]. now rewrite IH. Qed.
Lemma set_nth_same {A} (g : A -> A) : forall l k a, nth_error l k = Some a -> g a = a -> set_nth k g l = l.
Proof.
  induction l as [|b l IH]; intros [|k] a E G; cbn in *; auto; [injection E as ->; now rewrite G|].
  erewrite IH; eauto.
Qed.

(** The one element that differs. *)
Lemma map_set_nth {A B} (u w : A -> B) (g : B -> B) : forall l k a, nth_error l k = Some a -> w a = g (u a) ->
  (forall j b, nth_error l j = Some b -> j <> k -> w b = u b) -> map w l = set_nth k g (map u l).
Proof.
  induction l as [|b l IH]; intros [|k] a E G O; cbn in *; try discriminate E.
  - injection E as ->. f_equal; [exact G|]. apply map_ext_in. intros c I.
    apply In_nth_error in I as [j J]. apply (O (S j) c J). lia.
  - f_equal; [apply (O 0%nat b eq_refl); lia|]. eapply IH; eauto. intros j c J N. apply (O (S j) c J). lia.
Qed.

Lemma NoDup_nth_block rs i j a b : NoDup (map r_block rs) -> nth_error rs i = Some a -> nth_error rs j = Some b ->
  i <> j -> r_block a <> r_block b.
Proof.
  intros N A B D E. apply D. rewrite NoDup_nth_error in N. apply N.
  - rewrite map_length. apply nth_error_Some. now rewrite A.
  - rewrite !nth_error_map, A, B. cbn. now rewrite E.
Qed.

Lemma NoDup_app_l {A} (l m : list A) : NoDup (l ++ m) -> NoDup l.
Proof.
  induction l as [|a l IH]; cbn; [constructor|]. intros N. inversion N as [|? ? X Y]. constructor; [|auto].
  intros I. apply X. apply in_app_iff. auto.
Qed.
Lemma NoDup_app_r {A} (l m : list A) : NoDup (l ++ m) -> NoDup m.
Proof. induction l as [|a l IH]; cbn; [auto|]. intros N. inversion N. auto. Qed.
Lemma NoDup_app_no {A} (l m : list A) a : NoDup (l ++ m) -> In a l -> In a m -> False.
Proof.
  induction l as [|b l IH]; cbn; [auto|]. intros N. inversion N as [|? ? X Y]. intros [-> | I] J; [|auto].
  apply X. apply in_app_iff. auto.
Qed.

Lemma halves_nth : forall cs i p, nth_error cs i = Some p ->
  nth_error (halves cs) (2 * i) = Some (fst p) /\ nth_error (halves cs) (2 * i + 1) = Some (snd p).
Proof.
  induction cs as [|q cs IH]; intros [|i] p E; cbn in E; try discriminate E.
  - injection E as ->. split; reflexivity.
  - replace (2 * S i)%nat with (S (S (2 * i))) by lia. cbn [halves flat_map app nth_error Nat.add]. now apply IH.
Qed.

(** Where a part is among the objects of its sample. *)
Lemma part_nth s p r : part_ref s p = Some r -> In r (objects s).
Proof.
  unfold objects. destruct p as [| |i|i|i]; cbn [part_ref]; intros E.
  - injection E as <-. cbn. auto.
  - injection E as <-. cbn. auto.
  - cbn. rewrite in_app_iff. apply nth_error_In in E. auto.
  - cbn. rewrite in_app_iff. destruct (nth_error (sr_cgroups s) i) as [q|] eqn:Q; [|discriminate E].
    injection E as <-. apply halves_nth in Q as [Q _]. apply nth_error_In in Q. auto.
  - cbn. rewrite in_app_iff. destruct (nth_error (sr_cgroups s) i) as [q|] eqn:Q; [|discriminate E].
    injection E as <-. apply halves_nth in Q as [_ Q]. apply nth_error_In in Q. auto.
Qed.

Lemma poke_part H s p r off x : NoDup (map r_block (objects s)) -> Forall (sound H) (objects s) ->
  part_ref s p = Some r -> inside off x (sizeof (r_type r)) = true ->
  deref_sample (poke (r_block r) off x H) s = set_part p off x (deref_sample H s).
Proof.
  intros N F E I.
  assert (Sr : sound H r). { rewrite Forall_forall in F. eapply F, part_nth, E. }
  pose proof (deref_poke_same H off x r I Sr) as P.
  unfold objects in N. cbn [map] in N. rewrite map_app in N.
  inversion N as [|? ? N1 N']. inversion N' as [|? ? N2 N3]. subst.
  pose proof (NoDup_app_l _ _ N3) as NT. pose proof (NoDup_app_r _ _ N3) as NC.
  assert (ET : forall n, ~ In n (map r_block (sr_tstats s)) -> map (deref (poke n off x H)) (sr_tstats s) = map (deref H) (sr_tstats s)).
  { intros n X. apply map_ext_in. intros q Q. apply deref_poke_other. intros ->. apply X. now apply in_map. }
  assert (EC : forall n, ~ In n (map r_block (halves (sr_cgroups s))) ->
     map (fun p => mkChain (deref (poke n off x H) (fst p)) (deref (poke n off x H) (snd p))) (sr_cgroups s) =
     map (fun p => mkChain (deref H (fst p)) (deref H (snd p))) (sr_cgroups s)).
  { intros n X. apply map_ext_in. intros q Q. apply In_nth_error in Q as [i Q]. apply halves_nth in Q as [Q1 Q2].
    f_equal; apply deref_poke_other; intros ->; apply X, in_map; eapply nth_error_In; eassumption. }
  cbn [In] in N1, N2. rewrite in_app_iff in N1, N2.
  assert (Dr : forall n, n <> r_block (sr_record s) -> deref (poke n off x H) (sr_record s) = deref H (sr_record s)) by (intros; now apply deref_poke_other).
  assert (Ds : forall n, n <> r_block (sr_sstat s) -> deref (poke n off x H) (sr_sstat s) = deref H (sr_sstat s)) by (intros; now apply deref_poke_other).
  unfold deref_sample. destruct p as [| |i|i|i]; cbn [part_ref] in E; cbn [set_part s_record s_sstat s_tstats s_cgroups].
  - injection E as <-. f_equal; [exact P|apply Ds|apply ET|apply EC]; intuition congruence.
  - injection E as <-. f_equal; [apply Dr|exact P|apply ET|apply EC]; intuition congruence.
  - assert (In (r_block r) (map r_block (sr_tstats s))) by (apply in_map; eapply nth_error_In, E).
    f_equal; [apply Dr; intros X; rewrite X in *; tauto|apply Ds; intros X; rewrite X in *; tauto| |].
    + eapply map_set_nth; [exact E|exact P|]. intros j b J D. apply deref_poke_other.
      eapply NoDup_nth_block; [exact NT|exact E|exact J|congruence].
    + apply EC. intros X. eapply NoDup_app_no; eassumption.
  - destruct (nth_error (sr_cgroups s) i) as [q|] eqn:Q; [|discriminate E]. injection E as <-.
    destruct (halves_nth _ _ _ Q) as [Q1 Q2].
    assert (In (r_block (fst q)) (map r_block (halves (sr_cgroups s)))) by (apply in_map; eapply nth_error_In, Q1).
    f_equal; [apply Dr; intros X; rewrite X in *; tauto|apply Ds; intros X; rewrite X in *; tauto| |].
    + apply ET. intros X. eapply NoDup_app_no; eassumption.
    + eapply map_set_nth; [exact Q| |].
      * cbn [cg_cstat cg_proclist]. f_equal; [exact P|]. apply deref_poke_other.
        eapply NoDup_nth_block; [exact NC|exact Q1|exact Q2|lia].
      * intros j b J D. destruct (halves_nth _ _ _ J) as [J1 J2].
        f_equal; apply deref_poke_other; (eapply NoDup_nth_block; [exact NC|exact Q1|eassumption|lia]).
  - destruct (nth_error (sr_cgroups s) i) as [q|] eqn:Q; [|discriminate E]. injection E as <-.
    destruct (halves_nth _ _ _ Q) as [Q1 Q2].
    assert (In (r_block (snd q)) (map r_block (halves (sr_cgroups s)))) by (apply in_map; eapply nth_error_In, Q2).
    f_equal; [apply Dr; intros X; rewrite X in *; tauto|apply Ds; intros X; rewrite X in *; tauto| |].
    + apply ET. intros X. eapply NoDup_app_no; eassumption.
    + eapply map_set_nth; [exact Q| |].
      * cbn [cg_cstat cg_proclist]. f_equal; [|exact P]. apply deref_poke_other.
        eapply NoDup_nth_block; [exact NC|exact Q2|exact Q1|lia].
      * intros j b J D. destruct (halves_nth _ _ _ J) as [J1 J2].
        f_equal; apply deref_poke_other; (eapply NoDup_nth_block; [exact NC|exact Q2|eassumption|lia]).
Qed.

(** A part that is not there, or bytes that are not in it: nothing happens. *)
Lemma set_part_absent H s p off x :
  (forall r, part_ref s p = Some r -> inside off x (sizeof (r_type r)) = false) ->
  set_part p off x (deref_sample H s) = deref_sample H s.
Proof.
  intros E. assert (K : forall r, part_ref s p = Some r -> set_obj off x (deref H r) = deref H r).
  { intros r R. rewrite set_obj_eq. change (o_type (deref H r)) with (r_type r). now rewrite (E r R). }
  unfold deref_sample. destruct p as [| |i|i|i]; cbn [set_part s_record s_sstat s_tstats s_cgroups part_ref] in *.
  - f_equal. now apply K.
  - f_equal. now apply K.
  - f_equal. destruct (nth_error (sr_tstats s) i) as [r|] eqn:Q.
    + apply (set_nth_same _ _ _ (deref H r)); [now rewrite nth_error_map, Q|now apply K].
    + apply set_nth_none. now rewrite nth_error_map, Q.
  - f_equal. destruct (nth_error (sr_cgroups s) i) as [q|] eqn:Q.
    + eapply set_nth_same; [rewrite nth_error_map, Q; reflexivity|]. cbn. f_equal. now apply K.
    + apply set_nth_none. now rewrite nth_error_map, Q.
  - f_equal. destruct (nth_error (sr_cgroups s) i) as [q|] eqn:Q.
    + eapply set_nth_same; [rewrite nth_error_map, Q; reflexivity|]. cbn. f_equal. now apply K.
    + apply set_nth_none. now rewrite nth_error_map, Q.
Qed.

Lemma flat_map_nth_disjoint : forall ss i j s t n, NoDup (blocks ss) -> nth_error ss i = Some s -> nth_error ss j = Some t -> i <> j ->
  In n (map r_block (objects s)) -> In n (map r_block (objects t)) -> False.
Proof.
  unfold blocks. induction ss as [|q ss IH]; intros [|i] [|j] s t n N S T D I J; cbn in S, T; try discriminate; try lia.
  - injection S as ->. cbn [flat_map] in N. rewrite map_app in N. eapply NoDup_app_no; [exact N|exact I|].
    apply in_map_iff in J as (r & <- & J). apply in_map, in_flat_map. exists t. split; [eapply nth_error_In, T|exact J].
  - injection T as ->. cbn [flat_map] in N. rewrite map_app in N. eapply NoDup_app_no; [exact N|exact J|].
    apply in_map_iff in I as (r & <- & I). apply in_map, in_flat_map. exists s. split; [eapply nth_error_In, S|exact I].
  - cbn [flat_map] in N. rewrite map_app in N. eapply IH; [eapply NoDup_app_r, N|exact S|exact T|congruence|exact I|exact J].
Qed.

Lemma sample_blocks ss k s : nth_error ss k = Some s -> NoDup (blocks ss) -> NoDup (map r_block (objects s)).
Proof.
  unfold blocks. revert k. induction ss as [|q ss IH]; intros [|k] E N; cbn in E; try discriminate E.
  - injection E as ->. cbn [flat_map] in N. rewrite map_app in N. eapply NoDup_app_l, N.
  - cbn [flat_map] in N. rewrite map_app in N. eapply IH; [exact E|]. eapply NoDup_app_r, N.
Qed.

Lemma block_injective rs a b : NoDup (map r_block rs) -> In a rs -> In b rs -> r_block a = r_block b -> a = b.
Proof.
  induction rs as [|c rs IH]; cbn; [tauto|]. intros N. inversion N as [|? ? X Y]. subst.
  intros [-> | A] [-> | B] E; auto.
  - exfalso. apply X. rewrite E. now apply in_map.
  - exfalso. apply X. rewrite <- E. now apply in_map.
Qed.

(** ** One step *)

Lemma step_ok o w v : agree w v -> fst (hstep dec o w) = fst (vstep dec o v) /\ agree (snd (hstep dec o w)) (snd (vstep dec o v)).
Proof.
  intros A. pose proof A as (Af & Ah & Av & Ag & As & An & Al). destruct o as [|e| |k p off x|off x]; cbn [hstep vstep].
  - assert (X : forall hr base x y, grows (w_heap w) base -> header_apart base (w_samples w) hr ->
       (forall r, w_header w = Some r -> hr = r) -> after hr base x y ->
       let a := match x with
                | (HYield s, g, H, f) => (USaw (deref_sample H s), mkHW H f g (w_header w) (w_samples w ++ [s]))
                | (HStop, g, H, f) => (UStop, mkHW H f g (w_header w) (w_samples w))
                | (HRaised e, g, H, f) => (URaise e, mkHW H f g (w_header w) (w_samples w))
                end in
       let b := match y with
                | (Yield s, g, f) => (USaw s, mkVW f g (v_header v) (v_samples v ++ [s]))
                | (StopIteration, g, f) => (UStop, mkVW f g (v_header v) (v_samples v))
                | (Raised e, g, f) => (URaise e, mkVW f g (v_header v) (v_samples v))
                end in
       fst a = fst b /\ agree (snd a) (snd b)).
    { intros hr base x y G Ha Hs Af'. pose proof (next_step w v hr base x y A G Ha Hs Af') as S.
      destruct x as [[[o g] H] f], y as [[v' g'] f']. cbv zeta.
      destruct o as [s| |e], v' as [z| |e']; try contradiction; cbn [fst snd].
      - destruct S as [E S]. rewrite E. now split.
      - now split.
      - destruct S as [-> S]. now split. }
    destruct (w_gen w) as [hdr strict ms|hr gate strict todo|] eqn:Eg, (v_gen v) as [hdr' strict' ms'|h' gate' strict' todo'|] eqn:Ev;
      cbn in Ag; try contradiction.
    + destruct Ag as (-> & -> & <- & <-). destruct (w_header w) as [hr|] eqn:Eh; cbn [option_map hnext gnext].
      * rewrite <- Af. apply (X hr (w_heap w)); [apply grows_refl|now apply Ah|intros r E; now injection E|].
        apply hstart_ok, (Ah hr eq_refl).
      * pose proof (sim_get_header true (w_heap w) (w_file w)) as S. rewrite Af in *.
        destruct (get_header_h true (w_heap w) (v_file v)) as [[rh H1] f1], (get_header true (v_file v)) as [rv f2].
        destruct S as (G & E & S). cbn in G, E, S. subst f2.
        destruct rh as [hr|e], rv as [h|e']; try contradiction.
        -- destruct S as (<- & Sh & Lb). apply (X hr H1); [exact G| |intros r E; discriminate E|now apply hstart_ok].
           split; [exact Sh|]. intros I. apply (sound_block _ _ _ Al) in I. lia.
        -- subst e'. cbn [fst snd]. split; [reflexivity|]. split; [reflexivity|].
           cbn [w_heap w_file w_gen w_header w_samples v_file v_gen v_header v_samples].
           split; [intros r E; discriminate E|]. split; [exact Av|]. split; [exact I|].
           split; [rewrite <- As; now apply deref_samples_grow|]. split; [exact An|].
           revert Al. apply Forall_impl. intros. eapply sound_grows; eassumption.
    + destruct Ag as (Ha & Hs & -> & <- & <- & <-). cbn [hnext gnext]. rewrite <- Af.
      apply (X hr (w_heap w)); [apply grows_refl|exact Ha|exact Hs|]. apply hloop_ok, Ha.
    + cbn [hnext gnext]. split; [reflexivity|]. cbn [fst snd]. split; [exact Af|].
      cbn [w_heap w_file w_gen w_header w_samples v_file v_gen v_header v_samples]. tauto.
  - assert (R : match hthrow (w_gen w) e with HYield s => USaw (deref_sample (w_heap w) s) | HStop => UStop | HRaised e' => URaise e' end =
                match fst (fst (gthrow (v_gen v) e (v_file v))) with Yield s => USaw s | StopIteration => UStop | Raised e' => URaise e' end
                /\ snd (fst (gthrow (v_gen v) e (v_file v))) = GDone /\ snd (gthrow (v_gen v) e (v_file v)) = v_file v).
    { destruct (w_gen w), (v_gen v); cbn in Ag; try contradiction; cbn [hthrow gthrow fst snd]; auto.
      destruct Ag as (_ & _ & _ & _ & <- & _). split; [|auto].
      unfold hout_exception, on_exception. destruct e; try reflexivity. now destruct strict. }
    destruct (gthrow (v_gen v) e (v_file v)) as [[v' g'] f']. destruct R as (R & Eg & Ef). cbn in R, Eg, Ef. subst.
    rewrite R. assert (Y : agree (mkHW (w_heap w) (w_file w) HDone (w_header w) (w_samples w)) (mkVW (v_file v) GDone (v_header v) (v_samples v))).
    { split; [exact Af|]. cbn [w_heap w_file w_gen w_header w_samples v_file v_gen v_header v_samples]. cbn. tauto. }
    destruct v' as [s| |e']; cbn [fst snd]; (split; [reflexivity|exact Y]).
  - split; [reflexivity|]. cbn [fst snd gclose]. split; [exact Af|].
    cbn [w_heap w_file w_gen w_header w_samples v_file v_gen v_header v_samples]. cbn. tauto.
  - split; [reflexivity|]. cbn [snd].
    assert (Noop : set_nth k (set_part p off x) (v_samples v) = v_samples v ->
                   agree w (mkVW (v_file v) (v_gen v) (v_header v) (set_nth k (set_part p off x) (v_samples v)))).
    { intros ->. destruct v. exact A. }
    destruct (nth_error (w_samples w) k) as [s|] eqn:Ek.
    2: { apply Noop, set_nth_none. now rewrite <- As, nth_error_map, Ek. }
    assert (Ev : nth_error (v_samples v) k = Some (deref_sample (w_heap w) s)) by now rewrite <- As, nth_error_map, Ek.
    destruct (part_ref s p) as [r|] eqn:Ep.
    2: { apply Noop. eapply set_nth_same; [exact Ev|]. apply set_part_absent. intros q Q. rewrite Q in Ep. discriminate Ep. }
    destruct (inside off x (sizeof (r_type r))) eqn:Ei.
    2: { apply Noop. eapply set_nth_same; [exact Ev|]. apply set_part_absent. intros q Q. rewrite Q in Ep. injection Ep as ->. exact Ei. }
    assert (Ir : In r (flat_map objects (w_samples w))).
    { apply in_flat_map. exists s. split; [eapply nth_error_In, Ek|eapply part_nth, Ep]. }
    assert (Ib : In (r_block r) (blocks (w_samples w))) by now apply in_map.
    assert (Hap : forall q, header_apart (w_heap w) (w_samples w) q ->
              header_apart (poke (r_block r) off x (w_heap w)) (w_samples w) q /\
              deref_header (poke (r_block r) off x (w_heap w)) q = deref_header (w_heap w) q).
    { intros q [Q1 Q2]. assert (r_block r <> hr_block q) by (intros X; apply Q2; now rewrite <- X).
      split; [split; [now apply sound_header_poke_other|exact Q2]|now apply header_poke_other]. }
    split; [exact Af|]. cbn [w_heap w_file w_gen w_header w_samples v_file v_gen v_header v_samples].
    split; [intros q Q; apply Hap; auto|].
    split. { rewrite Av. destruct (w_header w) as [q|]; [|reflexivity]. cbn. f_equal. symmetry. apply (Hap q (Ah q eq_refl)). }
    split.
    { destruct (w_gen w) as [x1 s1 m1|hr1 g1 s1 t1|], (v_gen v) as [y1 s2 m2|h2 g2 s2 t2|]; cbn in Ag |- *; try contradiction; auto.
      - destruct Ag as (-> & -> & B). split; [reflexivity|]. split; [|exact B].
        destruct (w_header w) as [q|]; [|reflexivity]. cbn. f_equal. symmetry. apply (Hap q (Ah q eq_refl)).
      - destruct Ag as (B1 & B2 & -> & B3). destruct (Hap _ B1) as [B4 B5]. rewrite B5. auto. }
    split.
    { rewrite <- As. eapply map_set_nth; [exact Ek| |].
      - apply poke_part; [eapply sample_blocks; eassumption| |exact Ep|exact Ei].
        rewrite Forall_forall in Al |- *. intros q Q. apply Al. apply in_flat_map. exists s. split; [eapply nth_error_In, Ek|exact Q].
      - intros j t J D. apply deref_sample_ext. intros q Q. apply deref_poke_other. intros X.
        eapply (flat_map_nth_disjoint (w_samples w) k j s t (r_block r)); [exact An|exact Ek|exact J|congruence| |].
        + apply in_map. eapply part_nth, Ep.
        + rewrite X. now apply in_map. }
    split; [exact An|]. rewrite Forall_forall in Al |- *. intros q Q.
    destruct (Nat.eq_dec (r_block r) (r_block q)) as [X|X].
    + assert (r = q) as -> by (eapply (block_injective _ r q An); eassumption). apply sound_poke; auto.
    + apply sound_poke_other; auto.
  - split; [reflexivity|]. cbn [snd]. rewrite Av. destruct (w_header w) as [r|] eqn:Eh; [|exact A]. cbn [option_map].
    destruct (Ah r eq_refl) as [Sr Nr].
    destruct ((6 <=? off) && inside off x (sizeof (hc_header (hr_class r)))) eqn:Ei.
    + pose proof (header_poke_same _ _ _ _ Ei Sr) as P. pose proof Ei as Ei'. apply andb_prop in Ei' as [_ Ei'].
      assert (Hap : header_apart (poke (hr_block r) off x (w_heap w)) (w_samples w) r)
        by (split; [now apply sound_header_poke|exact Nr]).
      split; [exact Af|]. cbn [w_heap w_file w_gen w_header w_samples v_file v_gen v_header v_samples].
      split; [intros q Q; injection Q as <-; exact Hap|]. split; [cbn; now rewrite P|].
      split.
      { destruct (w_gen w) as [x1 s1 m1|hr1 g1 s1 t1|], (v_gen v) as [y1 s2 m2|h2 g2 s2 t2|]; cbn in Ag |- *; try contradiction; auto.
        - destruct Ag as (-> & -> & B). cbn. rewrite P. auto.
        - destruct Ag as (B1 & B2 & -> & B3). rewrite (B2 r eq_refl) in *. split; [exact Hap|].
          split; [intros q Q; now injection Q|]. rewrite P. auto. }
      assert (Ot : forall q, In q (flat_map objects (w_samples w)) -> hr_block r <> r_block q).
      { intros q Q X. apply Nr. rewrite X. now apply in_map. }
      split.
      { rewrite <- As. apply map_ext_in. intros s I. apply deref_sample_ext. intros q Q. apply deref_poke_other, Ot.
        apply in_flat_map. eauto. }
      split; [exact An|]. rewrite Forall_forall in Al |- *. intros q Q. apply sound_poke_other; auto.
    + assert (Se : set_header off x (deref_header (w_heap w) r) = deref_header (w_heap w) r).
      { rewrite set_header_eq. change (h_class (deref_header (w_heap w) r)) with (hr_class r). now rewrite Ei. }
      rewrite Se. assert (Sg : with_header (set_header off x) (v_gen v) = v_gen v).
      { destruct (w_gen w) as [x1 s1 m1|hr1 g1 s1 t1|], (v_gen v) as [y1 s2 m2|h2 g2 s2 t2|]; cbn in Ag; try contradiction; auto.
        - destruct Ag as (-> & -> & B). cbn. now rewrite Se.
        - destruct Ag as (B1 & B2 & -> & B3). rewrite (B2 r eq_refl) in *. cbn. now rewrite Se. }
      rewrite Sg. split; [exact Af|]. cbn [v_file v_gen v_header v_samples]. rewrite Eh.
      split; [exact Ah|]. split; [reflexivity|]. tauto.
Qed.

Lemma program_ok ops : forall w v, agree w v ->
  fst (hprogram dec ops w) = fst (vprogram dec ops v) /\ agree (snd (hprogram dec ops w)) (snd (vprogram dec ops v)).
Proof.
  induction ops as [|o ops IH]; intros w v A; cbn [hprogram vprogram]; [now split|].
  destruct (step_ok o w v A) as [E S].
  destruct (hstep dec o w) as [x w1], (vstep dec o v) as [y v1]. cbn [fst snd] in E, S. subst y.
  destruct (IH w1 v1 S) as [E2 S2].
  destruct (hprogram dec ops w1) as [xs w2], (vprogram dec ops v1) as [ys v2]. cbn [fst snd] in *. subst. now split.
Qed.

End Decompressor.

(** ** C55 *)

(** A header object that get_header returned: the value model's header, in memory of its own; no
    object that existed before is changed.  (With an exception: the same exception.) *)
Theorem C55_header_object check H f r H' f' : get_header_h check H f = (Ok r, H', f') ->
  get_header check f = (Ok (deref_header H' r), f') /\ sound_header H' r /\
  (forall n, (n < List.length H)%nat -> n <> hr_block r /\ block_of H' n = block_of H n).
Proof.
  intros E. pose proof (sim_get_header check H f) as S. rewrite E in S. destruct (get_header check f) as [rv f2].
  destruct S as (G & Ef & S). cbn in G, Ef, S. subst f2. destruct rv as [h|e]; [|contradiction].
  destruct S as (<- & Sh & L). split; [reflexivity|]. split; [exact Sh|]. intros n N. split; [lia|]. now apply block_grows.
Qed.

Lemma agree_begin H f hdr strict ms : (forall r, hdr = Some r -> sound_header H r) ->
  agree (hbegin H f hdr strict ms) (vbegin f (option_map (deref_header H) hdr) strict ms).
Proof.
  intros S. split; [reflexivity|]. cbn [w_heap w_file w_gen w_header w_samples v_file v_gen v_header v_samples hbegin vbegin].
  split; [intros r E; split; [auto|now intros []]|]. split; [reflexivity|]. split; [cbn; auto|]. split; [reflexivity|].
  split; [constructor|constructor].
Qed.

(** Any program that iterates, throws into or closes the generator and assigns to attributes of
    the samples it received and of the header it passed sees exactly what it would see if every
    sample were a value of its own. *)
Theorem C55_objects_are_values dec H f hdr strict ms ops :
  (forall r, hdr = Some r -> sound_header H r) ->
  let a := hprogram dec ops (hbegin H f hdr strict ms) in
  let b := vprogram dec ops (vbegin f (option_map (deref_header H) hdr) strict ms) in
  fst a = fst b /\ samples_now (snd a) = v_samples (snd b) /\ header_now (snd a) = v_header (snd b) /\
  w_file (snd a) = v_file (snd b).
Proof.
  intros S a b. destruct (program_ok dec ops _ _ (agree_begin H f hdr strict ms S)) as [E (Af & _ & Av & _ & As & _)].
  fold a b in E, Af, Av, As. split; [exact E|]. split; [exact As|]. split; [now symmetry|exact Af].
Qed.

(** Samples that the program does not change still read, at any later time, as they did when they
    arrived: iterating further never changes a sample already received. *)
Theorem C55_samples_stay dec H f hdr strict ms ops :
  (forall r, hdr = Some r -> sound_header H r) -> forallb (fun o => negb (writes_sample o)) ops = true ->
  let a := hprogram dec ops (hbegin H f hdr strict ms) in samples_now (snd a) = arrived (fst a).
Proof.
  intros S W a. destruct (C55_objects_are_values dec H f hdr strict ms ops S) as (E & Es & _). fold a in E, Es.
  rewrite E, Es. clear - W.
  assert (K : forall v, v_samples (snd (vprogram dec ops v)) = v_samples v ++ arrived (fst (vprogram dec ops v))).
  { induction ops as [|o ops IH]; intros v; cbn [vprogram]; [cbn; now rewrite app_nil_r|].
    cbn [forallb] in W. apply andb_prop in W as [Wo W]. specialize (IH W).
    assert (V : v_samples (snd (vstep dec o v)) = v_samples v ++ arrived [fst (vstep dec o v)]).
    { destruct o as [|e| |k p off x|off x]; [| | | discriminate Wo |]; cbn [vstep].
      - destruct (gnext dec (v_gen v) (v_file v)) as [[[s| |e] g] f']; cbn; rewrite ?app_nil_r; reflexivity.
      - destruct (v_gen v) as [hd st m|hd gt st td|]; cbn [gthrow]; try (cbn; now rewrite app_nil_r).
        unfold on_exception. destruct e; try (cbn; now rewrite app_nil_r). destruct st; cbn; now rewrite app_nil_r.
      - cbn. now rewrite app_nil_r.
      - destruct (v_header v); cbn; now rewrite app_nil_r. }
    destruct (vstep dec o v) as [y v1]. cbn [fst snd] in V. specialize (IH v1).
    destruct (vprogram dec ops v1) as [ys v2]. cbn [fst snd] in *. rewrite IH, V, <- app_assoc. f_equal.
    unfold arrived. cbn [flat_map]. now rewrite app_nil_r. }
  exact (K _).
Qed.

Lemma vprogram_app dec ops : forall ops' v, vprogram dec (ops ++ ops') v =
  (fst (vprogram dec ops v) ++ fst (vprogram dec ops' (snd (vprogram dec ops v))), snd (vprogram dec ops' (snd (vprogram dec ops v)))).
Proof.
  induction ops as [|o ops IH]; intros ops' v; cbn [vprogram app].
  - cbn. now destruct (vprogram dec ops' v).
  - destruct (vstep dec o v) as [x v1]. rewrite IH. destruct (vprogram dec ops v1) as [xs v2]. reflexivity.
Qed.

Lemma nth_set_nth {A} (g : A -> A) : forall l k j, nth_error (set_nth k g l) j =
  if Nat.eqb j k then option_map g (nth_error l j) else nth_error l j.
Proof.
  induction l as [|a l IH]; intros [|k] [|j]; cbn; auto.
  - destruct (Nat.eqb j k); reflexivity.
Qed.

Lemma get_set_part_same p off x s : get_part p (set_part p off x s) = option_map (set_obj off x) (get_part p s).
Proof.
  destruct p as [| |i|i|i]; cbn [get_part set_part s_record s_sstat s_tstats s_cgroups]; try reflexivity.
  all: rewrite nth_set_nth, Nat.eqb_refl; now destruct (nth_error _ i).
Qed.
Lemma get_set_part_other p q off x s : q <> p -> get_part q (set_part p off x s) = get_part q s.
Proof.
  intros N. destruct p as [| |i|i|i], q as [| |j|j|j]; cbn [get_part set_part s_record s_sstat s_tstats s_cgroups]; try reflexivity.
  all: try (now destruct N).
  all: rewrite nth_set_nth; destruct (Nat.eqb_spec j i) as [->|D]; try reflexivity; try (now destruct N).
  all: now destruct (nth_error _ i).
Qed.

(** The values of the samples play no part in what the generator does. *)
Definition alike (v v' : vworld) : Prop := v_file v = v_file v' /\ v_gen v = v_gen v' /\ v_header v = v_header v'.
Lemma vstep_alike dec o v v' : alike v v' -> fst (vstep dec o v) = fst (vstep dec o v') /\ alike (snd (vstep dec o v)) (snd (vstep dec o v')).
Proof.
  intros (F & G & Hh). destruct o as [|e| |k p off x|off x]; cbn [vstep]; rewrite ?F, ?G, ?Hh; cbn [fst snd].
  - destruct (gnext dec (v_gen v') (v_file v')) as [[[s| |e] g] f']; cbn; now repeat split.
  - destruct (gthrow (v_gen v') e (v_file v')) as [[[s| |e'] g] f']; cbn; now repeat split.
  - cbn; now repeat split.
  - cbn; now repeat split.
  - destruct (v_header v') eqn:Q; cbn; now repeat split; cbn; rewrite ?Q.
Qed.
Lemma vprogram_alike dec ops : forall v v', alike v v' -> fst (vprogram dec ops v) = fst (vprogram dec ops v').
Proof.
  induction ops as [|o ops IH]; intros v v' A; cbn [vprogram]; [reflexivity|].
  destruct (vstep_alike dec o v v' A) as [E B]. destruct (vstep dec o v) as [y v1], (vstep dec o v') as [y' v1'].
  cbn [fst snd] in E, B. subst y'. specialize (IH v1 v1' B). destruct (vprogram dec ops v1), (vprogram dec ops v1'). cbn in *. now rewrite IH.
Qed.
Lemma vstep_write dec o v : writes_sample o = true -> fst (vstep dec o v) = UNothing /\ alike (snd (vstep dec o v)) v.
Proof. destruct o; intros W; try discriminate W. now repeat split. Qed.

(** An assignment to one part of one sample changes that part, in the place assigned to, and
    nothing else: no other part, no other sample, not the header; and the iterator goes on as if
    it had not been made. *)
Theorem C55_write_isolated dec H f hdr strict ms ops k p off x more :
  (forall r, hdr = Some r -> sound_header H r) ->
  let before := hprogram dec ops (hbegin H f hdr strict ms) in
  let after := hprogram dec (ops ++ [UWrite k p off x]) (hbegin H f hdr strict ms) in
  (forall j s, nth_error (samples_now (snd before)) j = Some s ->
     exists s', nth_error (samples_now (snd after)) j = Some s' /\
       (j = k -> get_part p s' = option_map (set_obj off x) (get_part p s)) /\
       (forall q, j <> k \/ q <> p -> get_part q s' = get_part q s)) /\
  List.length (samples_now (snd after)) = List.length (samples_now (snd before)) /\
  header_now (snd after) = header_now (snd before) /\
  fst (hprogram dec (ops ++ [UWrite k p off x] ++ more) (hbegin H f hdr strict ms)) =
    fst before ++ [UNothing] ++ skipn (List.length (fst before)) (fst (hprogram dec (ops ++ more) (hbegin H f hdr strict ms))).
Proof.
  intros S before after. pose (V0 := vbegin f (option_map (deref_header H) hdr) strict ms).
  destruct (C55_objects_are_values dec H f hdr strict ms ops S) as (E & Es & Eh & _). fold before in E, Es, Eh.
  destruct (C55_objects_are_values dec H f hdr strict ms (ops ++ [UWrite k p off x]) S) as (E' & Es' & Eh' & _).
  fold after in E', Es', Eh'.
  destruct (C55_objects_are_values dec H f hdr strict ms (ops ++ more) S) as (E2 & _).
  destruct (C55_objects_are_values dec H f hdr strict ms (ops ++ [UWrite k p off x] ++ more) S) as (E3 & _).
  rewrite Es, Es', Eh, Eh', E, E2, E3. fold V0. rewrite !vprogram_app. set (V := snd (vprogram dec ops V0)).
  cbn [fst snd vprogram vstep v_samples v_header].
  split.
  { intros j s J. rewrite nth_set_nth, J. destruct (Nat.eqb_spec j k) as [->|D]; cbn [option_map].
    - eexists. split; [reflexivity|]. split; [intros _; apply get_set_part_same|].
      intros q [N|N]; [now destruct N|now apply get_set_part_other].
    - exists s. split; [reflexivity|]. split; [intros X; now destruct D|reflexivity]. }
  split. { clear. generalize (v_samples V). intros l. revert k. induction l as [|a l IH]; intros [|k]; cbn; auto. }
  split; [reflexivity|].
  cbn [app]. f_equal. f_equal.
  rewrite skipn_app, skipn_all, Nat.sub_diag. cbn [app skipn].
  pose proof (vprogram_alike dec more (mkVW (v_file V) (v_gen V) (v_header V) (set_nth k (set_part p off x) (v_samples V))) V (conj eq_refl (conj eq_refl eq_refl))) as R.
  destruct (vprogram dec more (mkVW (v_file V) (v_gen V) (v_header V) (set_nth k (set_part p off x) (v_samples V)))). exact R.
Qed.

(** Leaving out all assignments to samples leaves every other observation as it is. *)
Theorem C55_sample_writes_invisible dec H f hdr strict ms ops :
  (forall r, hdr = Some r -> sound_header H r) ->
  let keep := fun o => negb (writes_sample o) in
  observations_of keep ops (fst (hprogram dec ops (hbegin H f hdr strict ms))) =
  fst (hprogram dec (filter keep ops) (hbegin H f hdr strict ms)).
Proof.
  intros S keep.
  destruct (C55_objects_are_values dec H f hdr strict ms ops S) as (E & _).
  destruct (C55_objects_are_values dec H f hdr strict ms (filter keep ops) S) as (E' & _).
  rewrite E, E'. clear. generalize (vbegin f (option_map (deref_header H) hdr) strict ms). intros v.
  assert (K : forall v v', alike v v' -> observations_of keep ops (fst (vprogram dec ops v)) = fst (vprogram dec (filter keep ops) v')).
  { clear. induction ops as [|o ops IH]; intros v v' A; [reflexivity|]. cbn [vprogram filter]. unfold keep at 2.
    destruct (writes_sample o) eqn:W; cbn [negb].
    - destruct (vstep_write dec o v W) as [_ B]. destruct (vstep dec o v) as [y v1]. cbn [snd] in B.
      specialize (IH v1 v'). destruct (vprogram dec ops v1) as [ys v2]. cbn [fst] in *.
      unfold observations_of. cbn [combine filter fst]. unfold keep at 1. rewrite W. cbn [negb].
      apply IH. destruct A as (A1 & A2 & A3), B as (B1 & B2 & B3). split; [congruence|]. split; congruence.
    - destruct (vstep_alike dec o v v' A) as [Q B]. cbn [vprogram].
      destruct (vstep dec o v) as [y v1], (vstep dec o v') as [y' v1']. cbn [fst snd] in Q, B. subst y'.
      specialize (IH v1 v1' B). destruct (vprogram dec ops v1) as [ys v2], (vprogram dec (filter keep ops) v1') as [zs v3]. cbn [fst] in *.
      unfold observations_of. cbn [combine filter fst]. unfold keep at 1. rewrite W. cbn [negb map snd]. f_equal. exact IH. }
  apply K. now repeat split.
Qed.

(** The header is different: the generator keeps the object it was given, so assigning to the
    header between two samples changes how the next sample is read.  A log of two samples; after
    the first the program sets pstatlen to 0, and the second raises ValueError.  (The
    decompressor here knows two streams only.) *)
Definition vs_1_26 : vspec := mkVS "1.26" 1 26 80 88368 616 None.
Definition toy_compress (x : list byte) : list byte := if zlen x =? 88368 then [x01] else [x01; x02].
Definition toy_decompress (c : list byte) : option (list byte) :=
  if zlen c =? 1 then Some (zeros 88368) else if zlen c =? 2 then Some (zeros 1232) else None.
Definition toy_sample (time : Z) : lsample :=
  make_sample toy_compress vs_1_26 time (zeros 88368) [zeros 616; zeros 616] [].
Definition two_samples : file := plain (log_bytes (make_header vs_1_26) [toy_sample 1; toy_sample 2]).
Definition kind (u : useen) : option exn * bool :=
  match u with USaw _ => (None, true) | URaise e => (Some e, false) | _ => (None, false) end.

Theorem C55_header_is_live :
  exists r H f, get_header_h true [] two_samples = (Ok r, H, f) /\
    let run ops := map kind (fst (hprogram toy_decompress ops (hbegin H f (Some r) true 10))) in
    run [UNext; UNext; UNext] = [(None, true); (None, true); (None, false)] /\
    run [UNext; UWriteHeader 32 [x00; x00; x00; x00]; UNext; UNext] =
      [(None, true); (None, false); (Some (ValueError BufferTooSmall), false); (None, false)].
Proof.
  do 3 eexists. split; [vm_compute; reflexivity|]. split; vm_compute; reflexivity.
Qed.

(** The hypotheses of the theorems above are met: a header object from get_header, and a program
    that changes a task, the header and the record it was given while it iterates. *)
Example C55_example :
  exists r H f, get_header_h true [] two_samples = (Ok r, H, f) /\ sound_header H r /\
    let a := hprogram toy_decompress [UNext; UWrite 0 (PTstat 1) 8 [x07; x07]; UNext; UWrite 1 PRecord 0 [x09]] (hbegin H f (Some r) true 10) in
    map kind (fst a) = [(None, true); (None, false); (None, true); (None, false)] /\
    map (fun s => (map (fun o => ztake 12 (o_buf o)) (s_tstats s), ztake 4 (o_buf (s_record s)))) (samples_now (snd a)) =
      [([zeros 12; zeros 8 ++ [x07; x07; x00; x00]], [x01; x00; x00; x00]);
       ([zeros 12; zeros 12], [x09; x00; x00; x00])].
Proof.
  destruct (get_header_h true [] two_samples) as [[[r|e] H] f] eqn:E; [|exfalso; vm_compute in E; discriminate E].
  exists r, H, f. split; [reflexivity|]. split; [eapply C55_header_object, E|].
  vm_compute in E. injection E as <- <- <-. split; vm_compute; reflexivity.
Qed.
