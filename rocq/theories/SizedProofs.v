(** * Shape of everything yielded, and the exceptions iteration can raise *)
From Coq Require Import List ZArith Lia Bool String.
From Coq Require Import Init.Byte.
From Coq Require Import ZifyBool.
From Verif Require Import PyBase Utf8 CTypes S_shared S_1_26 S_2_11 S_2_12 Model Spec SpecDict SpecLog
  BaseProofs LayoutProofs RepProofs DictProofs TableProofs HeaderProofs GenProofs RunProofs.
Import ListNotations.
Open Scope list_scope.
Open Scope Z_scope.

Lemma from_buffer_copy_sized t b o : 0 <= sizeof t -> from_buffer_copy t b = Ok o ->
  sized t o /\ o_buf o = ztake (sizeof t) b.
Proof.
  intros P. unfold from_buffer_copy. destruct (Z.ltb_spec (zlen b) (sizeof t)); [intros X; discriminate X|].
  intros E. injection E as <-. split; [|reflexivity]. split; [reflexivity|]. cbn [o_buf]. rewrite zlen_ztake. lia.
Qed.

Lemma from_buffer_copy_raise t b e : from_buffer_copy t b = Raise e -> e = ValueError BufferTooSmall.
Proof. unfold from_buffer_copy. destruct (_ <? _); intros H; [injection H as <-; reflexivity|discriminate H]. Qed.

Lemma freadinto_sized n f b f' : 0 <= n -> freadinto n f = (Ok b, f') -> zlen b = n.
Proof.
  intros P H. apply freadinto_ok in H as (-> & _). rewrite zlen_app, zlen_zeros, !zlen_ztake. lia.
Qed.

Lemma tstat_loop_sized t len d n i l : 0 <= sizeof t -> tstat_loop t len d n i = Ok l -> Forall (sized t) l.
Proof.
  intros P. revert i l. induction n as [|n IH]; intros i l E; cbn [tstat_loop] in E; [injection E as <-; constructor|].
  destruct (from_buffer_copy t _) as [o|] eqn:F; [|discriminate E]. cbn [rbind] in E.
  destruct (tstat_loop _ _ _ n _) eqn:E2; [|discriminate E]. cbn [rbind] in E. injection E as <-.
  constructor; [exact (proj1 (from_buffer_copy_sized _ _ _ P F))|]. eapply IH. exact E2.
Qed.

Lemma tstat_loop_raise t len d n i e : tstat_loop t len d n i = Raise e -> e = ValueError BufferTooSmall.
Proof.
  revert i. induction n as [|n IH]; intros i E; cbn [tstat_loop] in E; [discriminate E|].
  destruct (from_buffer_copy t _) as [o|x] eqn:F; cbn [rbind] in E.
  - destruct (tstat_loop _ _ _ n _) as [r|x] eqn:E2; cbn [rbind] in E; [discriminate E|]. injection E as <-. eapply IH, E2.
  - injection E as <-. eapply from_buffer_copy_raise, F.
Qed.

Definition group_ok (ct : ctype) (k : chainer) : Prop :=
  sized ct (cg_cstat k) /\ 0 <= i32_at (o_buf (cg_cstat k)) 16 /\
  sized (TArr (TInt true 4) (i32_at (o_buf (cg_cstat k)) 16)) (cg_proclist k).

Lemma cstat_loop_sized c ct len dc dp n a b l : In c versions -> hc_cstat c = Some ct ->
  cstat_loop ct len dc dp n a b = Ok l -> zlen l = Z.of_nat n /\ Forall (group_ok ct) l.
Proof.
  intros Hc He. revert a b l.
  assert (0 <= sizeof ct) as P.
  { apply sizeof_nonneg. apply (class_types_ok c ct Hc). unfold class_types. rewrite He. apply in_or_app. right. left. reflexivity. }
  induction n as [|n IH]; intros a b l E; cbn [cstat_loop] in E; [injection E as <-; split; [reflexivity|constructor]|].
  destruct (from_buffer_copy ct _) as [o|] eqn:F; [|discriminate E]. cbn [rbind] in E.
  destruct (from_buffer_copy_sized _ _ _ P F) as ((So & So2) & _). destruct o as [ot ob]. cbn [o_type o_buf] in So, So2. subst ot.
  destruct (cstat_gen c ct ob Hc He) as (g & G1 & G2 & G3). rewrite G1 in E. cbn [rbind] in E.
  rewrite G2, G3 in E. cbn [rbind] in E.
  destruct (Z.ltb_spec (i32_at ob 16) 0) as [L|L]; [discriminate E|].
  destruct (from_buffer_copy (TArr _ _) _) as [q|] eqn:F2; [|discriminate E]. cbn [rbind] in E.
  destruct (cstat_loop _ _ _ _ n _ _) as [r|] eqn:E2; [|discriminate E]. cbn [rbind] in E. injection E as <-.
  destruct (IH _ _ _ E2) as [I1 I2].
  split; [rewrite zlen_cons, I1; lia|]. constructor; [|exact I2].
  assert (0 <= sizeof (TArr sh_pid_t (i32_at ob 16))) as P2 by (cbn; lia).
  destruct (from_buffer_copy_sized _ _ _ P2 F2) as (Q & _).
  split; [split; [reflexivity|exact So2]|]. cbn [cg_cstat cg_proclist o_buf]. split; [exact L|exact Q].
Qed.

Lemma cstat_loop_raise c ct len dc dp n a b e : In c versions -> hc_cstat c = Some ct ->
  cstat_loop ct len dc dp n a b = Raise e -> e = ValueError BufferTooSmall \/ e = ValueError NegativeArrayLength.
Proof.
  intros Hc He. revert a b.
  assert (0 <= sizeof ct) as P.
  { apply sizeof_nonneg. apply (class_types_ok c ct Hc). unfold class_types. rewrite He. apply in_or_app. right. left. reflexivity. }
  induction n as [|n IH]; intros a b E; cbn [cstat_loop] in E; [discriminate E|].
  destruct (from_buffer_copy ct _) as [o|x] eqn:F; cbn [rbind] in E;
    [|injection E as <-; left; eapply from_buffer_copy_raise, F].
  destruct (from_buffer_copy_sized _ _ _ P F) as ((So & So2) & _). destruct o as [ot ob]. cbn [o_type o_buf] in So, So2. subst ot.
  destruct (cstat_gen c ct ob Hc He) as (g & G1 & G2 & G3). rewrite G1 in E. cbn [rbind] in E.
  rewrite G2, G3 in E. cbn [rbind] in E.
  destruct (Z.ltb_spec (i32_at ob 16) 0) as [L|L]; [injection E as <-; right; reflexivity|].
  destruct (from_buffer_copy (TArr _ _) _) as [q|x] eqn:F2; cbn [rbind] in E;
    [|injection E as <-; left; eapply from_buffer_copy_raise, F2].
  destruct (cstat_loop _ _ _ _ n _ _) as [r|x] eqn:E2; cbn [rbind] in E; [discriminate E|].
  injection E as <-. eapply IH, E2.
Qed.

Lemma class_size_nonneg c t : In c versions -> In t (class_types c) -> 0 <= sizeof t.
Proof. intros Hc Ht. apply sizeof_nonneg. apply (class_types_ok c t Hc Ht). Qed.

Section Any.
Variable dec : list byte -> option (list byte).

(** Every sample yielded with any header of a shipped class is made of complete structs. *)
Lemma read_sample_sized h gate f s f' : In (h_class h) versions ->
  read_sample dec h gate f = (Ok (Some s), f') -> sample_sized (h_class h) s.
Proof.
  intros Hc. unfold read_sample. intros H. apply mbind_inv in H as (r & f1 & H1 & H).
  unfold get_record in H1. apply mbind_inv in H1 as (rb & f2 & H2 & H1).
  apply freadinto_sized in H2; [|apply (class_size_nonneg _ _ Hc); unfold class_types; cbn; tauto].
  unfold mret in H1. injection H1 as <- <-.
  apply mbind_inv in H as (sc & f1' & H1 & H). destruct (sc <=? 0); [discriminate H|].
  apply mbind_inv in H as (ssv & f3 & H3 & H).
  unfold get_sstat in H3. apply mbind_inv in H3 as (n3 & g1 & _ & H3). apply mbind_inv in H3 as (b3 & g2 & _ & H3).
  apply mbind_inv in H3 as (d3 & g3 & _ & H3). unfold mlift in H3. injection H3 as H3 _.
  apply from_buffer_copy_sized in H3 as [H3 _]; [|apply (class_size_nonneg _ _ Hc); unfold class_types; cbn; tauto].
  apply mbind_inv in H as (tsv & f4 & H4 & H).
  unfold get_tstat in H4. do 6 (apply mbind_inv in H4 as (? & ? & _ & H4)). unfold mlift in H4. injection H4 as H4 _.
  apply tstat_loop_sized in H4; [|apply (class_size_nonneg _ _ Hc); unfold class_types; cbn; tauto].
  apply mbind_inv in H as (cg & f5 & H5 & H). unfold mret in H. injection H as <- _.
  unfold sample_sized. cbn [s_record s_sstat s_tstats s_cgroups].
  split; [split; [reflexivity|exact H2]|]. split; [exact H3|]. split; [exact H4|].
  destruct gate; [|injection H5 as <- _; constructor].
  unfold get_cstat in H5. do 8 (apply mbind_inv in H5 as (? & ? & _ & H5)). unfold mlift in H5. injection H5 as H5 _.
  destruct (hc_cstat (h_class h)) as [ct|] eqn:E.
  - apply (cstat_loop_sized _ _ _ _ _ _ _ _ _ Hc E) in H5 as [_ H5].
    eapply Forall_impl; [|exact H5]. intros k K. exists ct. split; [reflexivity|exact K].
  - destruct (0 <? _); [discriminate H5|]. injection H5 as <-. constructor.
Qed.

Lemma D_sized h gate strict todo f ss e f' : In (h_class h) versions ->
  D dec h gate strict todo f = (ss, e, f') -> Forall (sample_sized (h_class h)) ss.
Proof.
  intros Hc. revert f ss e f'. induction todo as [n Hn|n Hn IH] using todo_ind; intros f ss e f' H.
  - rewrite D_zero in H by lia. injection H as <- _ _. constructor.
  - rewrite D_pos in H by lia. destruct (read_sample dec h gate f) as [[[s|]|x] f1] eqn:E;
      try (injection H as <- _ _; constructor).
    destruct (D dec h gate strict (n - 1) f1) as [[ss1 e1] f2] eqn:E1. injection H as <- _ _.
    constructor; [eapply read_sample_sized; eassumption|]. eapply IH. exact E1.
Qed.

Lemma run_sized h strict ms f ss e f' : In (h_class h) versions ->
  run dec (Some h) strict ms f = (ss, e, f') -> Forall (sample_sized (h_class h)) ss.
Proof.
  intros Hc. rewrite run_some. destruct (cgroup_gate h); [apply D_sized, Hc|].
  intros H. injection H as <- _ _. constructor.
Qed.

(** ** Exceptions *)

Lemma mbind_raise_inv {A B} (m : M A) (k : A -> M B) f e f' : mbind m k f = (Raise e, f') ->
  m f = (Raise e, f') \/ exists a f1, m f = (Ok a, f1) /\ k a f1 = (Raise e, f').
Proof.
  unfold mbind. destruct (m f) as [[a|x] f1]; intros H; [right; eauto|left]. injection H as <- <-. reflexivity.
Qed.

Lemma fread_raise n f e f' : fread n f = (Raise e, f') -> f_fault f = Some e.
Proof.
  unfold fread. destruct (_ <=? _); [intros H; discriminate H|]. destruct (f_fault f); intros H; [|discriminate H].
  injection H as <- _. reflexivity.
Qed.

(** Exceptions allowed with file fault [x]. *)
Definition reported (x : option exn) (e : exn) : Prop :=
  e = ZlibError \/ (exists v, e = ValueError v) \/ x = Some e.

(** [m] keeps the fault and only raises reported exceptions. *)
Definition tame {A} (m : M A) : Prop :=
  forall f r f', m f = (r, f') -> f_fault f' = f_fault f /\ forall e, r = Raise e -> reported (f_fault f) e.

Lemma tame_ret {A} (a : A) : tame (mret a).
Proof. intros f r f' H. unfold mret in H. injection H as <- <-. split; [reflexivity|]. intros e X. discriminate X. Qed.
Lemma tame_lift {A} (r : res A) : (forall e, r = Raise e -> e = ZlibError \/ exists v, e = ValueError v) -> tame (mlift r).
Proof.
  intros K f r' f' H. unfold mlift in H. injection H as <- <-. split; [reflexivity|]. intros e X.
  destruct (K e X); [left|right; left]; assumption.
Qed.
Lemma tame_lift_ok {A} (a : A) : tame (mlift (Ok a)).
Proof. apply tame_lift. intros e X. discriminate X. Qed.
Lemma tame_bind {A B} (m : M A) (k : A -> M B) : tame m -> (forall a, tame (k a)) -> tame (mbind m k).
Proof.
  intros Hm Hk f r f' H. unfold mbind in H. destruct (m f) as [[a|x] f1] eqn:E.
  - destruct (Hm _ _ _ E) as [F1 _]. destruct (Hk a _ _ _ H) as [F2 R]. rewrite F1 in F2, R. auto.
  - injection H as <- <-. destruct (Hm _ _ _ E) as [F R]. split; [exact F|]. intros e X. injection X as <-. apply R. reflexivity.
Qed.
Lemma tame_step {A B} (a : A) (k : A -> M B) : tame (k a) -> tame (mbind (mlift (Ok a)) k).
Proof. intros H f r f' E. rewrite mbind_lift in E. exact (H _ _ _ E). Qed.
Lemma tame_fread n : tame (fread n).
Proof.
  intros f r f' H. unfold fread in H. destruct (_ <=? _).
  - injection H as <- <-. split; [reflexivity|]. intros e X. discriminate X.
  - destruct (f_fault f) eqn:F; injection H as <- <-; cbn; (split; [reflexivity|]); intros e' X; [|discriminate X].
    injection X as <-. right. right. reflexivity.
Qed.
Lemma tame_freadinto n : tame (freadinto n).
Proof.
  intros f r f' H. unfold freadinto in H. destruct (fread n f) as [[b|x] f1] eqn:E;
    destruct (tame_fread n _ _ _ E) as [F R]; injection H as <- <-; (split; [exact F|]).
  - intros e X. discriminate X.
  - intros e X. injection X as <-. apply R. reflexivity.
Qed.
Lemma tame_zlib b : tame (mlift (zlib_decompress dec b)).
Proof.
  apply tame_lift. unfold zlib_decompress. destruct (dec b); intros e X; [discriminate X|].
  injection X as <-. left. reflexivity.
Qed.

Lemma tame_read_sample ws c hb gate : In (ws, c) table ->
  ((2 <=? major_of hb) && (3 <=? minor_of hb)) = negb (vs_major ws =? 1) ->
  (gate = true -> vs_cstat ws <> None) ->
  tame (read_sample dec (mkHdr c hb) gate).
Proof.
  intros Hc H1 H2. destruct (table_class _ _ Hc) as (_ & Hcv). unfold read_sample.
  unfold get_record. cbn [h_class].
  (* the record is always an instance of the record class *)
  assert (forall (k : cobj -> M (option sample)), (forall rb, tame (k (mkObj (hc_record c) rb))) ->
            tame (mbind (let! b := freadinto (sizeof (hc_record c)) in mret (mkObj (hc_record c) b)) k)) as K.
  { intros k Hk f r f' H. unfold mbind at 1 in H.
    destruct ((let! b := freadinto (sizeof (hc_record c)) in mret (mkObj (hc_record c) b)) f) as [[a|e] f1] eqn:E.
    - pose proof (tame_bind _ _ (tame_freadinto _) (fun b => tame_ret (mkObj (hc_record c) b)) _ _ _ E) as [F _].
      apply mbind_inv in E as (b & f2 & _ & E). unfold mret in E. injection E as <- <-.
      destruct (Hk b _ _ _ H) as [F2 R]. rewrite F in F2, R. auto.
    - injection H as <- <-.
      pose proof (tame_bind _ _ (tame_freadinto _) (fun b => tame_ret (mkObj (hc_record c) b)) _ _ _ E) as [F R].
      split; [exact F|]. intros e' X. injection X as <-. apply R. reflexivity. }
  apply K. clear K. intros rb.
  rewrite (rec_int ws c Hc rb _ _ _ (in_rec_scomplen ws)).
  apply tame_bind; [apply tame_lift_ok|]. intros sc. destruct (sc <=? 0); [apply tame_ret|].
  apply tame_bind.
  { unfold get_sstat. rewrite (rec_int ws c Hc rb _ _ _ (in_rec_scomplen ws)).
    apply tame_bind; [apply tame_lift_ok|]. intros n. apply tame_bind; [apply tame_fread|]. intros b.
    apply tame_bind; [apply tame_zlib|]. intros d. apply tame_lift. intros e E. right. eexists.
    eapply from_buffer_copy_raise, E. }
  intros ss. apply tame_bind.
  { unfold get_tstat. rewrite (rec_int ws c Hc rb _ _ _ (in_rec_pcomplen ws)).
    apply tame_bind; [apply tame_lift_ok|]. intros n. apply tame_bind; [apply tame_fread|]. intros b.
    apply tame_bind; [apply tame_zlib|]. intros d. apply tame_bind.
    { rewrite (is_record_1_26_spec ws c rb Hc). destruct (Z.eqb_spec (vs_major ws) 1) as [M|M].
      - rewrite (rec_int ws c Hc rb _ _ _ (in_rec_nlist ws M)). apply tame_lift_ok.
      - rewrite (rec_int ws c Hc rb _ _ _ (in_rec_ndeviat ws M)). apply tame_lift_ok. }
    intros rc. rewrite (version_at_least_spec _ _ Hc), H1. apply tame_step.
    assert (exists z, (if negb (vs_major ws =? 1) then getint (h_obj (mkHdr c hb)) "tstatlen"
                       else getint (h_obj (mkHdr c hb)) "pstatlen") = Ok z) as [z ->].
    { rewrite !h_obj_mk. destruct (Z.eqb_spec (vs_major ws) 1) as [M|M]; cbn [negb].
      - rewrite (header_getint _ _ _ _ _ _ Hc (in_hdr_pstatlen ws M)). eauto.
      - rewrite (header_getint _ _ _ _ _ _ Hc (in_hdr_tstatlen ws M)). eauto. }
    apply tame_step. apply tame_lift. intros e E. right. eexists. eapply tstat_loop_raise, E. }
  intros ts. apply tame_bind; [|intros; apply tame_ret].
  destruct gate; [|apply tame_ret]. specialize (H2 eq_refl).
  destruct (vs_cstat ws) as [sz|] eqn:Es; [|congruence].
  destruct (table_sizes _ _ Hc) as (_ & _ & _ & _ & _ & S5). rewrite Es in S5. destruct S5 as (ct & Ect & _).
  assert (11 <=? vs_minor ws = true /\ vs_major ws =? 1 = false) as [G1 G2].
  { destruct (version_shape ws (proj1 (table_class _ _ Hc))) as [V1 V2]. rewrite Es in V2. lia. }
  assert (forall n off k, In (n, off, k) [("ncgroups"%string, 10, U16); ("ccomplen"%string, 72, U32); ("icomplen"%string, 84, U32)] ->
            getint (mkObj (hc_record c) rb) n = Ok (num_at k rb off)) as R.
  { intros n off k Hn. apply (rec_int ws c Hc). unfold record_fields. rewrite G2, G1.
    apply in_or_app. right. apply in_or_app. right. cbn in *. tauto. }
  unfold get_cstat.
  rewrite (R _ _ _ (or_intror (or_introl eq_refl))), (R _ _ _ (or_intror (or_intror (or_introl eq_refl)))), (R _ _ _ (or_introl eq_refl)).
  apply tame_step. apply tame_bind; [apply tame_fread|]. intros b1.
  apply tame_bind; [apply tame_zlib|]. intros dc. apply tame_step. apply tame_bind; [apply tame_fread|]. intros b2.
  apply tame_bind; [apply tame_zlib|]. intros dp. rewrite h_obj_mk, (header_getint _ _ _ _ _ _ Hc (in_hdr_cstatlen ws sz Es)).
  apply tame_step. apply tame_step. cbn [h_class]. rewrite Ect. apply tame_lift. intros e E. right.
  apply (cstat_loop_raise c ct) in E as [-> | ->]; eauto.
Qed.

(** Headers accepted by get_header can be read with. *)
Lemma tame_accepted h f0 f0' gate : get_header true f0 = (Ok h, f0') -> cgroup_gate h = Ok gate ->
  tame (read_sample dec h gate).
Proof.
  intros H G.
  assert (exists ws c hb, In (ws, c) table /\ h = mkHdr c hb /\
            ((2 <=? major_of hb) && (3 <=? minor_of hb)) = negb (vs_major ws =? 1) /\
            ((2 <=? major_of hb) && (11 <=? minor_of hb) = true -> vs_cstat ws <> None)) as (ws & c & hb & Hc & -> & V1 & V2).
  { unfold get_header in H. apply mbind_inv in H as (b & f1 & H1 & H). unfold mlift in H. injection H as H _.
    apply freadinto_sized in H1; [|vm_compute; discriminate].
    change (sizeof (hc_header default_class)) with 480 in H1.
    destruct (Z.eq_dec (magic_of b) magic_number) as [M|M].
    2:{ rewrite get_header_bad_magic in H by exact M. discriminate H. }
    destruct (chosen_exists b) as (c & Ch). rewrite (get_header_good_magic b true c H1 M Ch) in H.
    destruct (check_compatibility (mkHdr c b)) as [[]|x] eqn:E; cbn [rbind] in H; [|discriminate H]. injection H as <-.
    destruct Ch as [(vs & Ht & [V1 V2])|(U & ->)].
    - exists vs, c, b. split; [exact Ht|]. split; [reflexivity|]. rewrite V1, V2.
      destruct (version_shape vs (proj1 (table_class _ _ Ht))) as [S1 S2]. rewrite S2, S1, negb_involutive.
      split; [reflexivity|]. destruct (vs_cstat vs); [discriminate|intros X; discriminate X].
    - exists latest, a2_12_class, b. split; [exact latest_in|]. split; [reflexivity|].
      pose proof (check_fallback b) as C. destruct ((2 <=? major_of b) && (3 <=? minor_of b)).
      + split; [reflexivity|]. intros _ X. discriminate X.
      + rewrite C in E. discriminate E. }
  rewrite (cgroup_gate_spec _ _ Hc) in G. injection G as <-.
  apply (tame_read_sample ws c hb _ Hc V1 V2).
Qed.

Lemma D_reported h gate strict todo f ss e f' : tame (read_sample dec h gate) ->
  D dec h gate strict todo f = (ss, Some (Some e), f') ->
  reported (f_fault f) e /\ (e = ZlibError -> strict = true).
Proof.
  intros T. revert f ss e f'. induction todo as [n Hn|n Hn IH] using todo_ind; intros f ss e f' H.
  - rewrite D_zero in H by lia. discriminate H.
  - rewrite D_pos in H by lia. destruct (read_sample dec h gate f) as [[[s|]|x] f1] eqn:E; [|discriminate H|].
    + destruct (D dec h gate strict (n - 1) f1) as [[ss1 e1] f2] eqn:E1. injection H as _ -> _.
      destruct (T _ _ _ E) as [F _]. rewrite <- F. eapply IH. exact E1.
    + injection H as _ H _. destruct (T _ _ _ E) as [_ R]. specialize (R x eq_refl).
      unfold exn_end in H. destruct x; try (injection H as <-; split; [exact R|intros X; discriminate X]).
      destruct strict; [|discriminate H]. injection H as <-. split; [exact R|reflexivity].
Qed.

Lemma accepted_gate h f0 f0' : get_header true f0 = (Ok h, f0') -> exists gate, cgroup_gate h = Ok gate.
Proof.
  intros H. assert (In (h_class h) versions) as Hc.
  { unfold get_header in H. apply mbind_inv in H as (b & f1 & H1 & H). unfold mlift in H. injection H as H _.
    apply freadinto_sized in H1; [|vm_compute; discriminate].
    change (sizeof (hc_header default_class)) with 480 in H1.
    destruct (Z.eq_dec (magic_of b) magic_number) as [M|M].
    2:{ rewrite get_header_bad_magic in H by exact M. discriminate H. }
    destruct (chosen_exists b) as (c & Ch). rewrite (get_header_good_magic b true c H1 M Ch) in H.
    destruct (check_compatibility (mkHdr c b)) as [[]|x] eqn:E; cbn [rbind] in H; [|discriminate H]. injection H as <-.
    exact (chosen_in _ _ Ch). }
  destruct (class_table _ Hc) as (vs & Ht). destruct h as [c b]. rewrite (cgroup_gate_spec _ _ Ht). eauto.
Qed.
End Any.

(** What get_header returns, from any file object. *)
Lemma get_header_class check f h f' : get_header check f = (Ok h, f') ->
  In (h_class h) versions /\ zlen (h_buf h) = 480.
Proof.
  intros H. unfold get_header in H. apply mbind_inv in H as (b & f1 & H1 & H). unfold mlift in H. injection H as H _.
  apply freadinto_sized in H1; [|vm_compute; discriminate].
  change (sizeof (hc_header default_class)) with 480 in H1.
  destruct (Z.eq_dec (magic_of b) magic_number) as [M|M].
  2:{ rewrite get_header_bad_magic in H by exact M. discriminate H. }
  destruct (chosen_exists b) as (c & Ch). rewrite (get_header_good_magic b check c H1 M Ch) in H.
  assert (h = mkHdr c b) as ->.
  { destruct check; [|injection H as <-; reflexivity].
    destruct (check_compatibility (mkHdr c b)) as [[]|x] eqn:E; cbn [rbind] in H; [|discriminate H]. injection H as <-. reflexivity. }
  split; [exact (chosen_in _ _ Ch)|exact H1].
Qed.
