(** * Runs and histories of generate_statistics *)
From Coq Require Import List ZArith Lia Bool String.
From Coq Require Import Init.Byte.
From Coq Require Import ZifyBool.
From Verif Require Import PyBase Utf8 CTypes S_shared S_1_26 S_2_11 S_2_12 Model Spec SpecDict SpecLog
  BaseProofs LayoutProofs RepProofs DictProofs TableProofs HeaderProofs GenProofs.
Import ListNotations.
Open Scope list_scope.
Open Scope Z_scope.

Section Runs.
Variable dec : list byte -> option (list byte).

(** How an exception ends the iteration. *)
Definition exn_end (strict : bool) (e : exn) : ending :=
  match e with ZlibError => if strict then Some ZlibError else None | _ => Some e end.

Definition D (h : hobj) (gate strict : bool) (todo : Z) (f : file) :=
  drain dec (S (Z.to_nat todo)) (GYielded h gate strict todo) f.

Lemma drain_step fuel h gate strict todo f :
  drain dec (S fuel) (GYielded h gate strict todo) f =
  if todo <=? 0 then ([], Some None, f) else
  match read_sample dec h gate f with
  | (Ok (Some s), f') =>
      let '(ss, e, f'') := drain dec fuel (GYielded h gate strict (todo - 1)) f' in (s :: ss, e, f'')
  | (Ok None, f') => ([], Some None, f')
  | (Raise e, f') => ([], Some (exn_end strict e), f')
  end.
Proof.
  cbn [drain gnext]. unfold gloop. destruct (todo <=? 0); [reflexivity|].
  destruct (read_sample dec h gate f) as [[[s|]|e] f']; try reflexivity.
  unfold on_exception, exn_end. destruct e; try reflexivity. destruct strict; reflexivity.
Qed.

Lemma drain_D fuel h gate strict todo f : (S (Z.to_nat todo) <= fuel)%nat ->
  drain dec fuel (GYielded h gate strict todo) f = D h gate strict todo f.
Proof.
  revert todo f. induction fuel as [|fuel IH]; intros todo f H; [lia|].
  unfold D. rewrite !drain_step. destruct (Z.leb_spec todo 0) as [L|L]; [reflexivity|].
  destruct (read_sample dec h gate f) as [[[s|]|e] f']; try reflexivity.
  rewrite IH by lia. unfold D. replace (Z.to_nat todo) with (S (Z.to_nat (todo - 1))) by lia. reflexivity.
Qed.

Lemma D_step h gate strict todo f :
  D h gate strict todo f =
  if todo <=? 0 then ([], Some None, f) else
  match read_sample dec h gate f with
  | (Ok (Some s), f') =>
      let '(ss, e, f'') := D h gate strict (todo - 1) f' in (s :: ss, e, f'')
  | (Ok None, f') => ([], Some None, f')
  | (Raise e, f') => ([], Some (exn_end strict e), f')
  end.
Proof.
  unfold D at 1. rewrite drain_step. destruct (Z.leb_spec todo 0) as [L|L]; [reflexivity|].
  destruct (read_sample dec h gate f) as [[[s|]|e] f']; try reflexivity.
  rewrite drain_D by lia. reflexivity.
Qed.

(** Induction over the bound. *)
Lemma todo_ind (P : Z -> Prop) : (forall n, n <= 0 -> P n) -> (forall n, 0 < n -> P (n - 1) -> P n) -> forall n, P n.
Proof.
  intros H0 HS n. destruct (Z_le_gt_dec n 0); [auto|].
  replace n with (Z.of_nat (Z.to_nat n)) by lia. induction (Z.to_nat n) as [|k IH]; [apply H0; lia|].
  apply HS; [lia|]. replace (Z.of_nat (S k) - 1) with (Z.of_nat k) by lia. exact IH.
Qed.

Lemma D_zero h gate strict todo f : todo <= 0 -> D h gate strict todo f = ([], Some None, f).
Proof. intros H. rewrite D_step. replace (todo <=? 0) with true by lia. reflexivity. Qed.

Lemma D_pos h gate strict todo f : 0 < todo ->
  D h gate strict todo f =
  match read_sample dec h gate f with
  | (Ok (Some s), f') =>
      let '(ss, e, f'') := D h gate strict (todo - 1) f' in (s :: ss, e, f'')
  | (Ok None, f') => ([], Some None, f')
  | (Raise e, f') => ([], Some (exn_end strict e), f')
  end.
Proof. intros H. rewrite D_step. replace (todo <=? 0) with false by lia. reflexivity. Qed.

(** ** run *)

Lemma run_some h strict ms f :
  run dec (Some h) strict ms f =
  match cgroup_gate h with
  | Ok gate => D h gate strict ms f
  | Raise e => ([], Some (exn_end strict e), f)
  end.
Proof.
  unfold run, generate_statistics. cbn [drain gnext]. unfold gstart.
  destruct (cgroup_gate h) as [gate|e].
  - unfold D. rewrite drain_step. unfold gloop. destruct (Z.leb_spec ms 0) as [L|L]; [reflexivity|].
    destruct (read_sample dec h gate f) as [[[s|]|e] f']; try reflexivity.
    unfold on_exception, exn_end. destruct e; try reflexivity. destruct strict; reflexivity.
  - unfold on_exception, exn_end. destruct e; try reflexivity. destruct strict; reflexivity.
Qed.

Lemma run_none strict ms f :
  run dec None strict ms f =
  match get_header true f with
  | (Ok h, f') => run dec (Some h) strict ms f'
  | (Raise e, f') => ([], Some (Some e), f')
  end.
Proof.
  unfold run, generate_statistics. cbn [drain gnext].
  destruct (get_header true f) as [[h|e] f']; [|reflexivity].
  destruct (gstart dec h strict ms f') as [[[s| |e] g] f'']; reflexivity.
Qed.

(** Every run ends. *)
Lemma D_ends h gate strict todo f : exists ss e f', D h gate strict todo f = (ss, Some e, f').
Proof.
  revert f. induction todo as [n Hn|n Hn IH] using todo_ind; intros f.
  - rewrite D_zero by lia. eauto.
  - rewrite D_pos by lia. destruct (read_sample dec h gate f) as [[[s|]|e] f']; eauto.
    destruct (IH f') as (ss & e & f'' & ->). eauto.
Qed.

Lemma run_ends hdr strict ms f : exists ss e f', run dec hdr strict ms f = (ss, Some e, f').
Proof.
  assert (forall h f, exists ss e f', run dec (Some h) strict ms f = (ss, Some e, f')) as K.
  { intros h f0. rewrite run_some. destruct (cgroup_gate h); [apply D_ends|eauto]. }
  destruct hdr as [h|]; [apply K|]. rewrite run_none. destruct (get_header true f) as [[h|e] f']; [apply K|eauto].
Qed.

(** At most [ms] samples. *)
Lemma D_bound h gate strict todo f ss e f' : D h gate strict todo f = (ss, e, f') -> zlen ss <= Z.max 0 todo.
Proof.
  revert f ss e f'. induction todo as [n Hn|n Hn IH] using todo_ind; intros f ss e f' H.
  - rewrite D_zero in H by lia. injection H as <- _ _. rewrite zlen_nil. lia.
  - rewrite D_pos in H by lia.
    destruct (read_sample dec h gate f) as [[[s|]|x] f1]; try (injection H as <- _ _; rewrite zlen_nil; lia).
    destruct (D h gate strict (n - 1) f1) as [[ss1 e1] f2] eqn:E. injection H as <- _ _.
    apply IH in E. rewrite zlen_cons. lia.
Qed.

(** Two consecutive runs. *)
Lemma D_split h gate strict a b f ss1 e1 f1 : 0 <= a -> 0 <= b -> D h gate strict a f = (ss1, e1, f1) ->
  D h gate strict (a + b) f =
  if zlen ss1 =? a then (let '(ss2, e2, f2) := D h gate strict b f1 in (ss1 ++ ss2, e2, f2))
  else (ss1, e1, f1).
Proof.
  intros Ha Hb. revert Ha f ss1 e1 f1. induction a as [n Hn|n Hn IH] using todo_ind; intros Ha f ss1 e1 f1 H.
  - rewrite D_zero in H by lia. injection H as <- _ <-. replace n with 0 by lia. change (zlen (@nil sample)) with 0.
    cbn [Z.eqb app]. replace (0 + b) with b by lia. destruct (D h gate strict b f) as [[? ?] ?]. reflexivity.
  - rewrite D_pos in H by lia. rewrite D_pos by lia.
    destruct (read_sample dec h gate f) as [[[s|]|x] f2].
    + destruct (D h gate strict (n - 1) f2) as [[ss e] f3] eqn:E. injection H as <- <- <-.
      replace (n + b - 1) with (n - 1 + b) by lia. rewrite (IH ltac:(lia) _ _ _ _ E).
      rewrite zlen_cons. replace (1 + zlen ss =? n) with (zlen ss =? n - 1) by lia.
      destruct (zlen ss =? n - 1); [|reflexivity].
      destruct (D h gate strict b f3) as [[? ?] ?]. reflexivity.
    + injection H as <- <- <-. change (zlen (@nil sample)) with 0. replace (0 =? n) with false by lia. reflexivity.
    + injection H as <- <- <-. change (zlen (@nil sample)) with 0. replace (0 =? n) with false by lia. reflexivity.
Qed.

(** If the bound was reached, the run ended normally. *)
Lemma D_full h gate strict todo f ss e f' : D h gate strict todo f = (ss, e, f') -> zlen ss = todo -> e = Some None.
Proof.
  revert f ss e f'. induction todo as [n Hn|n Hn IH] using todo_ind; intros f ss e f' H L.
  - rewrite D_zero in H by lia. congruence.
  - rewrite D_pos in H by lia.
    destruct (read_sample dec h gate f) as [[[s|]|x] f1]; try (injection H as <- <- _; rewrite zlen_nil in L; lia).
    destruct (D h gate strict (n - 1) f1) as [[ss1 e1] f2] eqn:E. injection H as <- <- _.
    rewrite zlen_cons in L. apply (IH _ _ _ _ E). lia.
Qed.

Lemma D_prefix h gate strict a b f : a <= b ->
  exists r, fst (fst (D h gate strict b f)) = fst (fst (D h gate strict a f)) ++ r.
Proof.
  intros H. destruct (Z_le_gt_dec a 0).
  - rewrite (D_zero _ _ _ a) by lia. eexists. reflexivity.
  - destruct (D h gate strict a f) as [[ss1 e1] f1] eqn:E.
    replace b with (a + (b - a)) by lia. rewrite (D_split h gate strict a (b - a) f ss1 e1 f1 ltac:(lia) ltac:(lia) E).
    destruct (zlen ss1 =? a).
    + destruct (D h gate strict (b - a) f1) as [[ss2 e2] f2]. exists ss2. reflexivity.
    + exists []. symmetry. apply app_nil_r.
Qed.

(** Strict against lenient. *)
Lemma exn_end_lenient e : exn_end false e = lenient_end (exn_end true e).
Proof. destruct e; reflexivity. Qed.

Lemma D_modes h gate todo f ss e f' : D h gate true todo f = (ss, Some e, f') ->
  D h gate false todo f = (ss, Some (lenient_end e), f').
Proof.
  revert f ss e f'. induction todo as [n Hn|n Hn IH] using todo_ind; intros f ss e f' H.
  - rewrite D_zero in * by lia. injection H as <- <- <-. reflexivity.
  - rewrite D_pos in * by lia.
    destruct (read_sample dec h gate f) as [[[s|]|x] f1].
    + destruct (D h gate true (n - 1) f1) as [[ss1 e1] f2] eqn:E. injection H as <- -> <-.
      rewrite (IH _ _ _ _ E). reflexivity.
    + injection H as <- <- <-. reflexivity.
    + injection H as <- <- <-. rewrite exn_end_lenient. reflexivity.
Qed.

(** ** Well-formed logs *)

Section Logs.
Variables (vs : vspec) (c : hclass) (hb : list byte).
Hypothesis Hc : In (vs, c) table.
Hypothesis Hv : is_version vs hb.
Hypothesis Hsz : sizes_match vs hb.
Let h := mkHdr c hb.

Lemma samples_bytes_cons s ss : samples_bytes (s :: ss) = sample_bytes s ++ samples_bytes ss.
Proof. reflexivity. Qed.

Lemma D_samples strict ss todo tail : Forall (wf_sample dec vs) ss -> zlen ss <= todo ->
  D h (gate_of vs) strict todo (plain (samples_bytes ss ++ tail)) =
  let '(ys, e, f) := D h (gate_of vs) strict (todo - zlen ss) (plain tail) in (map (view c) ss ++ ys, e, f).
Proof.
  intros Hw. revert todo. induction Hw as [|s ss Hs _ IH]; intros todo Ht.
  - rewrite zlen_nil, Z.sub_0_r. cbn [samples_bytes map List.concat app].
    destruct (D h (gate_of vs) strict todo (plain tail)) as [[? ?] ?]. reflexivity.
  - rewrite zlen_cons in *. pose proof (zlen_nonneg ss). rewrite D_pos by lia.
    rewrite samples_bytes_cons, <- app_assoc. unfold h. rewrite (read_sample_ok dec vs c hb Hc Hv Hsz s _ Hs).
    fold h. rewrite IH by lia. replace (todo - 1 - zlen ss) with (todo - (1 + zlen ss)) by lia.
    destruct (D h (gate_of vs) strict _ (plain tail)) as [[? ?] ?]. reflexivity.
Qed.

Lemma D_end strict todo b : u32_at b 16 = 0 -> 0 < todo ->
  D h (gate_of vs) strict todo (plain b) = ([], Some None, plain (zdrop (vs_rec vs) b)).
Proof.
  intros Hb Ht. rewrite D_pos by lia. unfold h. rewrite (read_sample_end dec vs c hb Hc b Hb). reflexivity.
Qed.

Lemma D_nil strict todo : D h (gate_of vs) strict todo (plain []) = ([], Some None, plain []).
Proof.
  destruct (Z_le_gt_dec todo 0); [apply D_zero; lia|]. rewrite D_end by (reflexivity || lia).
  rewrite zdrop_all; [reflexivity|]. rewrite zlen_nil. pose proof (spec_sizes vs c Hc). lia.
Qed.

Lemma Forall_ztake {A} (P : A -> Prop) n l : Forall P l -> Forall P (ztake n l).
Proof.
  intros H. rewrite <- (ztake_zdrop n l) in H. apply Forall_app in H. tauto.
Qed.

(** Bound below the number of samples. *)
Lemma D_samples_bound strict ss todo tail : Forall (wf_sample dec vs) ss -> 0 <= todo <= zlen ss ->
  D h (gate_of vs) strict todo (plain (samples_bytes ss ++ tail)) =
  (map (view c) (ztake todo ss), Some None, plain (samples_bytes (zdrop todo ss) ++ tail)).
Proof.
  intros Hw Ht. rewrite <- (ztake_zdrop todo ss) at 1. unfold samples_bytes at 1.
  rewrite map_app, concat_app, <- app_assoc. fold (samples_bytes (ztake todo ss)) (samples_bytes (zdrop todo ss)).
  assert (zlen (ztake todo ss) = todo) as L by (rewrite zlen_ztake; lia).
  rewrite D_samples; [|apply Forall_ztake; exact Hw|lia].
  rewrite L, Z.sub_diag, D_zero by lia. rewrite app_nil_r. reflexivity.
Qed.

(** Cutting the samples after [p]. *)
Lemma cut_samples ss p q : samples_bytes ss = p ++ q ->
  exists tail, p = samples_bytes (complete (zlen p) ss) ++ tail /\
  ((q = [] /\ tail = [] /\ complete (zlen p) ss = ss) \/
   (exists s rest q', ss = complete (zlen p) ss ++ s :: rest /\ sample_bytes s = tail ++ q' /\ q' <> [])).
Proof.
  revert p. induction ss as [|s ss IH]; intros p E.
  - exists []. cbn [samples_bytes map List.concat] in E. destruct p; destruct q; try discriminate. auto.
  - rewrite samples_bytes_cons in E. apply prefix_cases in E as [(L & a2 & E & N)|(p2 & -> & E)].
    + cbn [complete]. replace (zlen (sample_bytes s) <=? zlen p) with false by lia.
      exists p. split; [reflexivity|]. right. exists s, ss, a2. auto.
    + cbn [complete]. rewrite zlen_app. pose proof (zlen_nonneg p2).
      replace (zlen (sample_bytes s) <=? zlen (sample_bytes s) + zlen p2) with true by lia.
      replace (zlen (sample_bytes s) + zlen p2 - zlen (sample_bytes s)) with (zlen p2) by lia.
      destruct (IH p2 E) as (tail & E1 & K). exists tail. split.
      * rewrite samples_bytes_cons, <- app_assoc. congruence.
      * destruct K as [(K1 & K2 & K3)|(s' & r & q' & K1 & K2 & K3)]; [left; rewrite K3; auto|].
        right. exists s', r, q'. cbn [app]. rewrite <- K1. auto.
Qed.

Lemma complete_len k ss : zlen (complete k ss) <= zlen ss.
Proof.
  revert k. induction ss as [|s ss IH]; intros k; cbn [complete]; [lia|].
  destruct (_ <=? k); rewrite ?zlen_cons, ?zlen_nil; [specialize (IH (k - zlen (sample_bytes s))); lia|pose proof (zlen_nonneg ss); lia].
Qed.

Lemma complete_wf k ss : Forall (wf_sample dec vs) ss -> Forall (wf_sample dec vs) (complete k ss).
Proof.
  intros H. revert k. induction H as [|s ss Hs _ IH]; intros k; cbn [complete]; [constructor|].
  destruct (_ <=? k); [constructor; auto|constructor].
Qed.

Lemma u32_nil i : u32_at [] i = 0.
Proof. unfold u32_at, u16_at, at8. destruct (Z.to_nat i), (Z.to_nat (i+1)), (Z.to_nat (i+2)), (Z.to_nat (i+2+1)); reflexivity. Qed.

Lemma D_cut strict ss p q todo : Forall (wf_sample dec vs) ss -> zlen ss <= todo -> samples_bytes ss = p ++ q ->
  exists tail, p = samples_bytes (complete (zlen p) ss) ++ tail /\
  D h (gate_of vs) strict todo (plain p) =
  (map (view c) (complete (zlen p) ss),
   Some (if strict && negb (u32_at tail 16 =? 0) then Some ZlibError else None), plain []).
Proof.
  intros Hw Ht E. destruct (cut_samples ss p q E) as (tail & Ep & K). exists tail. split; [exact Ep|].
  pose proof (complete_len (zlen p) ss) as L. pose proof (complete_wf (zlen p) ss Hw) as W.
  rewrite Ep at 1. rewrite D_samples by (assumption || lia).
  destruct K as [(-> & -> & K)|(s & r & q' & K1 & K2 & K3)].
  - rewrite D_nil, app_nil_r, u32_nil, Z.eqb_refl, andb_false_r. reflexivity.
  - rewrite D_pos by (apply (f_equal zlen) in K1; rewrite zlen_app, zlen_cons in K1; pose proof (zlen_nonneg r); lia). unfold h.
    assert (wf_sample dec vs s) as Hs.
    { rewrite Forall_forall in Hw. apply Hw. rewrite K1. apply in_or_app. right. left. reflexivity. }
    rewrite (read_sample_cut dec vs c hb Hc Hv Hsz s tail q' Hs K2 K3).
    destruct (u32_at tail 16 =? 0); cbn [negb].
    + rewrite andb_false_r, app_nil_r. reflexivity.
    + rewrite andb_true_r, app_nil_r. reflexivity.
Qed.

End Logs.

(** ** Consumption on arbitrary files *)

Lemma suffix_refl {A} (l : list A) : suffix_of l l.
Proof. exists []. reflexivity. Qed.
Lemma suffix_trans {A} (l m n : list A) : suffix_of l m -> suffix_of m n -> suffix_of l n.
Proof. intros [a ->] [b ->]. exists (b ++ a). apply app_assoc. Qed.
Lemma suffix_drop {A} n (l : list A) : suffix_of (zdrop n l) l.
Proof. exists (ztake n l). symmetry. apply ztake_zdrop. Qed.
Lemma suffix_nil {A} (l : list A) : suffix_of [] l.
Proof. exists l. symmetry. apply app_nil_r. Qed.

Definition forward {A} (m : M A) : Prop := forall f, suffix_of (f_rem (snd (m f))) (f_rem f).

Lemma forward_ret {A} (a : A) : forward (mret a).
Proof. intros f. apply suffix_refl. Qed.
Lemma forward_lift {A} (r : res A) : forward (mlift r).
Proof. intros f. apply suffix_refl. Qed.
Lemma forward_bind {A B} (m : M A) (k : A -> M B) : forward m -> (forall a, forward (k a)) -> forward (mbind m k).
Proof.
  intros Hm Hk f. unfold mbind. specialize (Hm f). destruct (m f) as [[a|e] f']; cbn [snd] in *; [|exact Hm].
  eapply suffix_trans; [apply Hk|exact Hm].
Qed.
Lemma forward_fread n : forward (fread n).
Proof.
  intros f. unfold fread. destruct (n <=? _); [apply suffix_drop|]. destruct (f_fault f); apply suffix_nil.
Qed.
Lemma forward_freadinto n : forward (freadinto n).
Proof.
  intros f. unfold freadinto. pose proof (forward_fread n f) as H. destruct (fread n f) as [[b|e] f']; exact H.
Qed.

Ltac fwd := repeat (intros; match goal with
  | |- forward (mbind _ _) => apply forward_bind
  | |- forward (fread _) => apply forward_fread
  | |- forward (freadinto _) => apply forward_freadinto
  | |- forward (mlift _) => apply forward_lift
  | |- forward (mret _) => apply forward_ret
  | |- forward (if ?b then _ else _) => destruct b
  end).

Lemma forward_get_header check : forward (get_header check).
Proof. unfold get_header. fwd. Qed.

Lemma forward_read_sample h gate : forward (read_sample dec h gate).
Proof.
  unfold read_sample, get_record, get_sstat, get_tstat, get_cstat. fwd.
Qed.

Lemma fread_ok n f b f' : fread n f = (Ok b, f') ->
  b = ztake n (f_rem f) /\ f_rem f' = zdrop n (f_rem f) /\ f_fault f' = f_fault f.
Proof.
  unfold fread. destruct (Z.leb_spec n (zlen (f_rem f))).
  - intros E. injection E as <- <-. auto.
  - destruct (f_fault f) eqn:F; [discriminate|]. intros E. injection E as <- <-. cbn [f_rem f_fault].
    rewrite ztake_all, zdrop_all by lia. auto.
Qed.

Lemma freadinto_ok n f b f' : freadinto n f = (Ok b, f') ->
  b = ztake n (f_rem f) ++ zeros (n - zlen (ztake n (f_rem f))) /\ f_rem f' = zdrop n (f_rem f) /\ f_fault f' = f_fault f.
Proof.
  unfold freadinto. destruct (fread n f) as [[x|e] f1] eqn:E; [|discriminate].
  intros K. injection K as <- <-. apply fread_ok in E as (-> & H2 & H3). auto.
Qed.

Lemma mbind_inv {A B} (m : M A) (k : A -> M B) f b f' : mbind m k f = (Ok b, f') ->
  exists a f1, m f = (Ok a, f1) /\ k a f1 = (Ok b, f').
Proof. unfold mbind. destruct (m f) as [[a|e] f1]; [eauto|discriminate]. Qed.

Ltac inv_bind H :=
  let a := fresh "a" in let f := fresh "f" in let H1 := fresh "H" in
  apply mbind_inv in H as (a & f & H1 & H).

(** A yielded sample occupied exactly the bytes announced by its record. *)
Lemma read_sample_consumes vs c hb f s f' : In (vs, c) table -> is_version vs hb ->
  read_sample dec (mkHdr c hb) (gate_of vs) f = (Ok (Some s), f') ->
  o_type (s_record s) = hc_record c /\
  0 < u32_at (o_buf (s_record s)) 16 /\
  f_rem f' = zdrop (sample_extent vs (o_buf (s_record s))) (f_rem f) /\
  (gate_of vs = false -> s_cgroups s = []) /\
  (gate_of vs = true -> zlen (s_cgroups s) = u16_at (o_buf (s_record s)) 10) /\
  zlen (s_tstats s) = u32_at (o_buf (s_record s)) 28.
Proof.
  intros Hc Hv. unfold read_sample. intros H. apply mbind_inv in H as (r & f1 & H1 & H).
  unfold get_record in H1. apply mbind_inv in H1 as (rb & f2 & H2 & H1).
  apply freadinto_ok in H2 as (_ & R1 & _). unfold mret in H1. injection H1 as <- <-.
  cbn [h_class] in *. rewrite (rec_size vs c Hc) in R1.
  rewrite (rec_int vs c Hc rb _ _ _ (in_rec_scomplen vs)) in H. cbn [num_at] in H. rewrite mbind_lift in H.
  pose proof (u32_range rb 16) as V16. pose proof (u32_range rb 20) as V20. pose proof (u32_range rb 72) as V72.
  pose proof (u32_range rb 84) as V84. pose proof (u16_range rb 10) as V10. pose proof (u32_range rb 28) as V28.
  destruct (Z.leb_spec (u32_at rb 16) 0) as [L|L]; [discriminate|].
  apply mbind_inv in H as (ssv & f3 & H1 & H).
  unfold get_sstat in H1. rewrite (rec_int vs c Hc rb _ _ _ (in_rec_scomplen vs)) in H1. cbn [num_at] in H1. rewrite mbind_lift in H1.
  apply mbind_inv in H1 as (buf & f4 & H2 & H1). apply fread_ok in H2 as (_ & R2 & _).
  apply mbind_inv in H1 as (d & f5 & H2 & H1). unfold mlift in H2, H1. injection H2 as _ <-. injection H1 as _ <-.
  apply mbind_inv in H as (tsv & f6 & H1 & H).
  unfold get_tstat in H1. rewrite (rec_int vs c Hc rb _ _ _ (in_rec_pcomplen vs)) in H1. cbn [num_at] in H1. rewrite mbind_lift in H1.
  apply mbind_inv in H1 as (buf2 & f7 & H2 & H1). apply fread_ok in H2 as (_ & R3 & _).
  apply mbind_inv in H1 as (d2 & f8 & H2 & H1). unfold mlift in H2. injection H2 as _ <-.
  apply mbind_inv in H1 as (rc & f9 & H2 & H1). unfold mlift in H2. injection H2 as Erc <-.
  apply mbind_inv in H1 as (b2 & f10 & H2 & H1). unfold mlift in H2. injection H2 as _ <-.
  apply mbind_inv in H1 as (tl & f11 & H2 & H1). unfold mlift in H2, H1. injection H2 as _ <-. injection H1 as Ets <-.
  assert (zlen tsv = u32_at rb 28) as Nts.
  { assert (rc = u32_at rb 28) as ->.
    { rewrite (is_record_1_26_spec vs c rb Hc) in Erc. destruct (Z.eqb_spec (vs_major vs) 1) as [M|M].
      - rewrite (rec_int vs c Hc rb _ _ _ (in_rec_nlist vs M)) in Erc. cbn [num_at] in Erc. congruence.
      - rewrite (rec_int vs c Hc rb _ _ _ (in_rec_ndeviat vs M)) in Erc. cbn [num_at] in Erc. congruence. }
    assert (forall n i l, tstat_loop (hc_tstat c) tl d2 n i = Ok l -> zlen l = Z.of_nat n) as K.
    { induction n as [|n IH]; intros i l E; cbn [tstat_loop] in E; [injection E as <-; reflexivity|].
      destruct (from_buffer_copy _ _); [|discriminate]. cbn [rbind] in E.
      destruct (tstat_loop _ _ _ n _) eqn:E2; [|discriminate]. cbn [rbind] in E. injection E as <-.
      rewrite zlen_cons, (IH _ _ E2). lia. }
    rewrite (K _ _ _ Ets). lia. }
  apply mbind_inv in H as (cg & f12 & H1 & H). unfold mret in H. injection H as <- <-.
  cbn [s_record s_cgroups s_tstats o_buf o_type]. split; [reflexivity|]. split; [lia|].
  assert (f_rem f7 = zdrop (vs_rec vs + u32_at rb 16 + u32_at rb 20) (f_rem f)) as R.
  { pose proof (spec_sizes vs c Hc). rewrite R3, R2, R1, !zdrop_zdrop by lia. f_equal. lia. }
  unfold sample_extent, gate_of in *.
  destruct (vs_cstat vs) as [n|] eqn:Ec.
  - destruct (table_sizes vs c Hc) as (_ & _ & _ & _ & _ & S5). rewrite Ec in S5. destruct S5 as (ct & Ect & _).
    destruct (in_rec_cg vs n (vs_in vs c Hc) Ec) as (Q1 & Q2 & Q3).
    unfold get_cstat in H1. rewrite (rec_int vs c Hc rb _ _ _ Q2) in H1. cbn [num_at] in H1. rewrite mbind_lift in H1.
    apply mbind_inv in H1 as (b3 & f13 & H2 & H1). apply fread_ok in H2 as (_ & R4 & _).
    apply mbind_inv in H1 as (d3 & f14 & H2 & H1). unfold mlift in H2. injection H2 as _ <-.
    rewrite (rec_int vs c Hc rb _ _ _ Q3) in H1. cbn [num_at] in H1. rewrite mbind_lift in H1.
    apply mbind_inv in H1 as (b4 & f15 & H2 & H1). apply fread_ok in H2 as (_ & R5 & _).
    apply mbind_inv in H1 as (d4 & f16 & H2 & H1). unfold mlift in H2. injection H2 as _ <-.
    apply mbind_inv in H1 as (cl & f17 & H2 & H1). unfold mlift in H2. injection H2 as _ <-.
    rewrite (rec_int vs c Hc rb _ _ _ Q1) in H1. cbn [num_at] in H1. rewrite mbind_lift in H1.
    unfold mlift in H1. injection H1 as Ecg <-. cbn [h_class] in Ecg. rewrite Ect in Ecg.
    pose proof (spec_sizes vs c Hc).
    split; [rewrite R5, R4, R, !zdrop_zdrop by lia; f_equal; lia|].
    split; [discriminate|]. split; [|exact Nts]. intros _.
    assert (forall k cs ps l, cstat_loop ct cl d3 d4 k cs ps = Ok l -> zlen l = Z.of_nat k) as K.
    { induction k as [|k IH]; intros cs ps l E; cbn [cstat_loop] in E; [injection E as <-; reflexivity|].
      destruct (from_buffer_copy ct _) as [cst|]; [|discriminate]. cbn [rbind] in E.
      destruct (getobj cst "gen") as [g|]; [|discriminate]. cbn [rbind] in E.
      destruct (getint g "structlen") as [sl|]; [|discriminate]. cbn [rbind] in E.
      destruct (getint g "nprocs") as [np|]; [|discriminate]. cbn [rbind] in E.
      destruct (np <? 0); [discriminate|].
      destruct (from_buffer_copy (TArr sh_pid_t np) _); [|discriminate]. cbn [rbind] in E.
      destruct (cstat_loop ct cl d3 d4 k _ _) eqn:E2; [|discriminate]. cbn [rbind] in E. injection E as <-.
      rewrite zlen_cons, (IH _ _ _ E2). lia. }
    rewrite (K _ _ _ _ Ecg). lia.
  - unfold mret in H1. injection H1 as <- <-. rewrite Z.add_0_r. repeat split; auto. discriminate.
Qed.

Lemma sample_extent_nonneg vs c rb : In (vs, c) table -> 0 <= sample_extent vs rb.
Proof.
  intros Hc. unfold sample_extent. pose proof (spec_sizes vs c Hc). pose proof (u32_range rb 16).
  pose proof (u32_range rb 20). pose proof (u32_range rb 72). pose proof (u32_range rb 84).
  destruct (vs_cstat vs); lia.
Qed.

Lemma total_extent_nonneg vs c ss : In (vs, c) table -> 0 <= total_extent vs ss.
Proof.
  intros Hc. induction ss as [|s ss IH]; cbn [total_extent fold_right]; [lia|].
  pose proof (sample_extent_nonneg vs c (o_buf (s_record s)) Hc). unfold total_extent in IH. lia.
Qed.

Lemma D_shape vs c hb strict todo f ss e f' : In (vs, c) table -> is_version vs hb ->
  D (mkHdr c hb) (gate_of vs) strict todo f = (ss, e, f') ->
  Forall (sample_shape vs c) ss /\
  (zlen ss = Z.max 0 todo -> f_rem f' = zdrop (total_extent vs ss) (f_rem f)).
Proof.
  intros Hc Hv. revert f ss e f'. induction todo as [n Hn|n Hn IH] using todo_ind; intros f ss e f' H.
  - rewrite D_zero in H by lia. injection H as <- _ <-. split; [constructor|].
    intros _. cbn [total_extent fold_right]. rewrite zdrop_0 by lia. reflexivity.
  - rewrite D_pos in H by lia.
    destruct (read_sample dec (mkHdr c hb) (gate_of vs) f) as [[[s|]|x] f1] eqn:E;
      try (injection H as <- _ _; split; [constructor|rewrite zlen_nil; lia]).
    destruct (D (mkHdr c hb) (gate_of vs) strict (n - 1) f1) as [[ss1 e1] f2] eqn:E1. injection H as <- <- <-.
    destruct (read_sample_consumes vs c hb f s f1 Hc Hv E) as (Q1 & Q2 & Q3 & Q4 & Q5 & Q6).
    destruct (IH _ _ _ _ E1) as [I1 I2]. split.
    + constructor; [|exact I1]. unfold sample_shape, gate_of in *. repeat split; auto.
      * intros N. apply Q4. rewrite N. reflexivity.
      * intros N. apply Q5. destruct (vs_cstat vs); [reflexivity|congruence].
    + rewrite zlen_cons. intros L. cbn [total_extent fold_right]. fold (total_extent vs ss1).
      pose proof (sample_extent_nonneg vs c (o_buf (s_record s)) Hc). pose proof (total_extent_nonneg vs c ss1 Hc).
      rewrite I2 by lia. rewrite Q3, zdrop_zdrop by lia. reflexivity.
Qed.

(** ** Histories of operations on the iterator *)

Lemma hist_done ops f : hist dec ops GDone f = (map finished_seen ops, GDone, f).
Proof.
  induction ops as [|o ops IH]; [reflexivity|]. cbn [hist map].
  destruct o; cbn [do_op gnext gthrow gclose finished_seen]; rewrite IH; reflexivity.
Qed.

Lemma hist_app a b g f : hist dec (a ++ b) g f =
  let '(xs, g1, f1) := hist dec a g f in let '(ys, g2, f2) := hist dec b g1 f1 in (xs ++ ys, g2, f2).
Proof.
  revert g f. induction a as [|o a IH]; intros g f; cbn [app hist].
  - destruct (hist dec b g f) as [[? ?] ?]. reflexivity.
  - destruct (do_op dec o g f) as [[x g1] f1]. rewrite IH. destruct (hist dec a g1 f1) as [[xs g2] f2].
    destruct (hist dec b g2 f2) as [[? ?] ?]. reflexivity.
Qed.

Lemma gloop_fwd h gate strict todo f : suffix_of (f_rem (snd (gloop dec h gate strict todo f))) (f_rem f).
Proof.
  unfold gloop. destruct (todo <=? 0); [apply suffix_refl|].
  pose proof (forward_read_sample h gate f) as H. destruct (read_sample dec h gate f) as [[[s|]|e] f']; exact H.
Qed.

Lemma gstart_fwd h strict ms f : suffix_of (f_rem (snd (gstart dec h strict ms f))) (f_rem f).
Proof. unfold gstart. destruct (cgroup_gate h); [apply gloop_fwd|apply suffix_refl]. Qed.

Lemma gnext_fwd g f : suffix_of (f_rem (snd (gnext dec g f))) (f_rem f).
Proof.
  destruct g as [[h|] strict ms|h gate strict todo|]; cbn [gnext].
  - apply gstart_fwd.
  - pose proof (forward_get_header true f) as H. destruct (get_header true f) as [[h|e] f']; cbn [snd] in H; [|exact H].
    eapply suffix_trans; [apply gstart_fwd|exact H].
  - apply gloop_fwd.
  - apply suffix_refl.
Qed.

Lemma do_op_fwd o g f : suffix_of (f_rem (snd (do_op dec o g f))) (f_rem f).
Proof.
  destruct o as [| |e]; cbn [do_op].
  - pose proof (gnext_fwd g f) as H. destruct (gnext dec g f) as [[[s| |e] g'] f']; exact H.
  - apply suffix_refl.
  - destruct g as [hd strict ms|h gate strict todo|]; cbn [gthrow]; try apply suffix_refl.
    unfold on_exception. destruct e; try apply suffix_refl. destruct strict; apply suffix_refl.
Qed.

Lemma hist_fwd ops g f : suffix_of (f_rem (snd (hist dec ops g f))) (f_rem f).
Proof.
  revert g f. induction ops as [|o ops IH]; intros g f; cbn [hist]; [apply suffix_refl|].
  pose proof (do_op_fwd o g f) as H. destruct (do_op dec o g f) as [[x g1] f1]. specialize (IH g1 f1).
  destruct (hist dec ops g1 f1) as [[xs g2] f2]. cbn [snd] in *. eapply suffix_trans; eassumption.
Qed.

(** Only [next] touches the file. *)
Lemma hist_no_next ops g f : ~ In ONext ops -> snd (hist dec ops g f) = f.
Proof.
  revert g f. induction ops as [|o ops IH]; intros g f H; cbn [hist]; [reflexivity|].
  assert (snd (do_op dec o g f) = f) as E.
  { destruct o as [| |e]; [exfalso; apply H; left; reflexivity|reflexivity|]. cbn [do_op].
    destruct g as [hd strict ms|h gate strict todo|]; cbn [gthrow]; try reflexivity.
    unfold on_exception. destruct e; try reflexivity. destruct strict; reflexivity. }
  destruct (do_op dec o g f) as [[x g1] f1]. cbn [snd] in E. subst f1.
  specialize (IH g1 f ltac:(intros K; apply H; right; exact K)).
  destruct (hist dec ops g1 f) as [[xs g2] f2]. exact IH.
Qed.

(** Whatever is not a yield finishes the iterator. *)
Lemma do_op_state o g f x g' f' : do_op dec o g f = (x, g', f') ->
  match x with
  | SawYield _ => exists h gate strict todo, g' = GYielded h gate strict todo
  | _ => g' = GDone
  end.
Proof.
  assert (forall h gate strict todo f r g1 f1, gloop dec h gate strict todo f = (r, g1, f1) ->
     match r with Yield _ => exists h gate strict todo, g1 = GYielded h gate strict todo | _ => g1 = GDone end) as L.
  { intros h gate strict todo f0 r g1 f1 E. unfold gloop in E. destruct (todo <=? 0); [injection E as <- <- _; reflexivity|].
    destruct (read_sample dec h gate f0) as [[[s|]|e] f2]; injection E as <- <- _; eauto.
    unfold on_exception. destruct e; try reflexivity. destruct strict; reflexivity. }
  assert (forall h strict ms f r g1 f1, gstart dec h strict ms f = (r, g1, f1) ->
     match r with Yield _ => exists h gate strict todo, g1 = GYielded h gate strict todo | _ => g1 = GDone end) as S.
  { intros h strict ms f0 r g1 f1 E. unfold gstart in E. destruct (cgroup_gate h); [eapply L; exact E|].
    injection E as <- <- _. unfold on_exception. destruct e; try reflexivity. destruct strict; reflexivity. }
  intros E. destruct o as [| |e]; cbn [do_op] in E.
  - assert (match fst (fst (gnext dec g f)) with Yield _ => exists h gate strict todo, snd (fst (gnext dec g f)) = GYielded h gate strict todo | _ => snd (fst (gnext dec g f)) = GDone end) as K.
    { destruct g as [[h|] strict ms|h gate strict todo|]; cbn [gnext].
      - destruct (gstart dec h strict ms f) as [[r g1] f1] eqn:E1. exact (S _ _ _ _ _ _ _ E1).
      - destruct (get_header true f) as [[h|e] f2]; [|reflexivity].
        destruct (gstart dec h strict ms f2) as [[r g1] f1] eqn:E1. exact (S _ _ _ _ _ _ _ E1).
      - destruct (gloop dec h gate strict todo f) as [[r g1] f1] eqn:E1. exact (L _ _ _ _ _ _ _ _ E1).
      - reflexivity. }
    destruct (gnext dec g f) as [[[s| |e] g1] f1]; cbn [fst snd] in K; injection E as <- <- <-; exact K.
  - injection E as <- <- <-. reflexivity.
  - destruct g as [hd strict ms|h gate strict todo|]; cbn [gthrow] in E; try (injection E as <- <- <-; reflexivity).
    unfold on_exception in E. destruct e; try (injection E as <- <- <-; reflexivity).
    destruct strict; injection E as <- <- <-; reflexivity.
Qed.

(** [strict] never changes. *)
Definition mode (g : gstate) : option bool :=
  match g with GInit _ s _ => Some s | GYielded _ _ s _ => Some s | GDone => None end.

Lemma do_op_mode o g f x g' f' : do_op dec o g f = (x, g', f') -> mode g' = None \/ mode g' = mode g.
Proof.
  assert (forall h gate strict todo f r g1 f1, gloop dec h gate strict todo f = (r, g1, f1) ->
     mode g1 = None \/ mode g1 = Some strict) as L.
  { intros h gate strict todo f0 r g1 f1 E. unfold gloop in E. destruct (todo <=? 0); [injection E as _ <- _; auto|].
    destruct (read_sample dec h gate f0) as [[[s|]|e] f2]; injection E as _ <- _; auto. }
  assert (forall h strict ms f r g1 f1, gstart dec h strict ms f = (r, g1, f1) ->
     mode g1 = None \/ mode g1 = Some strict) as S.
  { intros h strict ms f0 r g1 f1 E. unfold gstart in E. destruct (cgroup_gate h); [eapply L; exact E|].
    injection E as _ <- _. auto. }
  intros E. destruct o as [| |e]; cbn [do_op] in E.
  - assert (mode (snd (fst (gnext dec g f))) = None \/ mode (snd (fst (gnext dec g f))) = mode g) as K.
    { destruct g as [[h|] strict ms|h gate strict todo|]; cbn [gnext mode].
      - destruct (gstart dec h strict ms f) as [[r g1] f1] eqn:E1. exact (S _ _ _ _ _ _ _ E1).
      - destruct (get_header true f) as [[h|e] f2]; [|left; reflexivity].
        destruct (gstart dec h strict ms f2) as [[r g1] f1] eqn:E1. exact (S _ _ _ _ _ _ _ E1).
      - destruct (gloop dec h gate strict todo f) as [[r g1] f1] eqn:E1. exact (L _ _ _ _ _ _ _ _ E1).
      - left. reflexivity. }
    destruct (gnext dec g f) as [[[s| |e] g1] f1]; cbn [fst snd] in K; injection E as _ <- _; exact K.
  - injection E as _ <- _. left. reflexivity.
  - assert (snd (fst (gthrow g e f)) = GDone) as K by (destruct g; reflexivity).
    destruct (gthrow g e f) as [[[s| |e'] g1] f1]; cbn [fst snd] in K; injection E as _ <- _; rewrite K; left; reflexivity.
Qed.

Lemma hist_mode ops g f xs g' f' : hist dec ops g f = (xs, g', f') -> mode g' = None \/ mode g' = mode g.
Proof.
  revert g f xs g' f'. induction ops as [|o ops IH]; intros g f xs g' f' H; cbn [hist] in H.
  - injection H as _ <- _. auto.
  - destruct (do_op dec o g f) as [[x g1] f1] eqn:E. destruct (hist dec ops g1 f1) as [[ys g2] f2] eqn:E2.
    injection H as _ <- _. apply do_op_mode in E. apply IH in E2. destruct E2 as [-> | ->]; auto.
Qed.

(** After an observation that is not a yield, the iterator is inert. *)
Lemma hist_inert pre o post g f xs x g1 f1 :
  hist dec (pre ++ [o]) g f = (xs ++ [x], g1, f1) -> (forall s, x <> SawYield s) ->
  hist dec (pre ++ o :: post) g f = (xs ++ x :: map finished_seen post, GDone, f1).
Proof.
  intros H N. rewrite hist_app in H. destruct (hist dec pre g f) as [[ys g2] f2] eqn:E1.
  cbn [hist] in H. destruct (do_op dec o g2 f2) as [[y g3] f3] eqn:E2. injection H as Hx <- <-.
  apply app_inj_tail in Hx as [-> ->].
  rewrite hist_app, E1. cbn [hist]. rewrite E2. apply do_op_state in E2.
  destruct x as [s| |e|]; [exfalso; exact (N s eq_refl)|subst g3|subst g3|subst g3]; rewrite hist_done; reflexivity.
Qed.

Lemma exists_last_or_nil {A} (l : list A) : l = [] \/ exists x r, l = r ++ [x].
Proof. destruct l as [|x l] using rev_ind; [auto|]. right. eauto. Qed.

(** An exception thrown in at a yield. *)
Lemma hist_throw pre e hdr strict ms f xs s g1 f1 :
  hist dec pre (generate_statistics hdr strict ms) f = (xs ++ [SawYield s], g1, f1) ->
  hist dec (pre ++ [OThrow e]) (generate_statistics hdr strict ms) f =
  (xs ++ [SawYield s] ++ [match e, strict with ZlibError, false => SawStop | _, _ => SawRaise e end], GDone, f1).
Proof.
  intros H. rewrite hist_app, H. pose proof (hist_mode _ _ _ _ _ _ H) as M. cbn [generate_statistics mode] in M.
  assert (exists h gate todo, g1 = GYielded h gate strict todo) as (h & gate & todo & ->).
  { destruct (exists_last_or_nil pre) as [->|(o & pre' & ->)].
    - cbn [hist] in H. injection H as H _ _. destruct xs; discriminate.
    - rewrite hist_app in H. destruct (hist dec pre' _ f) as [[ys g2] f2]. cbn [hist] in H.
      destruct (do_op dec o g2 f2) as [[y g3] f3] eqn:E. injection H as Hx <- <-.
      apply app_inj_tail in Hx as [_ ->]. apply do_op_state in E. destruct E as (h & gate & st & todo & ->).
      cbn [mode] in M. destruct M as [M|M]; [discriminate|]. injection M as ->. eauto. }
  cbn [hist do_op gthrow]. unfold on_exception. rewrite app_assoc. destruct e; try reflexivity. destruct strict; reflexivity.
Qed.

End Runs.
