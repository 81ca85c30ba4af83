(** * C16, for all methods of the iterator and all arguments *)
From Coq Require Import List ZArith Bool Lia.
From Coq Require Import Init.Byte.
From Verif Require Import PyBase CTypes Model Inflate Spec SpecLog BaseProofs RunProofs GenMethods.
From Verif Require Import PropLog.
Import ListNotations.
Local Open Scope list_scope.

(** ** Specification *)

(** The methods that go on with the generator's body. *)
Definition resumes (m : method) : Prop := m = MNext \/ m = MSendNone \/ m = MSend.

(** What a finished iterator shows. *)
Definition finished_shown (m : method) : shown :=
  match m with
  | MNext | MSendNone | MSend => Shows SawStop
  | MThrow (Exception e) => Shows (SawRaise e)
  | MThrow GeneratorExit => ShowsGeneratorExit
  | MThrow StopIter => Shows SawStop
  | MThrow NotAnException => ShowsTypeError
  | MClose => Shows SawClosed
  end.

(** What is seen when [x] is thrown in at a yield. *)
Definition thrown_in (strict : bool) (x : thrown) : shown :=
  match x with
  | Exception ZlibError => if strict then Shows (SawRaise ZlibError) else Shows SawStop
  | Exception e => Shows (SawRaise e)
  | GeneratorExit => ShowsGeneratorExit
  | StopIter => ShowsRuntimeError
  | NotAnException => ShowsTypeError
  end.

(** A call that was refused: a TypeError of the method itself. Every observation but this and a
    yield means that the iterator has ended. *)
Definition over (x : shown) : Prop := x <> ShowsTypeError /\ forall s, x <> Shows (SawYield s).

(** ** Proofs *)
Section Methods.
Variable dec : list byte -> option (list byte).

Lemma calls_app a b g f : calls dec (a ++ b) g f =
  let '(xs, g1, f1) := calls dec a g f in let '(ys, g2, f2) := calls dec b g1 f1 in (xs ++ ys, g2, f2).
Proof.
  revert g f. induction a as [|o a IH]; intros g f; cbn [app calls].
  - destruct (calls dec b g f) as [[? ?] ?]. reflexivity.
  - destruct (do_method dec o g f) as [[x g1] f1]. rewrite IH. destruct (calls dec a g1 f1) as [[xs g2] f2].
    destruct (calls dec b g2 f2) as [[? ?] ?]. reflexivity.
Qed.

Lemma calls_done ms f : calls dec ms GDone f = (map finished_shown ms, GDone, f).
Proof.
  induction ms as [|m ms IH]; [reflexivity|]. cbn [calls map].
  destruct m as [| | |[e| | |]|]; cbn [do_method plain_op do_op gnext gthrow gclose finished_shown]; unfold plain_op;
    cbn [do_op gnext gthrow gclose]; rewrite IH; reflexivity.
Qed.

Lemma method_fwd m g f : suffix_of (f_rem (snd (do_method dec m g f))) (f_rem f).
Proof.
  assert (P : forall o, suffix_of (f_rem (snd (plain_op dec o g f))) (f_rem f)).
  { intros o. unfold plain_op. pose proof (do_op_fwd dec o g f) as H. destruct (do_op dec o g f) as [[x g1] f1]. exact H. }
  destruct m as [| | |[e| | |]|]; cbn [do_method]; try apply P; try apply suffix_refl;
    destruct g; try apply P; apply suffix_refl.
Qed.

Lemma method_quiet m g f : ~ resumes m -> snd (do_method dec m g f) = f.
Proof.
  intros H. unfold resumes in H. assert (P : forall o, o <> ONext -> snd (plain_op dec o g f) = f).
  { intros o N. unfold plain_op. pose proof (hist_no_next dec [o] g f) as K. cbn [hist] in K.
    destruct (do_op dec o g f) as [[x g1] f1]. cbn [snd] in *. apply K. intros [I|[]]. congruence. }
  destruct m as [| | |[e| | |]|]; cbn [do_method]; try (exfalso; tauto); try reflexivity; try (apply P; discriminate).
  destruct g; reflexivity.
Qed.

Lemma method_state m g f x g' f' : do_method dec m g f = (x, g', f') ->
  match x with
  | Shows (SawYield _) => exists h gate strict todo, g' = GYielded h gate strict todo
  | ShowsTypeError => g' = g /\ f' = f
  | _ => g' = GDone
  end.
Proof.
  assert (P : forall o, plain_op dec o g f = (x, g', f') ->
     match x with
     | Shows (SawYield _) => exists h gate strict todo, g' = GYielded h gate strict todo
     | ShowsTypeError => g' = g /\ f' = f
     | _ => g' = GDone
     end).
  { intros o E. unfold plain_op in E. destruct (do_op dec o g f) as [[y g1] f1] eqn:D. injection E as <- <- <-.
    apply do_op_state in D. destruct y; exact D. }
  destruct m as [| | |[e| | |]|]; cbn [do_method]; try apply P; try (intros E; injection E as <- <- <-; auto);
    destruct g; try apply P; intros E; injection E as <- <- <-; auto.
Qed.

Lemma method_mode m g f x g' f' : do_method dec m g f = (x, g', f') -> mode g' = None \/ mode g' = mode g.
Proof.
  assert (P : forall o, plain_op dec o g f = (x, g', f') -> mode g' = None \/ mode g' = mode g).
  { intros o E. unfold plain_op in E. destruct (do_op dec o g f) as [[y g1] f1] eqn:D. injection E as _ <- _.
    eapply do_op_mode. exact D. }
  destruct m as [| | |[e| | |]|]; cbn [do_method]; try apply P; try (intros E; injection E as _ <- _; auto);
    destruct g; try apply P; intros E; injection E as _ <- _; auto.
Qed.

Lemma calls_mode ms : forall g f xs g' f', calls dec ms g f = (xs, g', f') -> mode g' = None \/ mode g' = mode g.
Proof.
  induction ms as [|m ms IH]; intros g f xs g' f' H; cbn [calls] in H.
  - injection H as _ <- _. auto.
  - destruct (do_method dec m g f) as [[x g1] f1] eqn:E. destruct (calls dec ms g1 f1) as [[ys g2] f2] eqn:E2.
    injection H as _ <- _. apply method_mode in E. apply IH in E2. destruct E2 as [-> | ->]; auto.
Qed.

(** Nothing is read unless the body goes on. *)
Theorem C16_only_next_and_send_read ms g f : (forall m, In m ms -> ~ resumes m) -> snd (calls dec ms g f) = f.
Proof.
  revert g f. induction ms as [|m ms IH]; intros g f H; cbn [calls]; [reflexivity|].
  pose proof (method_quiet m g f (H m (or_introl eq_refl))) as E.
  destruct (do_method dec m g f) as [[x g1] f1]. cbn [snd] in E. subst f1.
  specialize (IH g1 f (fun m' I => H m' (or_intror I))).
  destruct (calls dec ms g1 f) as [[xs g2] f2]. exact IH.
Qed.

(** The file is only consumed forward. *)
Theorem C16_methods_forward_only ms g f : suffix_of (f_rem (snd (calls dec ms g f))) (f_rem f).
Proof.
  revert g f. induction ms as [|m ms IH]; intros g f; cbn [calls]; [apply suffix_refl|].
  pose proof (method_fwd m g f) as H. destruct (do_method dec m g f) as [[x g1] f1]. specialize (IH g1 f1).
  destruct (calls dec ms g1 f1) as [[xs g2] f2]. cbn [snd] in *. eapply suffix_trans; eassumption.
Qed.

(** Once it has ended it stays so and leaves the file alone. *)
Theorem C16_methods_finished pre m post g f xs x g1 f1 :
  calls dec (pre ++ [m]) g f = (xs ++ [x], g1, f1) -> over x ->
  exists g2, calls dec (pre ++ m :: post) g f = (xs ++ x :: map finished_shown post, g2, f1).
Proof.
  intros H [N1 N2]. rewrite calls_app in H. destruct (calls dec pre g f) as [[ys g2] f2] eqn:E1.
  cbn [calls] in H. destruct (do_method dec m g2 f2) as [[y g3] f3] eqn:E2. injection H as Hx <- <-.
  apply app_inj_tail in Hx as [-> ->].
  exists GDone. rewrite calls_app, E1. cbn [calls]. rewrite E2. apply method_state in E2.
  assert (g3 = GDone) as ->.
  { destruct x as [[s| |e|]| | |]; try exact E2; [destruct (N2 s eq_refl)|destruct (N1 eq_refl)]. }
  rewrite calls_done. reflexivity.
Qed.

(** A refused call changes nothing: later calls see what they would have seen without it. *)
Theorem C16_refused_call_changes_nothing pre m post g f xs g1 f1 :
  calls dec (pre ++ [m]) g f = (xs ++ [ShowsTypeError], g1, f1) ->
  exists ys g2 f2, calls dec (pre ++ post) g f = (xs ++ ys, g2, f2) /\
    calls dec (pre ++ m :: post) g f = (xs ++ ShowsTypeError :: ys, g2, f2).
Proof.
  intros H. rewrite calls_app in H. destruct (calls dec pre g f) as [[zs g3] f3] eqn:E1.
  cbn [calls] in H. destruct (do_method dec m g3 f3) as [[y g4] f4] eqn:E2. injection H as Hx <- <-.
  apply app_inj_tail in Hx as [-> ->]. rewrite !calls_app, E1. cbn [calls]. rewrite E2. apply method_state in E2 as [-> ->].
  destruct (calls dec post g3 f3) as [[ys g2] f2]. exists ys, g2, f2. split; reflexivity.
Qed.

(** send acts like next, except that a value other than None is refused before the first next
    (or send(None)). *)
Theorem C16_send pre post hdr strict max_samples f xs g1 f1 :
  calls dec pre (generate_statistics hdr strict max_samples) f = (xs, g1, f1) ->
  calls dec (pre ++ MSendNone :: post) (generate_statistics hdr strict max_samples) f =
    calls dec (pre ++ MNext :: post) (generate_statistics hdr strict max_samples) f /\
  ((exists x, In x xs /\ x <> ShowsTypeError) ->
    calls dec (pre ++ MSend :: post) (generate_statistics hdr strict max_samples) f =
    calls dec (pre ++ MNext :: post) (generate_statistics hdr strict max_samples) f) /\
  ((forall x, In x xs -> x = ShowsTypeError) ->
    exists g2, calls dec (pre ++ [MSend]) (generate_statistics hdr strict max_samples) f = (xs ++ [ShowsTypeError], g2, f)).
Proof.
  intros H. split; [rewrite !calls_app; reflexivity|].
  assert (K : forall pre g f xs g1 f1, calls dec pre g f = (xs, g1, f1) ->
     ((exists x, In x xs /\ x <> ShowsTypeError) \/ (forall a b c, g <> GInit a b c) -> forall a b c, g1 <> GInit a b c) /\
     ((forall x, In x xs -> x = ShowsTypeError) -> g1 = g /\ f1 = f)).
  { clear. induction pre as [|m pre IH]; intros g f xs g1 f1 H; cbn [calls] in H.
    - injection H as <- <- <-. split; [intros [(x & [] & _)|N]; exact N|auto].
    - destruct (do_method dec m g f) as [[x g2] f2] eqn:E. destruct (calls dec pre g2 f2) as [[ys g3] f3] eqn:E2.
      injection H as <- <- <-. destruct (IH _ _ _ _ _ E2) as [I1 I2]. apply method_state in E. split.
      + intros Hx. apply I1. destruct x as [[s| |e|]| | |].
        1: { right. destruct E as (h & gate & st & todo & ->). discriminate. }
        1-5: right; rewrite E; discriminate.
        destruct E as [-> ->]. destruct Hx as [(x & [<-|I] & N)|N]; [congruence|left; eauto|right; exact N].
      + intros Hx. assert (x = ShowsTypeError) as -> by (apply Hx; left; reflexivity). destruct E as [-> ->].
        apply I2. intros y I. apply Hx. right. exact I. }
  split; intros Hx; rewrite !calls_app, H; destruct (K _ _ _ _ _ _ H) as [K1 K2].
  - cbn [calls do_method]. specialize (K1 (or_introl Hx)). destruct g1 as [a b c| |]; [destruct (K1 a b c eq_refl)| |]; reflexivity.
  - destruct (K2 Hx) as [-> ->]. cbn [calls do_method generate_statistics]. eexists. reflexivity.
Qed.

(** What is seen of something thrown in at a yield; and before the first next it passes through. *)
Theorem C16_thrown_in_at_yield pre x hdr strict max_samples f xs s g1 f1 :
  calls dec pre (generate_statistics hdr strict max_samples) f = (xs ++ [Shows (SawYield s)], g1, f1) ->
  exists g2, calls dec (pre ++ [MThrow x]) (generate_statistics hdr strict max_samples) f =
    (xs ++ [Shows (SawYield s)] ++ [thrown_in strict x], g2, f1).
Proof.
  intros H. pose proof (calls_mode _ _ _ _ _ _ H) as M. cbn [generate_statistics mode] in M.
  assert (exists h gate todo, g1 = GYielded h gate strict todo) as (h & gate & todo & ->).
  { destruct (exists_last_or_nil pre) as [->|(m & pre' & ->)].
    - cbn [calls] in H. injection H as H _ _. destruct xs; discriminate H.
    - rewrite calls_app in H. destruct (calls dec pre' _ f) as [[ys g2] f2]. cbn [calls] in H.
      destruct (do_method dec m g2 f2) as [[y g3] f3] eqn:E. injection H as Hx <- <-.
      apply app_inj_tail in Hx as [_ ->]. apply method_state in E. destruct E as (h & gate & st & todo & ->).
      cbn [mode] in M. destruct M as [M|M]; [discriminate M|]. injection M as ->. eauto. }
  rewrite calls_app, H, app_assoc. cbn [calls].
  destruct x as [e| | |]; cbn [do_method plain_op do_op gthrow thrown_in]; unfold plain_op; cbn [do_op gthrow]; unfold on_exception;
    try (eexists; reflexivity).
  destruct e; try (eexists; reflexivity). destruct strict; eexists; reflexivity.
Qed.

Theorem C16_thrown_in_before_start x hdr strict max_samples f :
  exists g2, calls dec [MThrow x] (generate_statistics hdr strict max_samples) f = ([thrown_in true x], g2, f).
Proof. destruct x as [e| | |]; [|eexists; reflexivity..]. destruct e; eexists; reflexivity. Qed.

(** Histories of next, close and throw are those of the other theorems. *)
Definition as_method (o : op) : method :=
  match o with ONext => MNext | OClose => MClose | OThrow e => MThrow (Exception e) end.
Theorem C16_methods_extend_histories ops g f :
  calls dec (map as_method ops) g f = (let '(xs, g', f') := hist dec ops g f in (map Shows xs, g', f')).
Proof.
  revert g f. induction ops as [|o ops IH]; intros g f; [reflexivity|]. cbn [map calls hist].
  replace (do_method dec (as_method o) g f) with (plain_op dec o g f) by (destruct o; reflexivity).
  unfold plain_op. destruct (do_op dec o g f) as [[x g1] f1]. rewrite IH. destruct (hist dec ops g1 f1) as [[xs g2] f2]. reflexivity.
Qed.
End Methods.

(** ** Concrete cases *)

(** On a log of any version with two samples: a value is refused at first, then next, send and the
    end by GeneratorExit or by StopIteration. *)
Example C16_methods_example vs strict : In vs spec_versions ->
  exists hdr f s1 s2 g f1,
    calls zdecompress [MSend; MNext; MThrow NotAnException; MSend; MThrow StopIter; MThrow GeneratorExit; MNext]
      (generate_statistics hdr strict 2) f =
      ([ShowsTypeError; Shows (SawYield s1); ShowsTypeError; Shows (SawYield s2); ShowsRuntimeError; ShowsGeneratorExit;
        Shows SawStop], g, f1).
Proof.
  intros H. destruct (C14_example vs 2 2 strict H (le_n _)) as (c & hb & ss & ys & g & _ & Hw & L & Ly & R).
  destruct ys as [|s1 [|s2 [|]]]; [discriminate Ly|discriminate Ly| |unfold zlen in Ly; cbn in Ly; lia].
  change (repeat ONext 2) with [ONext; ONext] in R. change (Z.of_nat 2) with 2%Z in R. cbn [hist map] in R.
  exists (Some (mkHdr c hb)), (plain (samples_bytes ss)), s1, s2.
  remember (generate_statistics (Some (mkHdr c hb)) strict 2) as g0 eqn:E0.
  destruct (do_op zdecompress ONext g0 (plain (samples_bytes ss))) as [[x1 g1] f1] eqn:D1.
  destruct (do_op zdecompress ONext g1 f1) as [[x2 g2] f2] eqn:D2. injection R as -> -> -> _.
  exists GDone, f2. pose proof (do_op_state _ _ _ _ _ _ _ D1) as (h1 & t1 & st1 & n1 & E1).
  pose proof (do_op_state _ _ _ _ _ _ _ D2) as (h2 & t2 & st2 & n2 & E2).
  cbn [calls]. assert (M1 : do_method zdecompress MSend g0 (plain (samples_bytes ss)) = (ShowsTypeError, g0, plain (samples_bytes ss))) by (rewrite E0; reflexivity).
  rewrite M1. cbn [do_method]. unfold plain_op. rewrite D1.
  assert (M2 : do_method zdecompress MSend g1 f1 = (Shows (SawYield s2), g, f2)) by (rewrite E1; cbn [do_method]; unfold plain_op; rewrite <- E1, D2; reflexivity).
  cbn [do_method] in M2. unfold plain_op in M2. rewrite M2. rewrite E2. reflexivity.
Qed.
