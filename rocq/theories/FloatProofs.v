(** * float.__repr__ of a c_float reads back as the same float *)
From Coq Require Import List ZArith Lia Bool String QArith Qabs Qpower Lqa.
From Coq Require Import ZifyBool.
From Verif Require Import PyBase Model Parsers Json FloatRepr Spec SpecDict SpecJson SpecFloat BaseProofs JsonProofs.
Import ListNotations.
Local Open Scope list_scope.
Local Open Scope Z_scope.

(** ** Powers *)

Lemma two_pos e : (0 < (2 # 1) ^ e)%Q.
Proof. apply Qpower_0_lt. reflexivity. Qed.
Lemma ten_pos e : (0 < (10 # 1) ^ e)%Q.
Proof. apply Qpower_0_lt. reflexivity. Qed.
Lemma two_nz : ~ ((2 # 1) == 0)%Q.
Proof. discriminate. Qed.
Lemma ten_nz : ~ ((10 # 1) == 0)%Q.
Proof. discriminate. Qed.

Lemma bin_shift m e j : 0 <= j -> (bin_q (m * 2 ^ j) (e - j) == bin_q m e)%Q.
Proof.
  intros H. unfold bin_q. rewrite inject_Z_mult, Zpower_Qpower by exact H. change (inject_Z 2) with (2 # 1).
  rewrite <- Qmult_assoc, <- Qpower_plus by apply two_nz. replace (j + (e - j)) with e by lia. reflexivity.
Qed.
Lemma dec_shift d k j : 0 <= j -> (dec_q (d * 10 ^ j) (k - j) == dec_q d k)%Q.
Proof.
  intros H. unfold dec_q. rewrite inject_Z_mult, Zpower_Qpower by exact H. change (inject_Z 10) with (10 # 1).
  rewrite <- Qmult_assoc, <- Qpower_plus by apply ten_nz. replace (j + (k - j)) with k by lia. reflexivity.
Qed.

Lemma bin_le m n e : (bin_q m e <= bin_q n e)%Q <-> m <= n.
Proof.
  unfold bin_q. rewrite Qmult_le_r by apply two_pos. rewrite Zle_Qle. reflexivity.
Qed.
Lemma bin_eq m n e : (bin_q m e == bin_q n e)%Q <-> m = n.
Proof.
  split; [|intros ->; reflexivity]. intros H.
  assert (m <= n) by (apply (bin_le m n e); rewrite H; apply Qle_refl).
  assert (n <= m) by (apply (bin_le n m e); rewrite H; apply Qle_refl). lia.
Qed.
Lemma bin_pos m e : 0 < m -> (0 < bin_q m e)%Q.
Proof. intros H. unfold bin_q. apply Qmult_lt_0_compat; [|apply two_pos]. rewrite Zlt_Qlt in H. exact H. Qed.

(** ** The rounding interval *)

Section Interval.
Variables (M G : Z).
Hypothesis HM : 2 ^ 52 <= M < 2 ^ 53.
Hypothesis Heven : Z.even M = true.
Hypothesis HG : -1000 <= G <= 900.

(** The half gap below, in quarters of a unit in the last place. *)
Definition gap : Z := if M =? 2 ^ 52 then 1 else 2.

(** No double lies nearer than a whole gap. *)
Lemma no_double_between y : is_double y -> ~ (y == bin_q (4 * M) G)%Q ->
  (bin_q (4 * M + 4) G <= y)%Q \/ (y <= bin_q (4 * M - 2 * gap) G)%Q.
Proof using HM.
  clear Heven HG.
  intros (m & e & Hm & _ & Ey) N. rewrite Ey in *. clear Ey y.
  assert (2 * gap = 4 \/ 2 * gap = 2 /\ M = 2 ^ 52) as Hg.
  { unfold gap. destruct (Z.eqb_spec M (2 ^ 52)); lia. }
  destruct (Z_le_gt_dec (G + 2) e) as [L|L].
  - (* a multiple of the unit *)
    assert (exists n, (bin_q m e == bin_q (4 * n) G)%Q) as (n & E).
    { exists (m * 2 ^ (e - (G + 2))). rewrite <- (bin_shift m e (2 + (e - (G + 2)))) by lia.
      replace (e - (2 + (e - (G + 2)))) with G by lia.
      rewrite Z.pow_add_r by lia. apply bin_eq. change (2 ^ 2) with 4. lia. }
    rewrite E in *. rewrite !bin_le. rewrite bin_eq in N. lia.
  - (* below the binade *)
    right. set (j := G + 2 - e).
    assert ((bin_q (4 * M - 2 * gap) G == bin_q ((4 * M - 2 * gap) * 2 ^ j) (e - 2))%Q) as ->.
    { rewrite <- (bin_shift (4 * M - 2 * gap) G j) by lia. replace (G - j) with (e - 2) by lia. reflexivity. }
    rewrite <- (bin_shift m e 2) by lia. apply bin_le. change (2 ^ 2) with 4.
    replace (2 ^ j) with (2 * 2 ^ (j - 1)) by (rewrite <- Z.pow_succ_r by lia; f_equal; lia).
    assert (1 <= 2 ^ (j - 1)) by (pose proof (Z.pow_pos_nonneg 2 (j - 1)); lia).
    change (2 ^ 53) with 9007199254740992 in *. change (2 ^ 52) with 4503599627370496 in *.
    destruct Hg as [Hg|[Hg EM]].
    + assert (M <> 4503599627370496) by (unfold gap in Hg; destruct (Z.eqb_spec M (2 ^ 52)); lia). nia.
    + nia.
Qed.

(** A double with an odd significand is not even. *)
Lemma odd_not_even N F y : 2 ^ 52 <= N < 2 ^ 53 -> Z.even N = false -> (y == bin_q N F)%Q -> ~ even_double y.
Proof.
  intros HN Hodd Ey (m & e & Hm & _ & _ & Hev & Em). rewrite Ey in Em. clear Ey y.
  destruct (Z_le_gt_dec e F) as [L|L].
  - rewrite <- (bin_shift N F (F - e)) in Em by lia. replace (F - (F - e)) with e in Em by lia.
    apply bin_eq in Em. destruct (Z.eq_dec e F) as [->|D].
    + rewrite Z.sub_diag, Z.mul_1_r in Em. congruence.
    + replace (F - e) with (1 + (F - e - 1)) in Em by lia. rewrite Z.pow_add_r in Em by lia.
      assert (1 <= 2 ^ (F - e - 1)) by (pose proof (Z.pow_pos_nonneg 2 (F - e - 1)); lia).
      change (2 ^ 1) with 2 in Em. change (2 ^ 53) with 9007199254740992 in *. change (2 ^ 52) with 4503599627370496 in *. nia.
  - rewrite <- (bin_shift m e (e - F)) in Em by lia. replace (e - (e - F)) with F in Em by lia.
    apply bin_eq in Em. rewrite Em, Z.even_mul, Hev in Hodd. discriminate Hodd.
Qed.

Lemma bin_lin a e : (bin_q a e == inject_Z a * bin_q 1 e)%Q.
Proof. unfold bin_q. change (inject_Z 1) with 1%Q. ring. Qed.

(** Every number in the interval is read as the double. *)
Lemma interval_rounds q :
  (bin_q (4 * M - gap) G <= q)%Q -> (q <= bin_q (4 * M + 2) G)%Q -> rounds_to q (bin_q (4 * M) G).
Proof.
  intros Hlo Hhi. split.
  { exists M, (G + 2). split; [lia|]. split; [lia|]. rewrite <- (bin_shift M (G + 2) 2) by lia.
    replace (G + 2 - 2) with G by lia. apply bin_eq. lia. }
  intros y Hy N. pose proof (no_double_between y Hy N) as B.
  assert (even_double (bin_q (4 * M) G)) as EV.
  { exists M, (G + 2). split; [lia|]. split; [lia|]. split; [lia|]. split; [exact Heven|].
    rewrite <- (bin_shift M (G + 2) 2) by lia. replace (G + 2 - 2) with G by lia. apply bin_eq. lia. }
  assert (forall a b, (bin_q (a + b) G == bin_q a G + inject_Z b * bin_q 1 G)%Q) as P.
  { intros a b. rewrite (bin_lin (a + b)), (bin_lin a), inject_Z_plus. ring. }
  pose proof (bin_pos 1 G ltac:(lia)) as U.
  assert (gap = 1 /\ M = 2 ^ 52 \/ gap = 2 /\ M <> 2 ^ 52) as Hg by (unfold gap; destruct (Z.eqb_spec M (2 ^ 52)); lia).
  assert (~ even_double (bin_q (4 * M + 4) G)) as O1.
  { destruct (Z.eq_dec M (2 ^ 53 - 1)) as [->|D]; [discriminate Heven|].
    apply (odd_not_even (M + 1) (G + 2)); [lia| |].
    - replace (M + 1) with (Z.succ M) by lia. rewrite Z.even_succ, <- Z.negb_even, Heven. reflexivity.
    - rewrite <- (bin_shift (M + 1) (G + 2) 2) by lia. replace (G + 2 - 2) with G by lia. apply bin_eq. lia. }
  assert (~ even_double (bin_q (4 * M - 2 * gap) G)) as O2.
  { destruct Hg as [[-> EM]|[-> NM]].
    - apply (odd_not_even (2 ^ 53 - 1) (G + 1)); [lia|reflexivity|].
      rewrite <- (bin_shift (2 ^ 53 - 1) (G + 1) 1) by lia. replace (G + 1 - 1) with G by lia. apply bin_eq. lia.
    - apply (odd_not_even (M - 1) (G + 2)); [lia| |].
      + replace (M - 1) with (Z.pred M) by lia. rewrite Z.even_pred, <- Z.negb_even, Heven. reflexivity.
      + rewrite <- (bin_shift (M - 1) (G + 2) 2) by lia. replace (G + 2 - 2) with G by lia. apply bin_eq. lia. }
  assert (forall y0, even_double y -> (y0 == y)%Q -> even_double y0) as EQ.
  { intros y0 (m & e & H1 & H2 & H3 & H4 & H5) E. exists m, e. rewrite E. auto. }
  unfold Z.sub in Hlo, B, O2. rewrite P in Hlo, Hhi. rewrite !P in B.
  assert (inject_Z (- gap) == - inject_Z gap)%Q as I1 by (rewrite inject_Z_opp; reflexivity).
  assert (inject_Z (- (2 * gap)) == - (inject_Z 2 * inject_Z gap))%Q as I2 by (rewrite inject_Z_opp, inject_Z_mult; reflexivity).
  rewrite I1 in Hlo. rewrite I2 in B. clear I1 I2.
  change (inject_Z 2) with 2%Q in *. change (inject_Z 4) with 4%Q in *.
  set (x := bin_q (4 * M) G) in *. set (u := bin_q 1 G) in *.
  assert (even_double y -> ~ (y == x + 4 * u)%Q) as T1.
  { intros E X. apply O1. eapply EQ; [exact E|]. rewrite P. change (inject_Z 4) with 4%Q. symmetry. exact X. }
  assert (even_double y -> ~ (y == x - 2 * inject_Z gap * u)%Q) as T2.
  { intros E X. apply O2. eapply EQ; [exact E|]. rewrite P, X, inject_Z_opp, inject_Z_mult. change (inject_Z 2) with 2%Q.
    fold x u. ring. }
  clear P EQ O1 O2.
  assert (1 <= inject_Z gap /\ inject_Z gap <= 2)%Q as G12.
  { destruct Hg as [[-> _]|[-> _]]; split; discriminate. }
  set (g := inject_Z gap) in *. clearbody g x u.
  assert (0 <= (g - 1) * u /\ 0 <= (2 - g) * u)%Q as GU.
  { split; apply Qmult_le_0_compat; lra. }
  set (gu := (g * u)%Q) in *.
  assert (-g * u == - gu)%Q as E1 by (unfold gu; ring). rewrite E1 in Hlo.
  assert (- (2 * g) * u == - (2 * gu))%Q as E2 by (unfold gu; ring). rewrite E2 in B.
  assert (2 * g * u == 2 * gu)%Q as E3 by (unfold gu; ring). rewrite E3 in T2.
  assert (u <= gu /\ gu <= 2 * u)%Q as GU2 by (unfold gu; lra).
  clearbody gu. clear G12 GU E1 E2 E3 Hg g.
  apply (Qabs_case (q - x)); intros A1; apply (Qabs_case (q - y)); intros A2.
  - destruct (Qlt_le_dec (q - x) (q - y)) as [S|S]; [left; exact S|right].
    destruct B as [B|B]; [|exfalso; lra]. exfalso; lra.
  - destruct (Qlt_le_dec (q - x) (- (q - y))) as [S|S]; [left; exact S|right].
    destruct B as [B|B]; [|exfalso; lra]. split; [lra|]. split; [exact EV|]. intros E. apply T1; [exact E|]. lra.
  - destruct (Qlt_le_dec (- (q - x)) (q - y)) as [S|S]; [left; exact S|right].
    destruct B as [B|B]; [exfalso; lra|]. split; [lra|]. split; [exact EV|]. intros E. apply T2; [exact E|]. lra.
  - destruct (Qlt_le_dec (- (q - x)) (- (q - y))) as [S|S]; [left; exact S|right].
    destruct B as [B|B]; exfalso; lra.
Qed.

(** What [attempt] finds lies in the interval. *)
Lemma attempt_inside k d : attempt M G k = Some d ->
  (bin_q (4 * M - gap) G <= dec_q d k)%Q /\ (dec_q d k <= bin_q (4 * M + 2) G)%Q.
Proof.
  unfold attempt. fold gap. set (a := Z.max 0 (- G)). set (b := Z.max 0 (- k)).
  set (u := 2 ^ (G + a) * 10 ^ b). set (q := 10 ^ (k + b) * 2 ^ a).
  assert (0 < q) as Hq.
  { unfold q. apply Z.mul_pos_pos; apply Z.pow_pos_nonneg; lia. }
  assert (0 < u) as Hu.
  { unfold u. apply Z.mul_pos_pos; apply Z.pow_pos_nonneg; lia. }
  assert (forall D, (4 * M - gap) * u <= D * q -> (bin_q (4 * M - gap) G <= dec_q D k)%Q) as Lo.
  { intros D H. rewrite Zle_Qle in H. unfold u, q in H. rewrite !inject_Z_mult, !Zpower_Qpower in H by lia.
    change (inject_Z 2) with (2 # 1) in H. change (inject_Z 10) with (10 # 1) in H.
    rewrite !Qpower_plus in H by (apply two_nz || apply ten_nz). unfold bin_q, dec_q.
    assert (0 < (2 # 1) ^ a * (10 # 1) ^ b)%Q as S by (apply Qmult_lt_0_compat; [apply two_pos|apply ten_pos]).
    apply (Qmult_le_r _ _ _ S). 
    assert (forall t1 t2 t3 t4 : Q, t1 == t2 -> t3 == t4 -> t1 <= t3 -> t2 <= t4)%Q as R by (intros ? ? ? ? X Y Z0; rewrite <- X, <- Y; exact Z0).
    eapply R; [| |exact H]; ring. }
  assert (forall D, D * q <= (4 * M + 2) * u -> (dec_q D k <= bin_q (4 * M + 2) G)%Q) as Hi.
  { intros D H. rewrite Zle_Qle in H. unfold u, q in H. rewrite !inject_Z_mult, !Zpower_Qpower in H by lia.
    change (inject_Z 2) with (2 # 1) in H. change (inject_Z 10) with (10 # 1) in H.
    rewrite !Qpower_plus in H by (apply two_nz || apply ten_nz). unfold bin_q, dec_q.
    assert (0 < (2 # 1) ^ a * (10 # 1) ^ b)%Q as S by (apply Qmult_lt_0_compat; [apply two_pos|apply ten_pos]).
    apply (Qmult_le_r _ _ _ S).
    assert (forall t1 t2 t3 t4 : Q, t1 == t2 -> t3 == t4 -> t1 <= t3 -> t2 <= t4)%Q as R by (intros ? ? ? ? X Y Z0; rewrite <- X, <- Y; exact Z0).
    eapply R; [| |exact H]; ring. }
  set (x := 4 * M * u). pose proof (Z.div_mod x q ltac:(lia)) as DM. pose proof (Z.mod_pos_bound x q Hq) as MB.
  set (dd := x / q) in *. set (r := x mod q) in *.
  assert (gap = 1 \/ gap = 2) as Hgap by (unfold gap; destruct (M =? 2 ^ 52); lia).
  assert (dd * q <= (4 * M + 2) * u) as D1 by (unfold x in *; nia).
  assert ((4 * M - gap) * u <= (dd + 1) * q) as D2 by (unfold x in *; nia).
  destruct (Z.leb_spec (x - gap * u) (dd * q)) as [L1|L1]; destruct (Z.leb_spec ((dd + 1) * q) (x + 2 * u)) as [L2|L2];
    cbn [andb]; intros E; try discriminate E.
  - assert (d = dd \/ d = dd + 1) as [-> | ->].
    { injection E as <-. destruct (2 * r <? q); [auto|]. destruct (q <? 2 * r); [auto|].
      pose proof (Z.mod_pos_bound dd 2 ltac:(lia)). lia. }
    + split; [apply Lo|apply Hi]; unfold x in *; nia.
    + split; [apply Lo|apply Hi]; unfold x in *; nia.
  - injection E as <-. split; [apply Lo|apply Hi]; unfold x in *; nia.
  - injection E as <-. split; [apply Lo|apply Hi]; unfold x in *; nia.
Qed.

Lemma shortest_inside fuel p n d k : shortest fuel M G p n = Some (d, k) ->
  (bin_q (4 * M - gap) G <= dec_q d k)%Q /\ (dec_q d k <= bin_q (4 * M + 2) G)%Q.
Proof.
  revert n. induction fuel as [|fuel IH]; intros n; cbn [shortest]; [discriminate|].
  destruct (attempt M G (p + 1 - n)) as [d0|] eqn:E; [|apply IH].
  intros X. injection X as <- <-. apply attempt_inside. exact E.
Qed.
End Interval.

(** The shortest decimal of [m * 2^e] is read as [m * 2^e]. *)
Lemma shortest_decimal_reads m e d k : 0 < m < 2 ^ 24 -> -149 <= e <= 104 -> shortest_decimal m e = (d, k) ->
  0 < d /\ rounds_to (dec_q d k) (bin_q m e).
Proof.
  intros Hm He H. unfold shortest_decimal in H.
  assert (0 <= Z.log2 m < 24) as Hl.
  { split; [apply Z.log2_nonneg|]. apply Z.log2_lt_pow2; lia. }
  pose proof (Z.log2_spec m ltac:(lia)) as Hs.
  set (s := 52 - Z.log2 m) in *. set (M := m * 2 ^ s) in *. set (G := e - s - 2) in *.
  assert (2 ^ 52 <= M < 2 ^ 53) as HM.
  { unfold M. replace (2 ^ 52) with (2 ^ Z.log2 m * 2 ^ s) by (rewrite <- Z.pow_add_r by lia; f_equal; lia).
    replace (2 ^ 53) with (2 ^ Z.succ (Z.log2 m) * 2 ^ s) by (rewrite <- Z.pow_add_r by lia; f_equal; lia).
    pose proof (Z.pow_pos_nonneg 2 s ltac:(lia) ltac:(lia)). nia. }
  assert (Z.even M = true) as Hev.
  { unfold M. replace s with (1 + (s - 1)) by lia. rewrite Z.pow_add_r by lia. change (2 ^ 1) with 2.
    rewrite !Z.even_mul. cbn [Z.even orb]. apply orb_true_r. }
  assert (bin_q (4 * M) G == bin_q m e)%Q as EX.
  { rewrite <- (bin_shift m e (s + 2)) by lia. replace (e - (s + 2)) with G by lia. apply bin_eq. unfold M.
    rewrite Z.pow_add_r by lia. change (2 ^ 2) with 4. lia. }
  assert (gap M = 1 \/ gap M = 2) as Hgap by (unfold gap; destruct (M =? 2 ^ 52); lia).
  assert ((bin_q (4 * M - gap M) G <= dec_q d k)%Q /\ (dec_q d k <= bin_q (4 * M + 2) G)%Q) as [Lo Hi].
  { destruct (shortest 17 M G (exponent10 M G) 1) as [[d0 k0]|] eqn:E.
    - injection H as <- <-. eapply shortest_inside; [exact HM| |exact E]. lia.
    - assert (dec_q d k == bin_q (4 * M) G)%Q as ->.
      { rewrite EX. destruct (Z.ltb_spec e 0) as [L|L]; injection H as <- <-.
        - unfold dec_q, bin_q. rewrite inject_Z_mult, Zpower_Qpower by lia. change (inject_Z 5) with (5 # 1).
          assert ((10 # 1) ^ e == (5 # 1) ^ e * (2 # 1) ^ e)%Q as ->.
          { rewrite <- Qmult_power. reflexivity. }
          rewrite Qpower_opp. field. apply Qpower_not_0. discriminate.
        - unfold dec_q, bin_q. rewrite inject_Z_mult, Zpower_Qpower by lia. change (inject_Z 2) with (2 # 1).
          change ((10 # 1) ^ 0)%Q with 1%Q. ring. }
      split; apply bin_le; lia. }
  split.
  - assert (0 < dec_q d k)%Q as P.
    { eapply Qlt_le_trans; [apply (bin_pos (4 * M - gap M) G); lia|exact Lo]. }
    unfold dec_q in P. pose proof (ten_pos k) as T.
    destruct (Z_lt_le_dec 0 d) as [L|L]; [exact L|exfalso].
    rewrite Zle_Qle in L. change (inject_Z 0) with 0%Q in L.
    assert (inject_Z d * (10 # 1) ^ k <= 0)%Q; [|lra].
    assert (0 <= (- inject_Z d) * (10 # 1) ^ k)%Q by (apply Qmult_le_0_compat; lra). lra.
  - assert (rounds_to (dec_q d k) (bin_q (4 * M) G)) as (R1 & R2).
    { apply interval_rounds; try assumption. lia. }
    split.
    + destruct R1 as (m' & e' & X1 & X2 & X3). exists m', e'. rewrite <- EX. auto.
    + intros y Hy N. rewrite <- EX in N. destruct (R2 y Hy N) as [R|(R & (m' & e' & V1 & V2 & V3 & V4 & V5) & O)].
      * left. rewrite <- EX. exact R.
      * right. split; [rewrite <- EX; exact R|]. split; [|exact O]. exists m', e'. rewrite <- EX. auto.
Qed.
