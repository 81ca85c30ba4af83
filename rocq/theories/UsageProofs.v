(** * The float operations of PyFloat.v are correctly rounded; what ".02%" shows *)
From Coq Require Import List ZArith Lia Bool String QArith Qabs Qpower Lqa.
From Coq Require Import ZifyBool Morphisms.
From Verif Require Import PyBase Model Parsers Json FloatRepr PyFloat Spec SpecDict SpecJson SpecFloat BaseProofs JsonProofs FloatProofs FloatText FloatShortest SpecUsage.
Import ListNotations.
Local Open Scope string_scope.
Local Open Scope list_scope.
Local Open Scope Z_scope.

(** ** Rounding *)

Lemma is_double_sig M G : 2 ^ 52 <= M < 2 ^ 53 -> -1000 <= G <= 900 -> is_double (bin_q (4 * M) G).
Proof.
  intros HM HG. exists M, (G + 2). split; [lia|]. split; [lia|]. rewrite <- (bin_shift M (G + 2) 2) by lia.
  replace (G + 2 - 2) with G by lia. apply bin_eq. lia.
Qed.

(** A number strictly within half a unit of a double is read as it. *)
Lemma strict_rounds M G q : 2 ^ 52 <= M < 2 ^ 53 -> -1000 <= G <= 900 ->
  (bin_q (4 * M - gap M) G < q)%Q -> (q < bin_q (4 * M + 2) G)%Q -> rounds_to q (bin_q (4 * M) G).
Proof.
  intros HM HG Hlo Hhi. split; [apply is_double_sig; assumption|].
  intros y Hy N. left. pose proof (no_double_between M G HM y Hy N) as B.
  assert (forall a b, (bin_q (a + b) G == bin_q a G + inject_Z b * bin_q 1 G)%Q) as P.
  { intros a b. rewrite (bin_lin (a + b)), (bin_lin a), inject_Z_plus. ring. }
  pose proof (bin_pos 1 G ltac:(lia)) as U.
  unfold Z.sub in Hlo, B. rewrite P in Hlo, Hhi. rewrite !P in B.
  assert (inject_Z (- gap M) == - inject_Z (gap M))%Q as I1 by (rewrite inject_Z_opp; reflexivity).
  assert (inject_Z (- (2 * gap M)) == - (inject_Z 2 * inject_Z (gap M)))%Q as I2 by (rewrite inject_Z_opp, inject_Z_mult; reflexivity).
  rewrite I1 in Hlo. rewrite I2 in B. clear I1 I2 P.
  change (inject_Z 2) with 2%Q in *. change (inject_Z 4) with 4%Q in *.
  assert (1 <= inject_Z (gap M) /\ inject_Z (gap M) <= 2)%Q as G12.
  { unfold gap. destruct (M =? 2 ^ 52); split; discriminate. }
  set (x := bin_q (4 * M) G) in *. set (u := bin_q 1 G) in *. set (g := inject_Z (gap M)) in *. clearbody g x u.
  assert (0 <= (g - 1) * u /\ 0 <= (2 - g) * u)%Q as GU.
  { split; apply Qmult_le_0_compat; lra. }
  set (gu := (g * u)%Q) in *.
  assert (-g * u == - gu)%Q as E1 by (unfold gu; ring). rewrite E1 in Hlo.
  assert (- (2 * g) * u == - (2 * gu))%Q as E2 by (unfold gu; ring). rewrite E2 in B.
  assert (u <= gu /\ gu <= 2 * u)%Q as GU2 by (unfold gu; lra).
  clearbody gu. clear GU E1 E2 G12 g.
  apply (Qabs_case (q - x)); intros A1; apply (Qabs_case (q - y)); intros A2; destruct B as [B|B]; lra.
Qed.

Lemma div_even_spec n d : 0 < d -> let m := div_even n d in
  (2 * m - 1) * d <= 2 * n <= (2 * m + 1) * d /\
  (2 * n = (2 * m - 1) * d \/ 2 * n = (2 * m + 1) * d -> Z.even m = true).
Proof.
  intros Hd. cbv zeta. unfold div_even. pose proof (Z.div_mod n d ltac:(lia)) as E. pose proof (Z.mod_pos_bound n d Hd) as B.
  set (q := n / d) in *. set (r := n mod d) in *.
  destruct (Z.ltb_spec (2 * r) d); [split; nia|]. destruct (Z.ltb_spec d (2 * r)); [split; nia|].
  assert (2 * r = d) as R by lia. rewrite (Zmod_even q). destruct (Z.even q) eqn:Ev.
  - rewrite Z.add_0_r. split; [nia|]. intros _. exact Ev.
  - split; [nia|]. intros _. rewrite Z.add_1_r, Z.even_succ, <- Z.negb_even, Ev. reflexivity.
Qed.

Lemma scale_den_pos d e : 0 < d -> 0 < scale_den d e.
Proof. intros H. unfold scale_den. apply Z.mul_pos_pos; [exact H|]. apply Z.pow_pos_nonneg; lia. Qed.

Lemma Qdiv_le a b c : (0 < b)%Q -> (a <= c / b <-> a * b <= c)%Q.
Proof.
  intros H. rewrite <- (Qmult_le_r a (c / b) b H). unfold Qdiv. rewrite <- Qmult_assoc, (Qmult_comm (/ b)), Qmult_inv_r, Qmult_1_r; [reflexivity|]. lra.
Qed.

(** Comparisons with [n / d], in the scale of [2^e] *)
Lemma scaled_q n d e : 0 < d -> (inject_Z n / inject_Z d == inject_Z (scale_num n e) / inject_Z (scale_den d e) * (2 # 1) ^ e)%Q.
Proof.
  intros Hd. unfold scale_num, scale_den. rewrite !inject_Z_mult, !Zpower_Qpower by lia. change (inject_Z 2) with (2 # 1).
  assert (~ inject_Z d == 0)%Q as N by (change 0%Q with (inject_Z 0); rewrite inject_Z_injective; lia).
  pose proof (two_pos (Z.max 0 e)) as P.
  assert ((2 # 1) ^ Z.max 0 (- e) * (2 # 1) ^ e == (2 # 1) ^ Z.max 0 e)%Q as E.
  { rewrite <- Qpower_plus by apply two_nz. replace (Z.max 0 (- e) + e) with (Z.max 0 e) by lia. reflexivity. }
  assert (inject_Z n * (2 # 1) ^ Z.max 0 (- e) / (inject_Z d * (2 # 1) ^ Z.max 0 e) * (2 # 1) ^ e ==
          inject_Z n * ((2 # 1) ^ Z.max 0 (- e) * (2 # 1) ^ e) / (inject_Z d * (2 # 1) ^ Z.max 0 e))%Q as ->.
  { field. split; [lra|exact N]. }
  rewrite E. field. split; [lra|exact N].
Qed.

Lemma scaled_le n d e c : 0 < d -> (bin_q c (e - 2) <= inject_Z n / inject_Z d)%Q <-> c * scale_den d e <= 4 * scale_num n e.
Proof.
  intros Hd. pose proof (scale_den_pos d e Hd) as P. rewrite (scaled_q n d e Hd). set (N := scale_num n e). set (D := scale_den d e) in *.
  assert (bin_q c (e - 2) == inject_Z c / inject_Z 4 * (2 # 1) ^ e)%Q as ->.
  { unfold bin_q. replace (e - 2) with (e + -2) by lia. rewrite Qpower_plus by apply two_nz. change ((2 # 1) ^ (-2))%Q with (1 # 4). change (inject_Z 4) with (4 # 1). field. }
  rewrite Qmult_le_r by apply two_pos.
  assert (0 < inject_Z D)%Q as PD by (change 0%Q with (inject_Z 0); rewrite <- Zlt_Qlt; exact P).
  rewrite Qdiv_le by exact PD.
  assert (inject_Z c / inject_Z 4 * inject_Z D == inject_Z (c * D) / inject_Z 4)%Q as ->.
  { rewrite inject_Z_mult. field. }
  rewrite <- (Qmult_le_r _ _ (inject_Z 4)) by reflexivity.
  assert (inject_Z (c * D) / inject_Z 4 * inject_Z 4 == inject_Z (c * D))%Q as -> by field.
  rewrite <- inject_Z_mult, <- Zle_Qle. lia.
Qed.
Lemma scaled_ge n d e c : 0 < d -> (inject_Z n / inject_Z d <= bin_q c (e - 2))%Q <-> 4 * scale_num n e <= c * scale_den d e.
Proof.
  intros Hd. pose proof (scale_den_pos d e Hd) as P. rewrite (scaled_q n d e Hd). set (N := scale_num n e). set (D := scale_den d e) in *.
  assert (bin_q c (e - 2) == inject_Z c / inject_Z 4 * (2 # 1) ^ e)%Q as ->.
  { unfold bin_q. replace (e - 2) with (e + -2) by lia. rewrite Qpower_plus by apply two_nz. change ((2 # 1) ^ (-2))%Q with (1 # 4). change (inject_Z 4) with (4 # 1). field. }
  rewrite Qmult_le_r by apply two_pos. rewrite Qdiv_le by reflexivity.
  assert (0 < inject_Z D)%Q as PD by (change 0%Q with (inject_Z 0); rewrite <- Zlt_Qlt; exact P).
  assert (inject_Z N / inject_Z D * inject_Z 4 == inject_Z (4 * N) / inject_Z D)%Q as ->.
  { rewrite inject_Z_mult. field. lra. }
  rewrite <- (Qmult_le_r _ _ (inject_Z D)) by exact PD.
  assert (inject_Z (4 * N) / inject_Z D * inject_Z D == inject_Z (4 * N))%Q as -> by (field; lra).
  rewrite <- inject_Z_mult, <- Zle_Qle. lia.
Qed.
Lemma scaled_lt n d e c : 0 < d -> (bin_q c (e - 2) < inject_Z n / inject_Z d)%Q <-> c * scale_den d e < 4 * scale_num n e.
Proof. intros Hd. pose proof (scaled_ge n d e c Hd). split; intros H0.
  - apply Z.nle_gt. intros C. apply H in C. lra.
  - apply Qnot_le_lt. intros C. apply H in C. lia. Qed.
Lemma scaled_gt n d e c : 0 < d -> (inject_Z n / inject_Z d < bin_q c (e - 2))%Q <-> 4 * scale_num n e < c * scale_den d e.
Proof. intros Hd. pose proof (scaled_le n d e c Hd). split; intros H0.
  - apply Z.nle_gt. intros C. apply H in C. lra.
  - apply Qnot_le_lt. intros C. apply H in C. lia. Qed.

Lemma scale_succ n d e : 0 < d -> forall a b, a * scale_den d (e + 1) <= b * scale_num n (e + 1) <-> 2 * a * scale_den d e <= b * scale_num n e.
Proof.
  intros Hd a b. unfold scale_den, scale_num. destruct (Z_lt_le_dec e 0) as [L|L].
  - replace (Z.max 0 (e + 1)) with 0 by lia. replace (Z.max 0 e) with 0 by lia. replace (Z.max 0 (- e)) with (Z.succ (Z.max 0 (- (e + 1)))) by lia.
    rewrite Z.pow_succ_r by lia. set (p := 2 ^ Z.max 0 (- (e + 1))). lia.
  - replace (Z.max 0 (e + 1)) with (Z.succ (Z.max 0 e)) by lia. rewrite Z.pow_succ_r by lia.
    replace (Z.max 0 (- (e + 1))) with 0 by lia. replace (Z.max 0 (- e)) with 0 by lia. set (p := 2 ^ Z.max 0 e). lia.
Qed.

Lemma binade_spec n d : 0 < n -> 0 < d -> let e := binade n d in
  2 ^ 52 * scale_den d e <= scale_num n e < 2 ^ 53 * scale_den d e.
Proof.
  intros Hn Hd. cbv zeta. unfold binade. set (e := Z.log2 n - Z.log2 d - 52).
  pose proof (Z.log2_spec n Hn) as Ln. pose proof (Z.log2_spec d Hd) as Ld. pose proof (Z.log2_nonneg n). pose proof (Z.log2_nonneg d).
  assert (2 ^ 51 * scale_den d e < scale_num n e < 2 ^ 53 * scale_den d e) as B.
  { unfold scale_den, scale_num. rewrite !Z.pow_succ_r in * by lia.
    set (x := Z.log2 n) in *. set (y := Z.log2 d) in *.
    assert (forall u v c, 0 <= u -> 0 <= v -> 0 <= c -> 2 ^ c * (2 ^ u * 2 ^ v) = 2 ^ (c + u + v)) as PP.
    { intros u v c Hu Hv Hc. rewrite <- !Z.pow_add_r by lia. f_equal. lia. }
    set (A := Z.max 0 (- e)) in *. set (Bb := Z.max 0 e) in *.
    pose proof (Z.pow_pos_nonneg 2 A ltac:(lia) ltac:(lia)) as PA. pose proof (Z.pow_pos_nonneg 2 Bb ltac:(lia) ltac:(lia)) as PB.
    assert (2 ^ 51 * (2 * 2 ^ y * 2 ^ Bb) = 2 ^ x * 2 ^ A) as E1.
    { rewrite <- (Z.pow_1_r 2) at 2. rewrite <- !Z.pow_add_r by lia. f_equal. lia. }
    assert (2 * 2 ^ x * 2 ^ A = 2 ^ 53 * (2 ^ y * 2 ^ Bb)) as E2.
    { rewrite <- (Z.pow_1_r 2) at 1. rewrite <- !Z.pow_add_r by lia. f_equal. lia. }
    clearbody A Bb. generalize dependent (2 ^ 51). generalize dependent (2 ^ 53). intros c1 E2 c2 E1.
    split.
    - apply Z.lt_le_trans with (2 ^ x * 2 ^ A); [|nia]. rewrite <- E1.
      assert (0 < c2) by (destruct (Z_lt_le_dec 0 c2); [assumption|]; exfalso; pose proof (Z.pow_pos_nonneg 2 x ltac:(lia) ltac:(lia)); nia).
      apply Z.mul_lt_mono_pos_l; [assumption|]. nia.
    - apply Z.lt_le_trans with (2 * 2 ^ x * 2 ^ A); [nia|]. rewrite E2.
      assert (0 < c1) by (destruct (Z_lt_le_dec 0 c1); [assumption|]; exfalso; pose proof (Z.pow_pos_nonneg 2 x ltac:(lia) ltac:(lia)); pose proof (Z.pow_pos_nonneg 2 y ltac:(lia) ltac:(lia)); nia).
      apply Z.mul_le_mono_nonneg_l; [lia|]. nia. }
  destruct (Z.ltb_spec (scale_num n e) (2 ^ 52 * scale_den d e)) as [L|L]; [|lia].
  pose proof (scale_succ n d (e - 1) Hd (2 ^ 51) 1) as S1. pose proof (scale_succ n d (e - 1) Hd (2 ^ 52) 1) as S2.
  replace (e - 1 + 1) with e in * by lia. change (2 * 2 ^ 51) with (2 ^ 52) in S1. change (2 * 2 ^ 52) with (2 ^ 53) in S2. lia.
Qed.

Definition within (p : Z) (q x : Q) : Prop := (Qabs (q - x) <= Qabs q * bin_q 1 (- p))%Q.

Lemma Qabs_bounds a b : (- b <= a -> a <= b -> Qabs a <= b)%Q.
Proof. intros H1 H2. apply Qabs_case; intros _; lra. Qed.

Lemma frac_nonneg n d : 0 <= n -> 0 < d -> (0 <= inject_Z n / inject_Z d)%Q.
Proof.
  intros Hn Hd. apply Qdiv_le; [change 0%Q with (inject_Z 0); rewrite <- Zlt_Qlt; exact Hd|]. rewrite Qmult_0_l.
  change 0%Q with (inject_Z 0). rewrite <- Zle_Qle. exact Hn.
Qed.

Lemma round_pos_rounds n d m e : 0 <= n -> 0 < d -> round_pos n d = Some (m, e) ->
  0 <= m < 2 ^ 53 /\ rounds_to (inject_Z n / inject_Z d) (bin_q m e) /\ within 53 (inject_Z n / inject_Z d) (bin_q m e).
Proof.
  intros Hn Hd. unfold round_pos. destruct (Z.eqb_spec n 0) as [-> | Nz].
  { intros H. injection H as <- <-. split; [lia|]. 
    assert (inject_Z 0 / inject_Z d == 0)%Q as E by (unfold Qdiv; change (inject_Z 0) with 0%Q; ring). 
    assert (0 == bin_q 0 0)%Q as E0 by reflexivity. split.
    - eapply rounds_to_eq; [symmetry; exact E|exact E0|exact rounds_to_zero].
    - unfold within. rewrite E, <- E0. discriminate. }
  set (e0 := binade n d). pose proof (binade_spec n d ltac:(lia) Hd) as B. fold e0 in B. cbv zeta in B.
  pose proof (scale_den_pos d e0 Hd) as PD.
  set (m0 := div_even (scale_num n e0) (scale_den d e0)).
  pose proof (div_even_spec (scale_num n e0) (scale_den d e0) PD) as S. fold m0 in S. cbv zeta in S. destruct S as [S1 S2].
  set (q := (inject_Z n / inject_Z d)%Q).
  assert (Q : forall c, ((bin_q c (e0 - 2) <= q)%Q <-> c * scale_den d e0 <= 4 * scale_num n e0) /\
                        ((q <= bin_q c (e0 - 2))%Q <-> 4 * scale_num n e0 <= c * scale_den d e0) /\
                        ((bin_q c (e0 - 2) < q)%Q <-> c * scale_den d e0 < 4 * scale_num n e0) /\
                        ((q < bin_q c (e0 - 2))%Q <-> 4 * scale_num n e0 < c * scale_den d e0)).
  { intros c. split; [apply scaled_le, Hd|]. split; [apply scaled_ge, Hd|]. split; [apply scaled_lt, Hd|apply scaled_gt, Hd]. }
  set (N := scale_num n e0) in *. set (D := scale_den d e0) in *.
  assert (M : 2 ^ 52 <= m0 <= 2 ^ 53).
  { change (2 ^ 52) with 4503599627370496 in *. change (2 ^ 53) with 9007199254740992 in *. clear Q S2. split; nia. }
  assert (W : within 53 q (bin_q (4 * m0) (e0 - 2))).
  { unfold within. rewrite (Qabs_pos q) by (apply frac_nonneg; lia).
    assert (bin_q (2 ^ 54) (e0 - 2) <= q)%Q as L by (apply Q; change (2 ^ 54) with (4 * 2 ^ 52); lia).
    assert (bin_q 2 (e0 - 2) <= q * bin_q 1 (-53))%Q as L2.
    { assert (bin_q 2 (e0 - 2) == bin_q (2 ^ 54) (e0 - 2) * bin_q 1 (-53))%Q as ->.
      { rewrite <- (bin_shift 2 (e0 - 2) 53) by lia. unfold bin_q. change (2 * 2 ^ 53) with (2 ^ 54). unfold Z.sub at 1. rewrite (Qpower_plus (2 # 1) (e0 - 2) (- 53)) by apply two_nz.
        change (inject_Z 1) with 1%Q. ring. }
      apply Qmult_le_compat_r; [exact L|]. apply Qlt_le_weak, bin_pos. lia. }
    change (- (53)) with (-53). 
    assert (forall a b, (bin_q (a + b) (e0 - 2) == bin_q a (e0 - 2) + bin_q b (e0 - 2))%Q) as P.
    { intros a b. unfold bin_q. rewrite inject_Z_plus. ring. }
    assert (bin_q (4 * m0 + -2) (e0 - 2) <= q)%Q as L3 by (apply Q; nia).
    assert (q <= bin_q (4 * m0 + 2) (e0 - 2))%Q as L4 by (apply Q; nia).
    rewrite P in L3, L4. assert (bin_q (-2) (e0 - 2) == - bin_q 2 (e0 - 2))%Q as E2 by (unfold bin_q; change (-2)%Z with (- (2)); rewrite inject_Z_opp; ring).
    rewrite E2 in L3. apply Qabs_bounds; lra. }
  destruct (Z.eqb_spec m0 (2 ^ 53)) as [Em|Em].
  - destruct (Z.leb_spec (-900) (e0 + 1)); destruct (Z.leb_spec (e0 + 1) 900); cbn [andb]; intros H1; try discriminate H1. injection H1 as <- <-.
    assert (bin_q (4 * m0) (e0 - 2) == bin_q (2 ^ 52) (e0 + 1))%Q as EX.
    { rewrite Em, <- (bin_shift (2 ^ 52) (e0 + 1) 3) by lia. replace (e0 + 1 - 3) with (e0 - 2) by lia. apply bin_eq. reflexivity. }
    split; [lia|]. split; [|unfold within in *; rewrite <- EX; exact W].
    assert (bin_q (4 * 2 ^ 52) (e0 - 1) == bin_q (2 ^ 52) (e0 + 1))%Q as EX2.
    { rewrite <- (bin_shift (2 ^ 52) (e0 + 1) 2) by lia. replace (e0 + 1 - 2) with (e0 - 1) by lia. apply bin_eq. reflexivity. }
    eapply rounds_to_eq; [reflexivity|exact EX2|].
    apply interval_rounds; [lia|reflexivity|lia| |].
    + change (gap (2 ^ 52)) with 1. rewrite <- (bin_shift (4 * 2 ^ 52 - 1) (e0 - 1) 1) by lia. replace (e0 - 1 - 1) with (e0 - 2) by lia.
      apply Q. rewrite Em in S1. change (2 ^ 1) with 2. change (2 ^ 52) with 4503599627370496 in *. change (2 ^ 53) with 9007199254740992 in *. lia.
    + rewrite <- (bin_shift (4 * 2 ^ 52 + 2) (e0 - 1) 1) by lia. replace (e0 - 1 - 1) with (e0 - 2) by lia.
      apply Q. change (2 ^ 1) with 2. change (2 ^ 52) with 4503599627370496 in *. change (2 ^ 53) with 9007199254740992 in *. lia.
  - destruct (Z.leb_spec (-900) e0); destruct (Z.leb_spec e0 900); cbn [andb]; intros H1; try discriminate H1. injection H1 as <- <-.
    assert (bin_q (4 * m0) (e0 - 2) == bin_q m0 e0)%Q as EX.
    { rewrite <- (bin_shift m0 e0 2) by lia. apply bin_eq. change (2 ^ 2) with 4. lia. }
    split; [lia|]. split; [|unfold within in *; rewrite <- EX; exact W].
    eapply rounds_to_eq; [reflexivity|exact EX|].
    assert (gap m0 = 2 \/ gap m0 = 1 /\ m0 = 2 ^ 52) as Hg by (unfold gap; destruct (Z.eqb_spec m0 (2 ^ 52)); auto).
    destruct (Z.even m0) eqn:Ev.
    + apply interval_rounds; [lia|exact Ev|lia| |]; apply Q; [|nia]. destruct Hg as [-> | [-> E52]]; [nia|].
      rewrite E52. change (2 ^ 52) with 4503599627370496 in *. change (2 ^ 53) with 9007199254740992 in *. lia.
    + assert (gap m0 = 2) as Hg2 by (destruct Hg as [H1|[_ E52]]; [exact H1|]; rewrite E52 in Ev; vm_compute in Ev; discriminate Ev).
      assert (2 * N <> (2 * m0 - 1) * D /\ 2 * N <> (2 * m0 + 1) * D) as [T1 T2] by (split; intros T; specialize (S2 ltac:(auto)); congruence).
      apply strict_rounds; [lia|lia| |]; apply Q; rewrite ?Hg2; lia.
Qed.

(** The result exists when the numbers are not too large. *)
Lemma round_pos_some n d p r : 0 <= n < 2 ^ p -> 0 < d < 2 ^ r -> 0 <= p <= 400 -> 0 <= r <= 400 ->
  exists m e, round_pos n d = Some (m, e) /\ - r - 53 <= e <= p.
Proof.
  intros Hn Hd Hp Hr. unfold round_pos. destruct (Z.eqb_spec n 0) as [-> | Nz].
  { exists 0, 0. split; [reflexivity|lia]. }
  assert (Z.log2 n < p) by (apply Z.log2_lt_pow2; lia). assert (Z.log2 d < r) by (apply Z.log2_lt_pow2; lia).
  pose proof (Z.log2_nonneg n). pose proof (Z.log2_nonneg d).
  assert (- r - 53 <= binade n d <= p - 52) as B.
  { unfold binade. destruct (_ <? _); lia. }
  set (e := binade n d) in *. clearbody e. destruct (div_even _ _ =? 2 ^ 53).
  - destruct (Z.leb_spec (-900) (e + 1)); destruct (Z.leb_spec (e + 1) 900); cbn [andb]; try lia. eexists _, _. split; [reflexivity|lia].
  - destruct (Z.leb_spec (-900) e); destruct (Z.leb_spec e 900); cbn [andb]; try lia. eexists _, _. split; [reflexivity|lia].
Qed.

(** ** The operations *)

Definition sgn_q (neg : bool) (q : Q) : Q := if neg then (- q)%Q else q.
#[global] Instance sgn_proper neg : Morphisms.Proper (Qeq ==> Qeq)%signature (sgn_q neg).
Proof. intros x y H. unfold sgn_q. destruct neg; rewrite H; reflexivity. Qed.
Definition d_q (x : double) : Q := sgn_q (d_neg x) (bin_q (d_sig x) (d_exp x)).

Lemma round_signed_rounds neg n d x q : 0 <= n -> 0 < d -> round_signed neg n d = Some x -> (q == sgn_q neg (inject_Z n / inject_Z d))%Q ->
  d_neg x = neg /\ 0 <= d_sig x < 2 ^ 53 /\ rounds_to q (d_q x) /\ within 53 q (d_q x).
Proof.
  intros Hn Hd. unfold round_signed. destruct (round_pos n d) as [[m e]|] eqn:E; [|discriminate]. intros H Eq. injection H as <-.
  destruct (round_pos_rounds n d m e Hn Hd E) as (M & R & W). cbn [d_neg d_sig d_exp]. unfold d_q. cbn [d_neg d_sig d_exp].
  split; [reflexivity|]. split; [exact M|]. unfold sgn_q in *. destruct neg.
  - split; [eapply rounds_to_eq; [symmetry; exact Eq|reflexivity|]; apply rounds_to_opp, R|].
    unfold within in *. rewrite Eq, Qabs_opp. 
    assert (- (inject_Z n / inject_Z d) - - bin_q m e == - (inject_Z n / inject_Z d - bin_q m e))%Q as -> by ring. rewrite Qabs_opp. exact W.
  - split; [eapply rounds_to_eq; [symmetry; exact Eq|reflexivity|exact R]|]. unfold within in *. rewrite Eq. exact W.
Qed.


Lemma d_den_pos x : 0 < d_den x.
Proof. unfold d_den. apply Z.pow_pos_nonneg; lia. Qed.

Lemma d_frac x : (d_q x == inject_Z (d_num x) / inject_Z (d_den x))%Q.
Proof.
  unfold d_q, d_num, d_den. set (e := d_exp x).
  assert (E0 : (bin_q (d_sig x) e == inject_Z (d_sig x * 2 ^ Z.max 0 e) / inject_Z (2 ^ Z.max 0 (- e)))%Q).
  { unfold bin_q. rewrite inject_Z_mult, !Zpower_Qpower by lia. change (inject_Z 2) with (2 # 1).
    assert ((2 # 1) ^ Z.max 0 e == (2 # 1) ^ e * (2 # 1) ^ Z.max 0 (- e))%Q as ->.
    { rewrite <- Qpower_plus by apply two_nz. replace (e + Z.max 0 (- e)) with (Z.max 0 e) by lia. reflexivity. }
    pose proof (two_pos (Z.max 0 (- e))). field. lra. }
  destruct (d_neg x); cbn [sgn_q]; rewrite E0, !inject_Z_mult; [change (inject_Z (-1)) with (-1 # 1)%Q|change (inject_Z 1) with 1%Q];
    field; intros E; change 0%Q with (inject_Z 0) in E; rewrite inject_Z_injective in E; pose proof (Z.pow_pos_nonneg 2 (Z.max 0 (- e))); lia.
Qed.

Lemma inject_abs z : (inject_Z (Z.abs z) == sgn_q (z <? 0) (inject_Z z))%Q.
Proof. destruct (Z.ltb_spec z 0); cbn [sgn_q]; [rewrite Z.abs_neq, inject_Z_opp by lia|rewrite Z.abs_eq by lia]; reflexivity. Qed.

Lemma inject_nz z : z <> 0 -> ~ (inject_Z z == 0)%Q.
Proof. intros H E. change 0%Q with (inject_Z 0) in E. rewrite inject_Z_injective in E. auto. Qed.

Lemma int_div_rounds i t a : t <> 0 -> int_div i t = Some a ->
  d_neg a = xorb (i <? 0) (t <? 0) /\ 0 <= d_sig a < 2 ^ 53 /\
  rounds_to (inject_Z i / inject_Z t) (d_q a) /\ within 53 (inject_Z i / inject_Z t) (d_q a).
Proof.
  intros Ht H. refine (round_signed_rounds _ _ _ _ _ _ _ H _); [lia|lia|].
  rewrite !inject_abs. pose proof (inject_nz t Ht). destruct (i <? 0); destruct (t <? 0); cbn [xorb sgn_q]; field; assumption.
Qed.

Lemma int_sub_rounds x y z : int_sub x y = Some z ->
  (d_neg z = true <-> inject_Z x - d_q y < 0)%Q /\ 0 <= d_sig z < 2 ^ 53 /\
  rounds_to (inject_Z x - d_q y) (d_q z) /\ within 53 (inject_Z x - d_q y) (d_q z).
Proof.
  unfold int_sub. destruct (Z.abs x <=? 2 ^ 53); [|discriminate]. cbv zeta. intros H.
  pose proof (d_den_pos y) as P. pose proof (inject_nz (d_den y) ltac:(lia)) as N.
  set (n := x * d_den y - d_num y) in *.
  assert (inject_Z x - d_q y == inject_Z n / inject_Z (d_den y))%Q as E.
  { rewrite d_frac. unfold n, Z.sub. rewrite inject_Z_plus, inject_Z_opp, inject_Z_mult. field. exact N. }
  destruct (round_signed_rounds _ _ _ _ (inject_Z x - d_q y)%Q (Z.abs_nonneg n) P H) as (S & M & R & W).
  { rewrite E, inject_abs. destruct (n <? 0); cbn [sgn_q]; field; exact N. }
  split; [|auto]. rewrite S, E. assert (0 < inject_Z (d_den y))%Q as PQ by (change 0%Q with (inject_Z 0); rewrite <- Zlt_Qlt; exact P).
  destruct (Z.ltb_spec n 0) as [L|L]; split; intros K; try reflexivity; try discriminate K.
  - apply Qlt_shift_div_r; [exact PQ|]. rewrite Qmult_0_l. change 0%Q with (inject_Z 0). rewrite <- Zlt_Qlt. exact L.
  - exfalso. pose proof (frac_nonneg n (d_den y) L P). lra.
Qed.

Lemma d_abs x : 0 <= d_sig x -> (inject_Z (Z.abs (d_num x)) / inject_Z (d_den x) == Qabs (d_q x))%Q.
Proof.
  intros H. rewrite d_frac. pose proof (d_den_pos x) as P. pose proof (inject_nz (d_den x) ltac:(lia)) as N.
  assert (0 < inject_Z (d_den x))%Q as PQ by (change 0%Q with (inject_Z 0); rewrite <- Zlt_Qlt; exact P).
  rewrite inject_abs. destruct (Z.ltb_spec (d_num x) 0) as [L|L]; cbn [sgn_q].
  - rewrite Qabs_neg; [field; exact N|]. apply Qlt_le_weak, Qlt_shift_div_r; [exact PQ|]. rewrite Qmult_0_l. change 0%Q with (inject_Z 0). rewrite <- Zlt_Qlt. exact L.
  - rewrite Qabs_pos; [reflexivity|]. apply frac_nonneg; assumption.
Qed.

Lemma num_sign x : 0 <= d_sig x -> (d_num x < 0 -> d_neg x = true) /\ (d_neg x = true -> d_num x <= 0).
Proof. intros H. unfold d_num. pose proof (Z.pow_pos_nonneg 2 (Z.max 0 (d_exp x)) ltac:(lia) ltac:(lia)). destruct (d_neg x); split; intros; try reflexivity; try discriminate; nia. Qed.

Lemma times_100_rounds x y : 0 <= d_sig x -> times_100 x = Some y ->
  d_neg y = d_neg x /\ 0 <= d_sig y < 2 ^ 53 /\ rounds_to (100 * d_q x) (d_q y) /\ within 53 (100 * d_q x) (d_q y).
Proof.
  intros Hx H. pose proof (d_den_pos x) as P. pose proof (inject_nz (d_den x) ltac:(lia)) as N.
  destruct (num_sign x Hx) as [S1 S2].
  refine (round_signed_rounds _ _ _ _ _ _ P H _); [lia|]. rewrite inject_Z_mult, inject_abs, d_frac. change (inject_Z 100) with 100%Q.
  destruct (Z.ltb_spec (d_num x) 0) as [L|L].
  - rewrite S1 by exact L. cbn [sgn_q]. field. exact N.
  - destruct (d_neg x); cbn [sgn_q]; [|field; exact N]. assert (d_num x = 0) as -> by (specialize (S2 eq_refl); lia).
    change (inject_Z 0) with 0%Q. field. exact N.
Qed.

(** ** The text *)

Lemma hundredths_spec x : 0 <= d_sig x ->
  two_decimals (Qabs (d_q x)) (hundredths (div_even (100 * Z.abs (d_num x)) (d_den x))).
Proof.
  intros Hx. pose proof (d_den_pos x) as P. set (n := 100 * Z.abs (d_num x)). set (d := d_den x) in *. set (h := div_even n d).
  pose proof (div_even_spec n d P) as S. fold h in S. cbv zeta in S. destruct S as [S1 S2].
  assert (0 <= h) as Hh by nia.
  pose proof (Z.mod_pos_bound h 10 ltac:(lia)) as B1. pose proof (Z.mod_pos_bound (h / 10) 10 ltac:(lia)) as B2.
  assert (0 <= h / 100) as B3 by (apply Z.div_pos; lia).
  destruct (digits_of_nonneg (h / 100) B3) as (D1 & D2 & D3). fold (digits_of (h / 100)) in *.
  exists (digits_of (h / 100)), (48 + h / 10 mod 10), (48 + h mod 10). split; [reflexivity|]. split; [exact D2|]. split.
  { rewrite forallb_app, D1. cbn [forallb andb]. unfold is_digit. lia. }
  split.
  { destruct (Z.eq_dec (h / 100) 0) as [E|E]; [rewrite E; reflexivity|].
    destruct (digits_of_pos (h / 100) ltac:(lia)) as (c & s & -> & _ & Hc & _). cbn [hd]. congruence. }
  assert (digits_value (digits_of (h / 100) ++ [48 + h / 10 mod 10; 48 + h mod 10]) = h) as ->.
  { rewrite digits_value_app, D3. change (zlen _) with 2. unfold digits_value. cbn [fold_left]. 
    pose proof (Z.div_mod h 10 ltac:(lia)). pose proof (Z.div_mod (h / 10) 10 ltac:(lia)).
    rewrite Z.div_div in * by lia. change (10 * 10) with 100 in *. change (10 ^ 2) with 100. lia. }
  cbv zeta. rewrite <- (d_abs x Hx). fold d.
  assert (0 < inject_Z d)%Q as PQ by (change 0%Q with (inject_Z 0); rewrite <- Zlt_Qlt; exact P).
  assert ((h # 100) - inject_Z (Z.abs (d_num x)) / inject_Z d == inject_Z (2 * h * d - 2 * n) / (inject_Z (200 * d)))%Q as ->.
  { assert (h # 100 == inject_Z h / inject_Z 100)%Q as -> by (apply Qmake_Qdiv).
    unfold n, Z.sub. rewrite inject_Z_plus, inject_Z_opp, !inject_Z_mult. change (inject_Z 100) with 100%Q. change (inject_Z 2) with 2%Q. change (inject_Z 200) with 200%Q. field. lra. }
  assert (0 < inject_Z (200 * d))%Q as PQ2 by (change 0%Q with (inject_Z 0); rewrite <- Zlt_Qlt; lia).
  assert (F : forall z, (inject_Z z / inject_Z (200 * d) == 1 # 200 <-> z = d)%Q).
  { intros z. split.
    - intros E. assert (inject_Z z == inject_Z d)%Q as K; [|rewrite inject_Z_injective in K; exact K].
      assert (inject_Z z == inject_Z z / inject_Z (200 * d) * inject_Z (200 * d))%Q as -> by (field; lra).
      rewrite E, inject_Z_mult. change (inject_Z 200) with 200%Q. field.
    - intros ->. rewrite inject_Z_mult. change (inject_Z 200) with 200%Q. field. lra. }
  assert (G : forall z, - d <= z <= d -> (- (1 # 200) <= inject_Z z / inject_Z (200 * d) /\ inject_Z z / inject_Z (200 * d) <= 1 # 200)%Q).
  { intros z Hz. assert (1 # 200 == inject_Z d / inject_Z (200 * d))%Q as E by (symmetry; apply F; reflexivity). rewrite E.
    assert (- (inject_Z d / inject_Z (200 * d)) == inject_Z (- d) / inject_Z (200 * d))%Q as -> by (rewrite inject_Z_opp; field; lra).
    unfold Qdiv. split; (apply Qmult_le_compat_r; [rewrite <- Zle_Qle; lia|apply Qlt_le_weak, Qinv_lt_0_compat; exact PQ2]). }
  split.
  - apply Qabs_bounds; apply G; lia.
  - apply Qabs_case; intros _ E.
    + apply F in E. apply S2. lia.
    + assert (inject_Z (- (2 * h * d - 2 * n)) / inject_Z (200 * d) == 1 # 200)%Q as E2.
      { rewrite inject_Z_opp, <- E. field. lra. }
      apply F in E2. apply S2. lia.
Qed.

(** Uniqueness *)

Lemma nearest_unique v w c : (Qabs ((v # 100) - c) <= 1 # 200)%Q -> ((Qabs ((v # 100) - c) == 1 # 200)%Q -> Z.even v = true) ->
  (Qabs ((w # 100) - c) <= 1 # 200)%Q -> ((Qabs ((w # 100) - c) == 1 # 200)%Q -> Z.even w = true) -> v <= w.
Proof.
  intros H1 H2 H3 H4. destruct (Z_le_gt_dec v w) as [L|L]; [exact L|exfalso].
  assert (forall z, (z # 100 == inject_Z z * (1 # 100))%Q) as E by (intros z; unfold Qeq; cbn; lia).
  rewrite (E v) in *. rewrite (E w) in *. clear E.
  assert (inject_Z w + 1 <= inject_Z v)%Q as K.
  { change 1%Q with (inject_Z 1). rewrite <- inject_Z_plus, <- Zle_Qle. lia. }
  pose proof (Qle_Qabs (inject_Z v * (1 # 100) - c)) as A1.
  pose proof (Qle_Qabs (- (inject_Z w * (1 # 100) - c))) as A2. rewrite Qabs_opp in A2.
  set (x := Qabs (inject_Z v * (1 # 100) - c)) in *. set (y := Qabs (inject_Z w * (1 # 100) - c)) in *. clearbody x y.
  assert (inject_Z v == inject_Z w + 1)%Q as EQ by lra.
  assert (x == 1 # 200)%Q as X by lra. assert (y == 1 # 200)%Q as Y by lra.
  specialize (H2 X). specialize (H4 Y). change 1%Q with (inject_Z 1) in EQ. rewrite <- inject_Z_plus, inject_Z_injective in EQ.
  subst v. rewrite Z.add_1_r, Z.even_succ, <- Z.negb_even, H4 in H2. discriminate H2.
Qed.

Lemma digits_unique l : forall l', forallb is_digit l = true -> forallb is_digit l' = true -> hd 0 l <> 48 -> hd 0 l' <> 48 ->
  digits_value l = digits_value l' -> l = l'.
Proof.
  assert (Z0 : forall l, forallb is_digit l = true -> hd 0 l <> 48 -> digits_value l = 0 -> l = []).
  { intros m F N E. destruct m as [|c m]; [reflexivity|]. pose proof (digits_value_lead c m F N). pose proof (Z.pow_pos_nonneg 10 (zlen m) ltac:(lia) (zlen_nonneg m)). lia. }
  induction l as [|c l IH] using rev_ind; intros l' F F' N N' E.
  - symmetry. apply Z0; [exact F'|exact N'|rewrite <- E; reflexivity].
  - destruct l' as [|c' l' _] using rev_ind; [apply Z0; [exact F|exact N|rewrite E; reflexivity]|].
    rewrite !digits_value_app in E. change (zlen [c]) with 1 in E. change (zlen [c']) with 1 in E. change (digits_value [c]) with (c - 48) in E. change (digits_value [c']) with (c' - 48) in E.
    rewrite forallb_app in F, F'. apply andb_prop in F as [F Fc]. apply andb_prop in F' as [F' Fc']. cbn [forallb] in Fc, Fc'. unfold is_digit in Fc, Fc'.
    assert (c = c' /\ digits_value l = digits_value l') as [-> E2] by lia.
    f_equal. apply IH; [exact F|exact F'| | |exact E2].
    + destruct l as [|x l]; [discriminate|exact N].
    + destruct l' as [|x l']; [discriminate|exact N'].
Qed.

Lemma two_decimals_unique c c' p p' : (c == c')%Q -> two_decimals c p -> two_decimals c' p' -> p = p'.
Proof.
  intros Ec (i & x & y & -> & N & F & L & V1 & V2) (i' & x' & y' & -> & N' & F' & L' & V1' & V2').
  cbv zeta in *. rewrite <- Ec in V1', V2'.
  assert (E : digits_value (i ++ [x; y]) = digits_value (i' ++ [x'; y'])).
  { apply Z.le_antisymm; eapply nearest_unique; eassumption. }
  clear V1 V2 V1' V2'. rewrite !digits_value_app in E. change (zlen [x; y]) with 2 in E. change (zlen [x'; y']) with 2 in E. change (10 ^ 2) with 100 in E.
  change (digits_value [x; y]) with (10 * (10 * 0 + (x - 48)) + (y - 48)) in E. change (digits_value [x'; y']) with (10 * (10 * 0 + (x' - 48)) + (y' - 48)) in E.
  rewrite forallb_app in F, F'. apply andb_prop in F as [F Fc]. apply andb_prop in F' as [F' Fc']. cbn [forallb] in Fc, Fc'. unfold is_digit in Fc, Fc'.
  assert (x = x' /\ y = y' /\ digits_value i = digits_value i') as (-> & -> & E2) by lia. f_equal.
  destruct (Z.eq_dec (hd 0 i) 48) as [H|H]; destruct (Z.eq_dec (hd 0 i') 48) as [H'|H'].
  - rewrite (L H), (L' H'). reflexivity.
  - exfalso. rewrite (L H) in E2. change (digits_value [48]) with 0 in E2. destruct i' as [|a i']; [congruence|].
    pose proof (digits_value_lead a i' F' H'). pose proof (Z.pow_pos_nonneg 10 (zlen i') ltac:(lia) (zlen_nonneg i')). lia.
  - exfalso. rewrite (L' H') in E2. change (digits_value [48]) with 0 in E2. destruct i as [|a i]; [congruence|].
    pose proof (digits_value_lead a i F H). pose proof (Z.pow_pos_nonneg 10 (zlen i) ltac:(lia) (zlen_nonneg i)). lia.
  - apply digits_unique; assumption.
Qed.

Lemma usage_text_unique i t s s' : usage_text i t s -> usage_text i t s' -> s = s'.
Proof.
  intros (a & b & c & p & A & B & C & P & S) (a' & b' & c' & p' & A' & B' & C' & P' & S').
  pose proof (rounds_to_unique _ _ _ A A') as Ea.
  assert (rounds_to (1 - a) b') as B2 by (eapply rounds_to_eq; [|reflexivity|exact B']; rewrite Ea; reflexivity).
  pose proof (rounds_to_unique _ _ _ B B2) as Eb.
  assert (rounds_to (100 * b) c') as C2 by (eapply rounds_to_eq; [|reflexivity|exact C']; rewrite Eb; reflexivity).
  pose proof (rounds_to_unique _ _ _ C C2) as E.
  assert (p = p') as <- by (eapply two_decimals_unique; [|exact P|exact P']; rewrite E; reflexivity).
  destruct S as [[-> S]|[-> S]]; destruct S' as [[-> S']|[-> S']]; try reflexivity; exfalso; lra.
Qed.

(** ** The line *)

(** What the two statements compute. *)
Definition usage_line (i t : Z) : list Z :=
  match int_div i t with
  | Some a => match int_sub 1 a with
              | Some b => match percent_2 b with Some s => text "CPU usage was " ++ s | None => [] end
              | None => []
              end
  | None => []
  end.

Lemma pow_mult_bound a b p r : 0 <= a < 2 ^ p -> 0 <= b <= 2 ^ r -> 0 <= p -> 0 <= r -> 0 <= a * b < 2 ^ (p + r).
Proof. intros Ha Hb Hp Hr. rewrite Z.pow_add_r by lia. pose proof (Z.pow_pos_nonneg 2 r). nia. Qed.

Lemma parts_bound x p r : 0 <= d_sig x < 2 ^ 53 -> - r <= d_exp x <= p -> 0 <= p -> 0 <= r ->
  Z.abs (d_num x) < 2 ^ (53 + p) /\ 0 < d_den x <= 2 ^ r.
Proof.
  intros M E Hp Hr. unfold d_num, d_den. split.
  - assert (2 ^ Z.max 0 (d_exp x) <= 2 ^ p) as L by (apply Z.pow_le_mono_r; lia).
    pose proof (Z.pow_pos_nonneg 2 (Z.max 0 (d_exp x)) ltac:(lia) ltac:(lia)) as P.
    pose proof (pow_mult_bound (d_sig x) (2 ^ Z.max 0 (d_exp x)) 53 p ltac:(lia) ltac:(lia) ltac:(lia) ltac:(lia)). destruct (d_neg x); lia.
  - split; [apply Z.pow_pos_nonneg; lia|apply Z.pow_le_mono_r; lia].
Qed.

Lemma usage_defined i t : usage_range i t -> t <> 0 -> exists a b c, int_div i t = Some a /\ int_sub 1 a = Some b /\ times_100 b = Some c.
Proof.
  intros [Hi Ht] Nt. unfold usage_range in *.
  destruct (round_pos_some (Z.abs i) (Z.abs t) 64 112) as (m1 & e1 & R1 & E1); [lia|lia|lia|lia|].
  assert (exists a, int_div i t = Some a /\ d_exp a = e1) as (a & Ha & Ea) by (unfold int_div, round_signed; rewrite R1; eexists; split; reflexivity).
  destruct (int_div_rounds i t a Nt Ha) as (_ & Ma & _).
  destruct (parts_bound a 64 165 Ma ltac:(lia) ltac:(lia) ltac:(lia)) as [Na Da].
  change (53 + 64) with 117 in Na.
  assert (2 ^ 165 + 2 ^ 117 < 2 ^ 166) as PP by reflexivity.
  assert (2 ^ 165 < 2 ^ 166) as PP2 by reflexivity.
  destruct (round_pos_some (Z.abs (1 * d_den a - d_num a)) (d_den a) 166 166) as (m2 & e2 & R2 & E2); [lia|lia|lia|lia|].
  assert (exists b, int_sub 1 a = Some b /\ d_exp b = e2) as (b & Hb & Eb).
  { unfold int_sub, round_signed. change (Z.abs 1 <=? 2 ^ 53) with true. cbv iota zeta. rewrite R2. eexists; split; reflexivity. }
  destruct (int_sub_rounds 1 a b Hb) as (_ & Mb & _).
  destruct (parts_bound b 166 219 Mb ltac:(lia) ltac:(lia) ltac:(lia)) as [Nb Db].
  change (53 + 166) with 219 in Nb.
  assert (2 ^ 219 * 100 < 2 ^ 226) as PP3 by reflexivity.
  assert (2 ^ 219 < 2 ^ 220) as PP4 by reflexivity.
  destruct (round_pos_some (100 * Z.abs (d_num b)) (d_den b) 226 220) as (m3 & e3 & R3 & E3); [lia|lia|lia|lia|].
  assert (exists c, times_100 b = Some c) as (c & Hc) by (unfold times_100, round_signed; rewrite R3; eexists; reflexivity).
  exists a, b, c. auto.
Qed.

Lemma usage_line_spec : usage_lines_of usage_line.
Proof.
  intros i t H Nt. destruct (usage_defined i t H Nt) as (a & b & c & Ha & Hb & Hc).
  destruct (int_div_rounds i t a Nt Ha) as (_ & _ & Ra & _).
  destruct (int_sub_rounds 1 a b Hb) as (Sb & Mb & Rb & _).
  destruct (times_100_rounds b c ltac:(lia) Hc) as (Sc & Mc & Rc & _).
  exists (d_q a), (d_q b), (d_q c), (hundredths (div_even (100 * Z.abs (d_num c)) (d_den c))).
  split; [exact Ra|]. split; [exact Rb|]. split; [exact Rc|]. split; [apply hundredths_spec; lia|].
  unfold usage_line, percent_2. rewrite Ha, Hb, Hc. unfold fixed_2. rewrite Sc. change (inject_Z 1) with 1%Q in Sb. destruct (d_neg b).
  - right. split; [rewrite <- !app_assoc; reflexivity|]. apply Sb. reflexivity.
  - left. split; [rewrite <- !app_assoc; reflexivity|]. destruct (Qlt_le_dec (1 - d_q a) 0) as [L|L]; [|exact L]. apply Sb in L. discriminate L.
Qed.

Lemma usage_line_only line i t : usage_lines_of line -> usage_range i t -> t <> 0 -> line i t = usage_line i t.
Proof. intros H R N. eapply usage_text_unique; [apply H|apply usage_line_spec]; assumption. Qed.

(** ** Accuracy *)

Lemma rounds_le q x y : rounds_to q x -> is_double y -> (q <= y)%Q -> (x <= y)%Q.
Proof.
  intros [_ R] Hy H. destruct (Qlt_le_dec y x) as [L|L]; [|exact L]. exfalso.
  destruct (R y Hy ltac:(intros E; lra)) as [K|[K _]]; revert K; apply Qabs_case; intros A1; apply Qabs_case; intros A2 K; lra.
Qed.
Lemma rounds_ge q x y : rounds_to q x -> is_double y -> (y <= q)%Q -> (y <= x)%Q.
Proof.
  intros [_ R] Hy H. destruct (Qlt_le_dec x y) as [L|L]; [|exact L]. exfalso.
  destruct (R y Hy ltac:(intros E; lra)) as [K|[K _]]; revert K; apply Qabs_case; intros A1; apply Qabs_case; intros A2 K; lra.
Qed.
Lemma double_0 : is_double 0.
Proof. exists 0, 0. split; [reflexivity|]. split; [lia|]. reflexivity. Qed.
Lemma double_1 : is_double 1.
Proof. exists 1, 0. split; [reflexivity|]. split; [lia|]. reflexivity. Qed.
Lemma double_100 : is_double 100.
Proof. exists 100, 0. split; [reflexivity|]. split; [lia|]. reflexivity. Qed.

Lemma within_abs q x b : within 53 q x -> (0 <= q -> q <= b -> - (b * (1 # 9007199254740992)) <= x - q /\ x - q <= b * (1 # 9007199254740992))%Q.
Proof.
  unfold within. intros W H1 H2. rewrite (Qabs_pos q H1) in W. change (bin_q 1 (- (53)))%Q with (1 # 9007199254740992)%Q in W.
  apply Qabs_Qle_condition in W. 
  assert (q * (1 # 9007199254740992) <= b * (1 # 9007199254740992))%Q by (apply Qmult_le_compat_r; [exact H2|discriminate]). lra.
Qed.

Lemma usage_accurate i t s : 0 < t < 2 ^ 112 -> 0 <= i <= t -> i < 2 ^ 63 -> usage_text i t s ->
  exists w x y, s = text "CPU usage was " ++ w ++ [46; x; y] ++ text "%" /\ forallb is_digit (w ++ [x; y]) = true /\
    (Qabs ((digits_value (w ++ [x; y]) # 100) - 100 * (1 - inject_Z i / inject_Z t)) <= (1 # 200) + (1 # 10000000000000))%Q.
Proof.
  intros Ht Hi Hi2 U. assert (usage_range i t) as RG by (split; lia). assert (t <> 0) as Nt by lia.
  destruct (usage_defined i t RG Nt) as (a & b & c & Ha & Hb & Hc).
  destruct (int_div_rounds i t a Nt Ha) as (_ & _ & Ra & Wa).
  destruct (int_sub_rounds 1 a b Hb) as (Sb & Mb & Rb & Wb).
  destruct (times_100_rounds b c ltac:(lia) Hc) as (Sc & Mc & Rc & Wc).
  change (inject_Z 1) with 1%Q in *.
  set (q := (inject_Z i / inject_Z t)%Q) in *.
  assert (0 < inject_Z t)%Q as PT by (change 0%Q with (inject_Z 0); rewrite <- Zlt_Qlt; lia).
  assert (0 <= q)%Q as Q0 by (apply frac_nonneg; lia).
  assert (q <= 1)%Q as Q1 by (apply Qle_shift_div_r; [exact PT|rewrite Qmult_1_l, <- Zle_Qle; lia]).
  pose proof (rounds_le _ _ _ Ra double_1 Q1) as A1. pose proof (rounds_ge _ _ _ Ra double_0 Q0) as A0.
  pose proof (rounds_le _ _ _ Rb double_1 ltac:(lra)) as B1. pose proof (rounds_ge _ _ _ Rb double_0 ltac:(lra)) as B0.
  pose proof (rounds_le _ _ _ Rc double_100 ltac:(lra)) as C1. pose proof (rounds_ge _ _ _ Rc double_0 ltac:(lra)) as C0.
  destruct (within_abs _ _ 1 Wa Q0 Q1) as [E1 E2].
  destruct (within_abs _ _ 1 Wb ltac:(lra) ltac:(lra)) as [E3 E4].
  destruct (within_abs _ _ 100 Wc ltac:(lra) ltac:(lra)) as [E5 E6].
  pose proof (usage_text_unique _ _ _ _ U (usage_line_spec i t RG Nt)) as ->.
  destruct (hundredths_spec c ltac:(lia)) as (w & x & y & P & _ & F & _ & V & _).
  exists w, x, y. split; [|split; [exact F|]].
  - unfold usage_line, percent_2. rewrite Ha, Hb, Hc. unfold fixed_2. rewrite Sc, P.
    destruct (d_neg b) eqn:D; [exfalso; apply proj1 in Sb; specialize (Sb eq_refl); lra|]. cbn [app]. rewrite <- !app_assoc. reflexivity.
  - cbv zeta in V. rewrite (Qabs_pos _ C0) in V. apply Qabs_Qle_condition in V. apply Qabs_bounds; lra.
Qed.

(** ** Order *)

Lemma rounds_mono q r x y : rounds_to q x -> rounds_to r y -> (q <= r)%Q -> (x <= y)%Q.
Proof.
  intros [Dx Rx] [Dy Ry] H. destruct (Qlt_le_dec y x) as [L|L]; [|exact L]. exfalso.
  assert (~ (y == x)%Q) as N1 by (intros E; lra). assert (~ (x == y)%Q) as N2 by (intros E; lra).
  destruct (Rx y Dy N1) as [K|[K [E1 E2]]]; destruct (Ry x Dx N2) as [K'|[K' [E1' E2']]];
    try (revert K K'; repeat (apply Qabs_case; intros ?); intros; lra).
  contradiction.
Qed.

Lemma nearest_mono v w c d : (c <= d)%Q ->
  (Qabs ((v # 100) - c) <= 1 # 200)%Q -> ((Qabs ((v # 100) - c) == 1 # 200)%Q -> Z.even v = true) ->
  (Qabs ((w # 100) - d) <= 1 # 200)%Q -> ((Qabs ((w # 100) - d) == 1 # 200)%Q -> Z.even w = true) -> v <= w.
Proof.
  intros H H1 H2 H3 H4. destruct (Z_le_gt_dec v w) as [L|L]; [exact L|exfalso].
  assert (forall z, (z # 100 == inject_Z z * (1 # 100))%Q) as E by (intros z; unfold Qeq; cbn; lia).
  rewrite (E v) in *. rewrite (E w) in *. clear E.
  assert (inject_Z w + 1 <= inject_Z v)%Q as K.
  { change 1%Q with (inject_Z 1). rewrite <- inject_Z_plus, <- Zle_Qle. lia. }
  pose proof (Qle_Qabs (inject_Z v * (1 # 100) - c)) as A1.
  pose proof (Qle_Qabs (- (inject_Z w * (1 # 100) - d))) as A2. rewrite Qabs_opp in A2.
  set (x := Qabs (inject_Z v * (1 # 100) - c)) in *. set (y := Qabs (inject_Z w * (1 # 100) - d)) in *. clearbody x y.
  assert (inject_Z v == inject_Z w + 1)%Q as EQ by lra.
  assert (x == 1 # 200)%Q as X by lra. assert (y == 1 # 200)%Q as Y by lra.
  specialize (H2 X). specialize (H4 Y). change 1%Q with (inject_Z 1) in EQ. rewrite <- inject_Z_plus, inject_Z_injective in EQ.
  subst v. rewrite Z.add_1_r, Z.even_succ, <- Z.negb_even, H4 in H2. discriminate H2.
Qed.

(** A line and the number it shows: the nearest of the multiples of 1/100. *)
Lemma usage_shown i t s : usage_text i t s -> exists a b c w v,
  rounds_to (inject_Z i / inject_Z t) a /\ rounds_to (1 - a) b /\ rounds_to (100 * b) c /\ shown_value s v /\
  0 <= w /\ (Qabs ((w # 100) - Qabs c) <= 1 # 200)%Q /\ ((Qabs ((w # 100) - Qabs c) == 1 # 200)%Q -> Z.even w = true) /\
  ((v == (w # 100))%Q /\ (0 <= 1 - a)%Q \/ (v == - (w # 100))%Q /\ (1 - a < 0)%Q).
Proof.
  intros (a & b & c & p & A & B & C & (k & x & y & -> & N & F & _ & V1 & V2) & S). cbv zeta in V1, V2.
  set (w := digits_value (k ++ [x; y])) in *.
  assert (0 <= w) as W by (apply digits_value_bound; exact F).
  destruct S as [[-> S]|[-> S]].
  - exists a, b, c, w, (w # 100)%Q. refine (conj A (conj B (conj C (conj _ (conj W (conj V1 (conj V2 _))))))).
    + exists false, k, x, y. cbn [app]. rewrite <- !app_assoc. split; [reflexivity|]. split; [exact N|]. split; [exact F|]. fold w. ring.
    + left. split; [reflexivity|exact S].
  - exists a, b, c, w, (- (w # 100))%Q. refine (conj A (conj B (conj C (conj _ (conj W (conj V1 (conj V2 _))))))).
    + exists true, k, x, y. cbn [app]. rewrite <- !app_assoc. split; [reflexivity|]. split; [exact N|]. split; [exact F|]. fold w. ring.
    + right. split; [reflexivity|exact S].
Qed.

Lemma w_nonneg w : 0 <= w -> (0 <= (w # 100))%Q.
Proof. intros H. unfold Qle. cbn. lia. Qed.

Lemma usage_mono i t i' t' s s' : usage_text i t s -> usage_text i' t' s' ->
  (inject_Z i / inject_Z t <= inject_Z i' / inject_Z t')%Q ->
  exists v v', shown_value s v /\ shown_value s' v' /\ (v' <= v)%Q.
Proof.
  intros U U' H.
  destruct (usage_shown i t s U) as (a & b & c & w & v & A & B & C & SV & W & V1 & V2 & S).
  destruct (usage_shown i' t' s' U') as (a' & b' & c' & w' & v' & A' & B' & C' & SV' & W' & V1' & V2' & S').
  exists v, v'. split; [exact SV|]. split; [exact SV'|].
  pose proof (rounds_mono _ _ _ _ A A' H) as Ha.
  pose proof (rounds_mono _ _ _ _ B' B ltac:(lra)) as Hb.
  pose proof (rounds_mono _ _ _ _ C' C ltac:(lra)) as Hc.
  pose proof (w_nonneg w W) as P. pose proof (w_nonneg w' W') as P'.
  assert (Z : forall x y z, rounds_to (1 - x) y -> rounds_to (100 * y) z ->
    ((0 <= 1 - x -> 0 <= z) /\ (1 - x < 0 -> z <= 0))%Q).
  { intros x y z R1 R2. split; intros X.
    - apply (rounds_ge _ _ _ R2 double_0). pose proof (rounds_ge _ _ _ R1 double_0 X). lra.
    - apply (rounds_le _ _ _ R2 double_0). pose proof (rounds_le _ _ _ R1 double_0 ltac:(lra)). lra. }
  destruct (Z _ _ _ B C) as [Z1 Z2]. destruct (Z _ _ _ B' C') as [Z1' Z2']. clear Z.
  assert (L : forall x y, x <= y -> ((x # 100) <= (y # 100))%Q) by (intros x y X; unfold Qle; cbn; lia).
  destruct S as [[Ev S]|[Ev S]]; destruct S' as [[Ev' S']|[Ev' S']].
  - rewrite Ev, Ev'. apply L. apply (nearest_mono w' w (Qabs c') (Qabs c)); auto.
    rewrite (Qabs_pos c (Z1 S)), (Qabs_pos c' (Z1' S')). exact Hc.
  - rewrite Ev, Ev'. lra.
  - exfalso. lra.
  - rewrite Ev, Ev'. assert ((w # 100) <= (w' # 100))%Q; [|lra]. apply L.
    apply (nearest_mono w w' (Qabs c) (Qabs c')); auto.
    rewrite (Qabs_neg c (Z2 S)), (Qabs_neg c' (Z2' S')). lra.
Qed.

Lemma shown_unique s v v' : shown_value s v -> shown_value s v' -> (v == v')%Q.
Proof.
  intros (m & w & x & y & -> & N & F & E) (m' & w' & x' & y' & E2 & N' & F' & E').
  apply app_inv_head in E2.
  assert (D : forall l z, l <> [] -> forallb is_digit (l ++ z) = true -> hd 0 l <> 45).
  { intros [|d l] z Nl Fl; [congruence|]. cbn in Fl. apply andb_prop in Fl as [Fl _]. unfold is_digit in Fl. cbn [hd]. lia. }
  pose proof (D w _ N F) as H. pose proof (D w' _ N' F') as H'.
  assert (m = m' /\ w ++ [46; x; y] ++ text "%" = w' ++ [46; x'; y'] ++ text "%") as [<- E3].
  { destruct m, m'; cbn [app] in E2.
    - injection E2 as E2. auto.
    - destruct w' as [|d w']; [congruence|]. cbn [app] in E2. injection E2 as <- _. cbn in H'. congruence.
    - destruct w as [|d w]; [congruence|]. cbn [app] in E2. injection E2 as -> _. cbn in H. congruence.
    - auto. }
  assert (w = w' /\ [46; x; y] ++ text "%" = [46; x'; y'] ++ text "%") as [<- E4].
  { assert (List.length w = List.length w') as LN.
    { apply (f_equal (@List.length Z)) in E3. rewrite !app_length in E3. cbn [List.length app] in E3. lia. }
    clear - LN E3. revert w' LN E3. induction w as [|d w IH]; intros [|d' w'] LN E3; try discriminate LN; [auto|].
    cbn [app] in E3. injection E3 as -> E3. injection LN as LN. destruct (IH w' LN E3) as [-> E4]. auto. }
  injection E4 as <- <-. rewrite E, E'. reflexivity.
Qed.
