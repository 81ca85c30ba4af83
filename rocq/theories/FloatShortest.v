(** * float.__repr__ of a c_float has as few digits as possible *)
From Coq Require Import List ZArith Lia Bool String QArith Qabs Qpower Lqa.
From Coq Require Import ZifyBool.
From Verif Require Import PyBase Model Parsers Json FloatRepr Spec SpecDict SpecJson SpecFloat SpecShortest BaseProofs JsonProofs FloatProofs FloatText.
Import ListNotations.
Local Open Scope list_scope.
Local Open Scope Z_scope.

(** ** Powers of ten *)

Lemma dec_le m n k : (dec_q m k <= dec_q n k)%Q <-> m <= n.
Proof. unfold dec_q. rewrite Qmult_le_r by apply ten_pos. rewrite Zle_Qle. reflexivity. Qed.
Lemma dec_lt m n k : (dec_q m k < dec_q n k)%Q <-> m < n.
Proof. unfold dec_q. rewrite Qmult_lt_r by apply ten_pos. rewrite Zlt_Qlt. reflexivity. Qed.
Lemma dec_lower d k j : j <= k -> (dec_q d k == dec_q (d * 10 ^ (k - j)) j)%Q.
Proof. intros H. rewrite <- (dec_shift d k (k - j)) by lia. replace (k - (k - j)) with j by lia. reflexivity. Qed.
Lemma dec_pow_lt a b : (dec_q 1 a < dec_q 1 b)%Q -> a < b.
Proof.
  intros H. destruct (Z_lt_le_dec a b) as [L|L]; [exact L|exfalso].
  rewrite (dec_lower 1 a b L) in H. apply dec_lt in H. pose proof (Z.pow_pos_nonneg 10 (a - b)). lia.
Qed.
Lemma dec_pow n k : 0 <= n -> (dec_q (10 ^ n) k == dec_q 1 (k + n))%Q.
Proof. intros H. rewrite (dec_lower 1 (k + n) k) by lia. replace (k + n - k) with n by lia. rewrite Z.mul_1_l. reflexivity. Qed.

(** ** Digits *)

Lemma digits_value_bound s : forallb is_digit s = true -> 0 <= digits_value s < 10 ^ zlen s.
Proof.
  induction s as [|c s IH]; intros F; [split; [discriminate|reflexivity]|].
  cbn [forallb] in F. apply andb_prop in F as [Fc F]. specialize (IH F).
  change (c :: s) with ([c] ++ s). rewrite digits_value_app. change (digits_value [c]) with (c - 48).
  rewrite zlen_app. change (zlen [c]) with 1. pose proof (zlen_nonneg s). rewrite Z.pow_add_r by lia. change (10 ^ 1) with 10.
  unfold is_digit in Fc. nia.
Qed.
Lemma digits_value_lead c s : forallb is_digit (c :: s) = true -> c <> 48 -> 10 ^ zlen s <= digits_value (c :: s).
Proof.
  intros F N. cbn [forallb] in F. apply andb_prop in F as [Fc F]. pose proof (digits_value_bound s F).
  change (c :: s) with ([c] ++ s). rewrite digits_value_app. change (digits_value [c]) with (c - 48). unfold is_digit in Fc. nia.
Qed.
Lemma digits_len z : 0 < z -> 1 <= zlen (digits_of z) /\ 10 ^ (zlen (digits_of z) - 1) <= z < 10 ^ zlen (digits_of z).
Proof.
  intros H. destruct (digits_of_pos z H) as (c & s & -> & F & N & V).
  pose proof (digits_value_lead c s F N). pose proof (digits_value_bound _ F). rewrite zlen_cons in *. pose proof (zlen_nonneg s).
  replace (1 + zlen s - 1) with (zlen s) by lia. lia.
Qed.

(** ** The decimal exponent *)

Lemma exponent10_spec M G : 0 < M ->
  (dec_q 1 (exponent10 M G) <= bin_q (4 * M) G)%Q /\ (bin_q (4 * M) G < dec_q 1 (exponent10 M G + 1))%Q.
Proof.
  intros HM. unfold exponent10. set (a := Z.max 0 (- G)). set (num := 4 * M * 2 ^ Z.max 0 G). set (den := 2 ^ a).
  assert (0 < den) as Hd by (apply Z.pow_pos_nonneg; lia).
  assert (0 < num) as Hn by (unfold num; pose proof (Z.pow_pos_nonneg 2 (Z.max 0 G)); lia).
  assert (bin_q (4 * M) G * inject_Z den == inject_Z num)%Q as EX.
  { unfold den, num, bin_q. rewrite !inject_Z_mult, !Zpower_Qpower by lia. change (inject_Z 2) with (2 # 1).
    replace (Z.max 0 G) with (G + a) by lia. rewrite Qpower_plus by apply two_nz. ring. }
  assert (0 < inject_Z den)%Q as Qd by (rewrite Zlt_Qlt in Hd; exact Hd).
  assert (forall j, 0 <= j -> 10 ^ j * den <= num -> (dec_q 1 j <= bin_q (4 * M) G)%Q) as A1.
  { intros j Hj H. apply (Qmult_le_r _ _ _ Qd). rewrite EX. rewrite Zle_Qle, inject_Z_mult, Zpower_Qpower in H by lia.
    unfold dec_q. change (inject_Z 1) with 1%Q. rewrite Qmult_1_l. exact H. }
  assert (forall j, 0 <= j -> num < 10 ^ j * den -> (bin_q (4 * M) G < dec_q 1 j)%Q) as A2.
  { intros j Hj H. apply (Qmult_lt_r _ _ _ Qd). rewrite EX. rewrite Zlt_Qlt, inject_Z_mult, Zpower_Qpower in H by lia.
    unfold dec_q. change (inject_Z 1) with 1%Q. rewrite Qmult_1_l. exact H. }
  assert (forall j, 0 <= j -> den <= num * 10 ^ j -> (dec_q 1 (- j) <= bin_q (4 * M) G)%Q) as A3.
  { intros j Hj H. apply (Qmult_le_r _ _ _ Qd). rewrite EX. apply (Qmult_le_r _ _ _ (ten_pos j)).
    rewrite Zle_Qle, inject_Z_mult, Zpower_Qpower in H by lia. change (inject_Z 10) with (10 # 1) in H.
    assert (dec_q 1 (- j) * inject_Z den * (10 # 1) ^ j == inject_Z den)%Q as ->; [|exact H].
    unfold dec_q. change (inject_Z 1) with 1%Q. rewrite Qpower_opp. field. apply Qpower_not_0. discriminate. }
  assert (forall j, 0 <= j -> num * 10 ^ j < den -> (bin_q (4 * M) G < dec_q 1 (- j))%Q) as A4.
  { intros j Hj H. apply (Qmult_lt_r _ _ _ Qd). rewrite EX. apply (Qmult_lt_r _ _ _ (ten_pos j)).
    rewrite Zlt_Qlt, inject_Z_mult, Zpower_Qpower in H by lia. change (inject_Z 10) with (10 # 1) in H.
    assert (dec_q 1 (- j) * inject_Z den * (10 # 1) ^ j == inject_Z den)%Q as ->; [|exact H].
    unfold dec_q. change (inject_Z 1) with 1%Q. rewrite Qpower_opp. field. apply Qpower_not_0. discriminate. }
  destruct (Z.leb_spec den num) as [L|L].
  - assert (1 <= num / den) as Q1 by (apply Z.div_le_lower_bound; lia).
    destruct (digits_len (num / den) ltac:(lia)) as (L1 & L2 & L3).
    pose proof (Z.div_mod num den ltac:(lia)). pose proof (Z.mod_pos_bound num den Hd).
    set (l := zlen (digits_of (num / den))) in *. split; [apply A1; [lia|nia]|].
    replace (l - 1 + 1) with l by lia. apply A2; [lia|nia].
  - assert (1 <= (den - 1) / num) as Q1 by (apply Z.div_le_lower_bound; lia).
    destruct (digits_len ((den - 1) / num) ltac:(lia)) as (L1 & L2 & L3).
    pose proof (Z.div_mod (den - 1) num ltac:(lia)). pose proof (Z.mod_pos_bound (den - 1) num Hn).
    set (l := zlen (digits_of ((den - 1) / num))) in *. split; [apply A3; [lia|nia]|].
    replace (- l + 1) with (- (l - 1)) by lia. apply A4; [lia|nia].
Qed.

(** ** The attempts *)

Section Attempts.
Variables (M G : Z).
Hypothesis HM : 2 ^ 52 <= M < 2 ^ 53.

Let X : Q := bin_q (4 * M) G.
Definition inside (v : Q) : Prop := (bin_q (4 * M - gap M) G <= v)%Q /\ (v <= bin_q (4 * M + 2) G)%Q.

(** The interval contains everything that is read as the double. *)
Lemma rounds_inside q : Z.even M = true -> -1000 <= G <= 900 -> rounds_to q X -> inside q.
Proof using HM.
  intros Heven HG (_ & R).
  assert (gap M = 1 /\ M = 2 ^ 52 \/ gap M = 2 /\ M <> 2 ^ 52) as Hg by (unfold gap; destruct (Z.eqb_spec M (2 ^ 52)); lia).
  assert (is_double (bin_q (4 * M + 4) G)) as D1.
  { destruct (Z.eq_dec M (2 ^ 53 - 1)) as [E|D]; [rewrite E in Heven; discriminate Heven|].
    exists (M + 1), (G + 2). split; [lia|]. split; [lia|].
    rewrite <- (bin_shift (M + 1) (G + 2) 2) by lia. replace (G + 2 - 2) with G by lia. apply bin_eq. lia. }
  assert (is_double (bin_q (4 * M - 2 * gap M) G)) as D2.
  { destruct Hg as [[-> EM]|[-> NM]].
    - exists (2 ^ 53 - 1), (G + 1). split; [lia|]. split; [lia|].
      rewrite <- (bin_shift (2 ^ 53 - 1) (G + 1) 1) by lia. replace (G + 1 - 1) with G by lia. apply bin_eq. lia.
    - exists (M - 1), (G + 2). split; [lia|]. split; [lia|].
      rewrite <- (bin_shift (M - 1) (G + 2) 2) by lia. replace (G + 2 - 2) with G by lia. apply bin_eq. lia. }
  assert (forall y, is_double y -> ~ (y == X)%Q -> (Qabs (q - X) <= Qabs (q - y))%Q) as K.
  { intros y Hy N. destruct (R y Hy N) as [L|[L _]]; [apply Qlt_le_weak, L|rewrite L; apply Qle_refl]. }
  pose proof (K _ D1 ltac:(unfold X; rewrite bin_eq; lia)) as K1. pose proof (K _ D2 ltac:(unfold X; rewrite bin_eq; lia)) as K2.
  assert (forall a b, (bin_q (a + b) G == bin_q a G + inject_Z b * bin_q 1 G)%Q) as P.
  { intros a b. rewrite (bin_lin (a + b)), (bin_lin a), inject_Z_plus. ring. }
  pose proof (bin_pos 1 G ltac:(lia)) as U. unfold inside. unfold Z.sub in *. rewrite !P in *.
  assert (inject_Z (- gap M) == - inject_Z (gap M))%Q as I1 by (rewrite inject_Z_opp; reflexivity).
  assert (inject_Z (- (2 * gap M)) == - (inject_Z 2 * inject_Z (gap M)))%Q as I2 by (rewrite inject_Z_opp, inject_Z_mult; reflexivity).
  rewrite I1. rewrite I2 in K2. clear I1 I2. change (inject_Z 2) with 2%Q in *. change (inject_Z 4) with 4%Q in *.
  unfold X in K1, K2. set (x := bin_q (4 * M) G) in *. set (u := bin_q 1 G) in *.
  assert (1 <= inject_Z (gap M) /\ inject_Z (gap M) <= 2)%Q as G12.
  { destruct Hg as [[-> _]|[-> _]]; split; discriminate. }
  set (g := inject_Z (gap M)) in *. clear K P D1 D2 R Hg. clearbody g u x.
  assert (0 <= (g - 1) * u /\ 0 <= (2 - g) * u)%Q as GU by (split; apply Qmult_le_0_compat; lra).
  set (gu := (g * u)%Q) in *.
  assert (-g * u == - gu)%Q as -> by (unfold gu; ring).
  assert (- (2 * g) * u == - (2 * gu))%Q as E2 by (unfold gu; ring). rewrite E2 in K2.
  assert (u <= gu /\ gu <= 2 * u)%Q as GU2 by (unfold gu; lra). clearbody gu. clear E2 GU.
  revert K1 K2. apply (Qabs_case (q - x)); intros A1; apply (Qabs_case (q - (x + 4 * u))); intros A2;
    apply (Qabs_case (q - (x + - (2 * gu)))); intros A3 K1 K2; split; lra.
Qed.

(** Scaled to integers, as [attempt] does. *)
Lemma scaled_dec k D : let a := Z.max 0 (- G) in let b := Z.max 0 (- k) in
  (dec_q D k * ((2 # 1) ^ a * (10 # 1) ^ b) == inject_Z (D * (10 ^ (k + b) * 2 ^ a)))%Q.
Proof using HM.
  intros a b. unfold dec_q. rewrite !inject_Z_mult, !Zpower_Qpower by lia. change (inject_Z 2) with (2 # 1). change (inject_Z 10) with (10 # 1).
  rewrite Qpower_plus by apply ten_nz. ring.
Qed.
Lemma scaled_bin k m : let a := Z.max 0 (- G) in let b := Z.max 0 (- k) in
  (bin_q m G * ((2 # 1) ^ a * (10 # 1) ^ b) == inject_Z (m * (2 ^ (G + a) * 10 ^ b)))%Q.
Proof using HM.
  intros a b. unfold bin_q. rewrite !inject_Z_mult, !Zpower_Qpower by lia. change (inject_Z 2) with (2 # 1). change (inject_Z 10) with (10 # 1).
  rewrite Qpower_plus by apply two_nz. ring.
Qed.

Lemma attempt_best k D : inside (dec_q D k) ->
  exists d, attempt M G k = Some d /\ (Qabs (dec_q d k - X) <= Qabs (dec_q D k - X))%Q.
Proof using HM.
  unfold inside, attempt. fold (gap M). pose proof (scaled_dec k) as SD. pose proof (scaled_bin k) as SB. cbv zeta in SD, SB.
  set (a := Z.max 0 (- G)) in *. set (b := Z.max 0 (- k)) in *.
  set (u := 2 ^ (G + a) * 10 ^ b) in *. set (q := 10 ^ (k + b) * 2 ^ a) in *.
  assert (0 < q) as Hq by (unfold q; apply Z.mul_pos_pos; apply Z.pow_pos_nonneg; lia).
  assert (0 < u) as Hu by (unfold u; apply Z.mul_pos_pos; apply Z.pow_pos_nonneg; lia).
  assert (0 < (2 # 1) ^ a * (10 # 1) ^ b)%Q as S by (apply Qmult_lt_0_compat; [apply two_pos|apply ten_pos]).
  set (sc := ((2 # 1) ^ a * (10 # 1) ^ b)%Q) in *. clearbody sc.
  intros [Lo Hi]. apply (Qmult_le_r _ _ _ S) in Lo, Hi. rewrite SB, SD, <- Zle_Qle in Lo, Hi.
  assert (forall d, Z.abs (d * q - 4 * M * u) <= Z.abs (D * q - 4 * M * u) -> (Qabs (dec_q d k - X) <= Qabs (dec_q D k - X))%Q) as C.
  { assert (forall d, (Qabs (dec_q d k - X) * sc == inject_Z (Z.abs (d * q - 4 * M * u)))%Q) as A.
    { intros d. rewrite <- (Qabs_pos sc) at 1 by (apply Qlt_le_weak, S). rewrite <- Qabs_Qmult.
      assert ((dec_q d k - X) * sc == inject_Z (d * q - 4 * M * u))%Q as ->; [|reflexivity].
      unfold Z.sub. rewrite inject_Z_plus, inject_Z_opp, <- SD, <- SB. unfold X. ring. }
    intros d H. apply (Qmult_le_r _ _ _ S). rewrite !A, <- Zle_Qle. exact H. }
  set (x := 4 * M * u) in *. pose proof (Z.div_mod x q ltac:(lia)) as DM. pose proof (Z.mod_pos_bound x q Hq) as MB.
  set (dd := x / q) in *. set (r := x mod q) in *.
  assert (gap M = 1 \/ gap M = 2) as Hgap by (unfold gap; destruct (M =? 2 ^ 52); lia).
  assert (x - gap M * u <= D * q) as Lo' by (unfold x; nia). assert (D * q <= x + 2 * u) as Hi' by (unfold x; nia).
  assert (D <= dd \/ dd + 1 <= D) as Cases by lia.
  assert (D <= dd -> D * q <= dd * q) as W1 by nia. assert (dd + 1 <= D -> (dd + 1) * q <= D * q) as W2 by nia.
  assert ((dd + 1) * q = dd * q + q) as W3 by lia. assert (q * dd = dd * q) as W4 by lia.
  destruct (Z.leb_spec (x - gap M * u) (dd * q)) as [L1|L1]; destruct (Z.leb_spec ((dd + 1) * q) (x + 2 * u)) as [L2|L2]; cbn [andb].
  - eexists. split; [reflexivity|]. apply C.
    destruct (Z.ltb_spec (2 * r) q); [lia|]. destruct (Z.ltb_spec q (2 * r)); [lia|].
    pose proof (Z.mod_pos_bound dd 2 ltac:(lia)). assert (dd mod 2 = 0 \/ dd mod 2 = 1) as [-> | ->] by lia.
    + rewrite Z.add_0_r. lia.
    + lia.
  - eexists. split; [reflexivity|]. apply C. lia.
  - eexists. split; [reflexivity|]. apply C. lia.
  - exfalso. lia.
Qed.

(** What is found is the next multiple below or above. *)
Lemma attempt_near k d : attempt M G k = Some d -> (dec_q (d - 1) k <= X)%Q.
Proof using HM.
  unfold attempt. fold (gap M). pose proof (scaled_dec k) as SD. pose proof (scaled_bin k) as SB. cbv zeta in SD, SB.
  set (a := Z.max 0 (- G)) in *. set (b := Z.max 0 (- k)) in *.
  set (u := 2 ^ (G + a) * 10 ^ b) in *. set (q := 10 ^ (k + b) * 2 ^ a) in *.
  assert (0 < q) as Hq by (unfold q; apply Z.mul_pos_pos; apply Z.pow_pos_nonneg; lia).
  assert (0 < (2 # 1) ^ a * (10 # 1) ^ b)%Q as S by (apply Qmult_lt_0_compat; [apply two_pos|apply ten_pos]).
  set (sc := ((2 # 1) ^ a * (10 # 1) ^ b)%Q) in *. clearbody sc.
  set (x := 4 * M * u) in *. pose proof (Z.div_mod x q ltac:(lia)) as DM. pose proof (Z.mod_pos_bound x q Hq) as MB.
  set (dd := x / q) in *. set (r := x mod q) in *. intros E.
  assert (d <= dd + 1) as Hd.
  { pose proof (Z.mod_pos_bound dd 2 ltac:(lia)).
    destruct (x - gap M * u <=? dd * q), ((dd + 1) * q <=? x + 2 * u); cbn [andb] in E; try discriminate E; injection E as <-; try lia.
    destruct (2 * r <? q); [lia|]. destruct (q <? 2 * r); lia. }
  apply (Qmult_le_r _ _ _ S). unfold X. rewrite SD, SB, <- Zle_Qle. fold x. nia.
Qed.

(** 17 digits are enough. *)
Lemma seventeen p : (dec_q 1 p <= X)%Q -> exists D, inside (dec_q D (p + 1 - 17)).
Proof using HM.
  intros Hp. set (k := p + 1 - 17). unfold inside. pose proof (scaled_dec k) as SD. pose proof (scaled_bin k) as SB. cbv zeta in SD, SB.
  set (a := Z.max 0 (- G)) in *. set (b := Z.max 0 (- k)) in *.
  set (u := 2 ^ (G + a) * 10 ^ b) in *. set (q := 10 ^ (k + b) * 2 ^ a) in *.
  assert (0 < q) as Hq by (unfold q; apply Z.mul_pos_pos; apply Z.pow_pos_nonneg; lia).
  assert (0 < u) as Hu by (unfold u; apply Z.mul_pos_pos; apply Z.pow_pos_nonneg; lia).
  assert (0 < (2 # 1) ^ a * (10 # 1) ^ b)%Q as S by (apply Qmult_lt_0_compat; [apply two_pos|apply ten_pos]).
  set (sc := ((2 # 1) ^ a * (10 # 1) ^ b)%Q) in *. clearbody sc.
  rewrite (dec_lower 1 p k) in Hp by (unfold k; lia). replace (p - k) with 16 in Hp by (unfold k; lia).
  apply (Qmult_le_r _ _ _ S) in Hp. unfold X in Hp. rewrite SD, SB, <- Zle_Qle in Hp.
  assert (gap M = 1 /\ M = 2 ^ 52 \/ gap M = 2) as Hg by (unfold gap; destruct (Z.eqb_spec M (2 ^ 52)); lia).
  assert (q <= (gap M + 2) * u) as Hw.
  { change (1 * 10 ^ 16) with 10000000000000000 in Hp. change (2 ^ 52) with 4503599627370496 in *. change (2 ^ 53) with 9007199254740992 in *.
    clearbody q u. destruct Hg as [[-> ->]|Hg]; [lia|]. rewrite Hg. nia. }
  set (hi := (4 * M + 2) * u). pose proof (Z.div_mod hi q ltac:(lia)). pose proof (Z.mod_pos_bound hi q Hq).
  exists (hi / q). split; apply (Qmult_le_r _ _ _ S); rewrite SD, SB, <- Zle_Qle; [|fold hi; nia].
  assert ((4 * M - gap M) * u = hi - (gap M + 2) * u) as -> by (unfold hi; lia). nia.
Qed.

(** The first attempt that succeeds. *)
Lemma shortest_first fuel p n : 
  match shortest fuel M G p n with
  | Some (d, k) => exists n', n <= n' < n + Z.of_nat fuel /\ k = p + 1 - n' /\ attempt M G k = Some d /\
                     forall i, n <= i < n' -> attempt M G (p + 1 - i) = None
  | None => forall i, n <= i < n + Z.of_nat fuel -> attempt M G (p + 1 - i) = None
  end.
Proof using HM.
  revert n. induction fuel as [|fuel IH]; intros n; cbn [shortest]; [intros; lia|].
  destruct (attempt M G (p + 1 - n)) as [d|] eqn:E.
  - exists n. split; [lia|]. split; [reflexivity|]. split; [exact E|]. intros; lia.
  - specialize (IH (n + 1)). destruct (shortest fuel M G p (n + 1)) as [[d k]|].
    + destruct IH as (n' & L & -> & A & B). exists n'. split; [lia|]. split; [reflexivity|]. split; [exact A|].
      intros i Hi. destruct (Z.eq_dec i n) as [->|]; [exact E|apply B; lia].
    + intros i Hi. destruct (Z.eq_dec i n) as [->|]; [exact E|apply IH; lia].
Qed.

(** A decimal of [n] digits in the interval gives one among the candidates of at most [n] digits. *)
Lemma few_digits p D K n : (dec_q 1 p <= X)%Q -> D < 10 ^ n -> 0 <= n -> inside (dec_q D K) ->
  exists n' D', 1 <= n' <= n /\ inside (dec_q D' (p + 1 - n')) /\
    (Qabs (dec_q D' (p + 1 - n') - X) <= Qabs (dec_q D K - X))%Q.
Proof using HM.
  intros Hp HD Hn [Lo Hi].
  assert (gap M = 1 \/ gap M = 2) as Hgap by (unfold gap; destruct (M =? 2 ^ 52); lia).
  change (2 ^ 52) with 4503599627370496 in *. change (2 ^ 53) with 9007199254740992 in *.
  assert (0 < D) as D0.
  { pose proof (bin_pos (4 * M - gap M) G ltac:(lia)) as P. apply (dec_lt 0 D K).
    assert (dec_q 0 K == 0)%Q as -> by (unfold dec_q; change (inject_Z 0) with 0%Q; ring). eapply Qlt_le_trans; eassumption. }
  assert (1 <= n) as N1 by (destruct (Z.eq_dec n 0) as [->|]; [change (10 ^ 0) with 1 in HD; lia|lia]).
  destruct (Qlt_le_dec (dec_q D K) (dec_q 1 p)) as [L|L].
  - exists 1, 1. replace (p + 1 - 1) with p by lia. split; [lia|]. split.
    + split; [apply Qlt_le_weak; eapply Qle_lt_trans; eassumption|]. eapply Qle_trans; [exact Hp|]. apply bin_le. lia.
    + apply (Qabs_case (dec_q 1 p - X)); intros A; apply (Qabs_case (dec_q D K - X)); intros B; lra.
  - assert (p < K + n) as Hk.
    { apply dec_pow_lt. eapply Qle_lt_trans; [exact L|]. rewrite <- dec_pow by lia. apply dec_lt. exact HD. }
    pose proof (dec_lower D K (p + 1 - n) ltac:(lia)) as E.
    exists n, (D * 10 ^ (K - (p + 1 - n))). split; [lia|]. split; [split; rewrite <- E; assumption|].
    rewrite <- E. apply Qle_refl.
Qed.
End Attempts.

(** ** The decimal chosen *)

Lemma shortest_decimal_best m e d k : 0 < m < 2 ^ 24 -> -149 <= e <= 104 -> shortest_decimal m e = (d, k) ->
  exists n, 1 <= n <= 17 /\ 0 < d <= 10 ^ n /\
    forall D K i, D < 10 ^ i -> 0 <= i -> rounds_to (dec_q D K) (bin_q m e) ->
      n <= i /\ (i = n -> (Qabs (dec_q d k - bin_q m e) <= Qabs (dec_q D K - bin_q m e))%Q).
Proof.
  intros Hm He H. pose proof (shortest_decimal_reads m e d k Hm He H) as [Hd _]. unfold shortest_decimal in H.
  assert (0 <= Z.log2 m < 24) as Hl.
  { split; [apply Z.log2_nonneg|]. apply Z.log2_lt_pow2; lia. }
  pose proof (Z.log2_spec m ltac:(lia)) as Hs.
  set (s := 52 - Z.log2 m) in *. set (M := m * 2 ^ s) in *. set (G := e - s - 2) in *.
  assert (2 ^ 52 <= M < 2 ^ 53) as HM.
  { unfold M. replace (2 ^ 52) with (2 ^ Z.log2 m * 2 ^ s) by (rewrite <- Z.pow_add_r by lia; f_equal; lia).
    replace (2 ^ 53) with (2 ^ Z.succ (Z.log2 m) * 2 ^ s) by (rewrite <- Z.pow_add_r by lia; f_equal; lia).
    pose proof (Z.pow_pos_nonneg 2 s ltac:(lia) ltac:(lia)). nia. }
  assert (Z.even M = true) as Hev.
  { unfold M. replace s with (1 + (s - 1)) by lia. rewrite Z.pow_add_r by lia. change (2 ^ 1) with 2.
    rewrite !Z.even_mul. cbn [Z.even orb]. apply orb_true_r. }
  assert (bin_q (4 * M) G == bin_q m e)%Q as EX.
  { rewrite <- (bin_shift m e (s + 2)) by lia. replace (e - (s + 2)) with G by lia. apply bin_eq. unfold M.
    rewrite Z.pow_add_r by lia. change (2 ^ 2) with 4. lia. }
  assert (-1000 <= G <= 900) as HG by lia.
  assert (0 < M) as M0 by (change (2 ^ 52) with 4503599627370496 in HM; lia).
  destruct (exponent10_spec M G M0) as [P1 P2]. set (p := exponent10 M G) in *.
  pose proof (shortest_first M G HM 17 p 1) as F.
  destruct (shortest 17 M G p 1) as [[d0 k0]|] eqn:E.
  2:{ exfalso. destruct (seventeen M G HM p P1) as (D & HD). destruct (attempt_best M G HM _ D HD) as (d1 & A & _).
      rewrite (F 17 ltac:(lia)) in A. discriminate A. }
  injection H as -> ->. destruct F as (n & Hn & -> & A & B). exists n. split; [lia|]. split.
  { split; [exact Hd|]. pose proof (attempt_near M G HM _ d A) as N.
    assert (d - 1 < 10 ^ n); [|lia]. apply (dec_lt _ _ (p + 1 - n)). rewrite dec_pow by lia.
    replace (p + 1 - n + n) with (p + 1) by lia. eapply Qle_lt_trans; eassumption. }
  intros D K i HD Hi R.
  assert (inside M G (dec_q D K)) as I.
  { apply rounds_inside; try assumption. eapply rounds_to_eq; [reflexivity|symmetry; exact EX|exact R]. }
  destruct (few_digits M G HM p D K i P1 HD Hi I) as (n' & D' & Hn' & I' & C').
  assert (n <= n') as Le.
  { destruct (Z_lt_le_dec n' n) as [L|L]; [exfalso|exact L]. destruct (attempt_best M G HM _ D' I') as (d1 & A1 & _).
    rewrite (B n' ltac:(lia)) in A1. discriminate A1. }
  split; [lia|]. intros ->. assert (n' = n) as -> by lia.
  destruct (attempt_best M G HM _ D' I') as (d1 & A1 & C1). rewrite A in A1. injection A1 as <-.
  rewrite <- EX. eapply Qle_trans; eassumption.
Qed.

Lemma shortest_decimal_17 m e d k : 0 < m < 2 ^ 24 -> -149 <= e <= 104 -> shortest_decimal m e = (d, k) -> d <= 10 ^ 17.
Proof.
  intros Hm He H. destruct (shortest_decimal_best m e d k Hm He H) as (n & Hn & Hd & _).
  pose proof (Z.pow_le_mono_r 10 n 17 ltac:(lia) ltac:(lia)). lia.
Qed.

(** ** The text *)

Lemma take_digits_spec s : exists a b, take_digits s = (a, b) /\ forallb is_digit a = true.
Proof.
  induction s as [|c s (a & b & E & F)]; [exists [], []; auto|]. cbn [take_digits].
  destruct (is_digit c) eqn:Hc; [|exists [], (c :: s); auto]. rewrite E. exists (c :: a), b. cbn [forallb]. rewrite Hc. auto.
Qed.

Lemma trim_spec l : exists n, l = repeat 48 n ++ trim l.
Proof.
  induction l as [|c l (n & IH)]; [exists O; reflexivity|]. cbn [trim].
  destruct (Z.eqb_spec c 48) as [->|H]; [exists (S n); cbn [repeat app]; f_equal; exact IH|exists O; reflexivity].
Qed.
Lemma trim_zeros n l : trim (repeat 48 n ++ l) = trim l.
Proof. induction n as [|n IH]; [reflexivity|]. cbn [repeat app trim]. rewrite Z.eqb_refl. exact IH. Qed.
Lemma trim_le l : zlen (trim l) <= zlen l.
Proof.
  induction l as [|c l IH]; [apply Z.le_refl|]. cbn [trim]. destruct (c =? 48); [|apply Z.le_refl]. rewrite zlen_cons. lia.
Qed.
Lemma zlen_rev {A} (l : list A) : zlen (rev l) = zlen l.
Proof. unfold zlen. rewrite rev_length. reflexivity. Qed.
Lemma rev_zeros n : rev (repeat 48 n) = repeat 48 n.
Proof.
  induction n as [|n IH]; [reflexivity|]. cbn [repeat rev]. rewrite IH. clear.
  induction n as [|n IH]; [reflexivity|]. cbn [repeat app]. f_equal. exact IH.
Qed.

(** A text with [n] significant digits is a decimal of [n] digits. *)
Lemma unsigned_value_bound s : exists D K,
  0 <= D < 10 ^ zlen (trim (rev (trim (mantissa s)))) /\ (unsigned_value s == dec_q D K)%Q.
Proof.
  unfold unsigned_value, mantissa. destruct (take_digits_spec s) as (i & s1 & -> & Fi).
  set (fr := match s1 with c :: r => if c =? 46 then take_digits r else ([], s1) | [] => ([], []) end).
  assert (exists f s2, fr = (f, s2) /\ forallb is_digit f = true) as (f & s2 & -> & Ff).
  { unfold fr. destruct s1 as [|c r]; [exists [], []; auto|]. destruct (c =? 46); [apply take_digits_spec|]. exists [], (c :: r). auto. }
  set (l := i ++ f). assert (forallb is_digit l = true) as Fl by (unfold l; rewrite forallb_app, Fi; exact Ff).
  destruct (trim_spec l) as (a & El). destruct (trim_spec (rev (trim l))) as (b & Er).
  set (core := trim (rev (trim l))) in *.
  assert (trim l = rev core ++ repeat 48 b) as Et by (rewrite <- (rev_involutive (trim l)), Er, rev_app_distr, rev_zeros; reflexivity).
  rewrite Et in El.
  assert (forallb is_digit (rev core) = true) as Fc.
  { rewrite El, !forallb_app in Fl. apply andb_prop in Fl as [_ Fl]. apply andb_prop in Fl. tauto. }
  exists (digits_value (rev core)), (exponent_value s2 - zlen f + Z.of_nat b). split.
  - rewrite <- (zlen_rev core). apply digits_value_bound, Fc.
  - rewrite El, !digits_value_app, !digits_value_zeros, zlen_repeat. rewrite Z.add_0_r. cbn [Z.mul].
    rewrite (dec_lower _ (exponent_value s2 - zlen f + Z.of_nat b) (exponent_value s2 - zlen f)) by lia.
    match goal with |- (dec_q ?x _ == dec_q ?y _)%Q => replace x with y; [reflexivity|] end. rewrite Z.add_0_l. f_equal. f_equal. lia.
Qed.

Lemma number_value_unsigned t : (Qabs (number_value t) == Qabs (unsigned_value (unsigned t)))%Q.
Proof.
  destruct t as [|c r]; [reflexivity|]. cbn [number_value unsigned]. destruct (c =? 45); [apply Qabs_opp|reflexivity].
Qed.

(** The last of the stripped digits is not zero. *)
Lemma strip_zeros_last d : 0 < d -> digits_value (strip_zeros (digits_of d)) mod 10 <> 0.
Proof.
  intros Hd. destruct (stripped d Hd) as (c & s & j & E & F & _). rewrite E. intros Hm.
  assert (exists a x, strip_zeros (digits_of d) = a ++ [x] /\ x <> 48) as (a & x & Ea & Nx).
  { unfold strip_zeros in *. set (r := rev (digits_of d)) in *. clearbody r.
    assert (forall r, match drop_zeros r with [] => True | x :: _ => x <> 48 end) as K.
    { clear. induction r as [|y r IH]; [exact I|]. cbn [drop_zeros]. destruct (Z.eqb_spec y 48); [exact IH|assumption]. }
    specialize (K r). destruct (drop_zeros r) as [|x q]; [discriminate E|]. exists (rev q), x. auto. }
  rewrite E in Ea. rewrite Ea in *. rewrite digits_value_app in Hm. change (digits_value [x]) with (x - 48) in Hm.
  change (10 ^ zlen [x]) with 10 in Hm. rewrite forallb_app in F. apply andb_prop in F as [_ F]. cbn [forallb] in F. apply andb_prop in F as [F _].
  unfold is_digit in F. rewrite Z.add_comm, Z.mod_add, Z.mod_small in Hm by lia. lia.
Qed.

Lemma strip_len d n : 1 <= n -> 0 < d <= 10 ^ n -> zlen (strip_zeros (digits_of d)) <= n.
Proof.
  intros Hn [Hd Hle]. pose proof (strip_zeros_last d Hd) as Hm. destruct (stripped d Hd) as (c & s & j & E & F & N & Hj & V & _).
  rewrite E in *. pose proof (digits_value_lead c s F N) as B. rewrite zlen_cons in *.
  set (v := digits_value (c :: s)) in *. destruct (Z_le_gt_dec (1 + zlen s) n) as [L|L]; [exact L|exfalso].
  pose proof (Z.pow_le_mono_r 10 n (zlen s) ltac:(lia) ltac:(lia)). pose proof (Z.pow_pos_nonneg 10 j ltac:(lia) Hj).
  assert (v = 10 ^ n) as EV by nia. apply Hm. rewrite EV. replace n with (1 + (n - 1)) by lia. rewrite Z.pow_add_r by lia.
  change (10 ^ 1) with 10. rewrite Z.mul_comm. apply Z.mod_mul. lia.
Qed.

Lemma mantissa_form c s f e : forallb is_digit (c :: s) = true -> forallb is_digit f = true ->
  mantissa ((c :: s) ++ frac_text f ++ exp_text e) = (c :: s) ++ f.
Proof.
  intros Hi Hf. unfold mantissa.
  assert (not_digit_first (frac_text f ++ exp_text e)) as ND by (destruct f; [apply exp_first|reflexivity]).
  rewrite take_digits_app by assumption. destruct f as [|a f].
  - cbn [frac_text app]. destruct e as [[sg x]|]; reflexivity.
  - cbn [frac_text app]. rewrite Z.eqb_refl. change (a :: f ++ exp_text e) with ((a :: f) ++ exp_text e).
    rewrite take_digits_app by (exact Hf || apply exp_first). reflexivity.
Qed.

Lemma format_short_mantissa d k : 0 < d -> exists a b,
  mantissa (format_short d k) = repeat 48 a ++ strip_zeros (digits_of d) ++ repeat 48 b.
Proof.
  intros Hd. destruct (stripped d Hd) as (c & s & j & E & F & N & Hj & V & L).
  unfold format_short. rewrite E, L. set (decpt := zlen (c :: s) + j + k).
  pose proof (zlen_nonneg s) as Hs. assert (zlen (c :: s) = 1 + zlen s) as Lc by apply zlen_cons.
  destruct ((-4 <? decpt) && (decpt <=? 16)).
  - destruct (Z.leb_spec decpt 0) as [L0|L0].
    + exists (S (Z.to_nat (- decpt))), O.
      transitivity (mantissa ((48 :: []) ++ frac_text (repeat 48 (Z.to_nat (- decpt)) ++ c :: s) ++ exp_text None)).
      { f_equal. cbn [exp_text]. rewrite app_nil_r. destruct (Z.to_nat (- decpt)); reflexivity. }
      rewrite mantissa_form; [|reflexivity|rewrite forallb_app, digits_zeros; exact F]. cbn [repeat app]. rewrite app_nil_r. reflexivity.
    + destruct (Z.ltb_spec decpt (zlen (c :: s))) as [L1|L1].
      * assert (ztake decpt (c :: s) = c :: ztake (decpt - 1) s) as T.
        { unfold ztake. replace (Z.to_nat decpt) with (S (Z.to_nat (decpt - 1))) by lia. reflexivity. }
        assert (zlen (zdrop decpt (c :: s)) = zlen (c :: s) - decpt) as LD by (rewrite zlen_zdrop; lia).
        destruct (ztake_digits decpt (c :: s) F) as [F1 F2]. exists O, O. cbn [repeat app]. rewrite app_nil_r.
        transitivity (mantissa ((c :: ztake (decpt - 1) s) ++ frac_text (zdrop decpt (c :: s)) ++ exp_text None)).
        { f_equal. rewrite T. cbn [exp_text]. rewrite app_nil_r. destruct (zdrop decpt (c :: s)); [change (zlen (@nil Z)) with 0 in LD; lia|reflexivity]. }
        rewrite T in F1. rewrite mantissa_form by assumption. rewrite <- T, ztake_zdrop. reflexivity.
      * exists O, (S (Z.to_nat (decpt - zlen (c :: s)))). cbn [repeat app].
        transitivity (mantissa ((c :: s ++ repeat 48 (Z.to_nat (decpt - zlen (c :: s)))) ++ frac_text [48] ++ exp_text None)).
        { f_equal. cbn [exp_text frac_text app]. rewrite <- app_assoc. reflexivity. }
        rewrite mantissa_form; [|cbn [forallb] in *; rewrite forallb_app, digits_zeros, andb_true_r; exact F|reflexivity].
        cbn [app]. f_equal. rewrite <- app_assoc. f_equal. clear. induction (Z.to_nat _) as [|n IH]; [reflexivity|]. cbn [repeat app]. f_equal. exact IH.
  - set (e := decpt - 1). exists O, O. cbn [repeat app]. rewrite app_nil_r.
    transitivity (mantissa ((c :: []) ++ frac_text s ++ exp_text (Some (if e <? 0 then 45 else 43, (if Z.abs e <? 10 then [48] else []) ++ digits_of (Z.abs e))))).
    { f_equal. cbn [exp_text app]. f_equal.
      destruct s as [|c2 s]; [reflexivity|]. rewrite !zlen_cons in *. pose proof (zlen_nonneg s).
      destruct (Z.ltb_spec 1 (1 + (1 + zlen s))) as [_|Y]; [|lia]. reflexivity. }
    pose proof F as F'. cbn [forallb] in F'. apply andb_prop in F' as [Fc Fs].
    rewrite mantissa_form; [reflexivity|cbn [forallb]; rewrite Fc; reflexivity|exact Fs].
Qed.

Lemma format_short_significant d k n : 1 <= n -> 0 < d <= 10 ^ n -> zlen (trim (rev (trim (mantissa (format_short d k))))) <= n.
Proof.
  intros Hn Hd. destruct (format_short_mantissa d k ltac:(lia)) as (a & b & ->). rewrite trim_zeros.
  pose proof (strip_len d n Hn Hd) as L. destruct (stripped d ltac:(lia)) as (c & s & j & E & _ & N & _). rewrite E in *.
  cbn [app trim]. destruct (Z.eqb_spec c 48) as [|_]; [contradiction|].
  change (c :: s ++ repeat 48 b) with ((c :: s) ++ repeat 48 b). rewrite rev_app_distr, rev_zeros, trim_zeros.
  pose proof (trim_le (rev (c :: s))). rewrite zlen_rev in *. lia.
Qed.
