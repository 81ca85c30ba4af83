(** * The gzip reader agrees with RFC 1952 (for C50) *)
From Coq Require Import List ZArith Lia Bool.
From Coq Require Import Init.Byte.
From Coq Require Import ZifyBool.
From Verif Require Import PyBase Inflate Gzip SpecDeflate SpecGzip BaseProofs InflateProofs GzipProofs DeflateProofs DeflateProofs2 DeflateProofs3.
Import ListNotations.
Local Open Scope list_scope.
Local Open Scope Z_scope.

(** ** CRC-32 *)

(** The register after some bits: a remainder with its bits reversed. *)
Definition mirrored (c r : Z) : Prop := forall i, 0 <= i < 32 -> Z.testbit c i = Z.testbit r (31 - i).

Definition bit_step (c : Z) (b : bool) : Z :=
  if xorb (Z.odd c) b then Z.lxor (Z.shiftr c 1) 3988292384 else Z.shiftr c 1.

Lemma crc_byte_bits c b : crc_byte c b = fold_left bit_step (byte_bits b) c.
Proof.
  assert (forall c v, crc_bit (Z.lxor c v) = Z.lxor (bit_step c (Z.odd v)) (Z.shiftr v 1)) as S.
  { intros x v. unfold crc_bit, bit_step. rewrite <- !Z.bit0_odd, Z.lxor_spec, Z.shiftr_lxor.
    destruct (xorb (Z.testbit x 0) (Z.testbit v 0)); [|reflexivity].
    rewrite !Z.lxor_assoc, (Z.lxor_comm (Z.shiftr v 1)), <- ?Z.lxor_assoc. reflexivity. }
  unfold crc_byte, byte_bits. cbn zeta. cbn [map fold_left]. rewrite !S, !Z.shiftr_shiftr by lia.
  pose proof (bval_range b) as B.
  replace (Z.shiftr (bval b) (1 + 1 + 1 + 1 + 1 + 1 + 1 + 1)) with 0.
  2:{ rewrite Z.shiftr_div_pow2 by lia. rewrite Z.div_small; [reflexivity|]. change (2 ^ (1 + 1 + 1 + 1 + 1 + 1 + 1 + 1)) with 256. lia. }
  rewrite Z.lxor_0_r, !Z.shiftr_div_pow2 by lia. rewrite Z.div_1_r. reflexivity.
Qed.

Lemma crc_fold l : forall c, fold_left crc_byte l c = fold_left bit_step (data_bits l) c.
Proof.
  induction l as [|b l IH]; intros c; [reflexivity|]. cbn [fold_left]. rewrite IH, crc_byte_bits.
  change (data_bits (b :: l)) with (byte_bits b ++ data_bits l). rewrite fold_left_app. reflexivity.
Qed.

Lemma times_double q g : 0 <= q -> times (2 * q) g = 2 * times q g.
Proof. intros H. destruct q as [|p|p]; [reflexivity|reflexivity|lia]. Qed.
Lemma times_double1 q g : 0 <= q -> times (2 * q + 1) g = Z.lxor (2 * times q g) g.
Proof. intros H. destruct q as [|p|p]; [cbn [times Z.mul Z.add times_pos]; rewrite Z.lxor_0_l; reflexivity|reflexivity|lia]. Qed.

Lemma msb_snoc w b : msb_value (w ++ [b]) = 2 * msb_value w + Z.b2z b.
Proof.
  induction w as [|x w IH]; [destruct b; reflexivity|]. cbn [app msb_value]. rewrite IH, zlen_app. change (zlen [b]) with 1.
  rewrite Z.pow_add_r by (pose proof (zlen_nonneg w); lia). change (2 ^ 1) with 2. lia.
Qed.

Lemma double_shift a : 2 * a = Z.shiftl a 1.
Proof. rewrite Z.shiftl_mul_pow2 by lia. change (2 ^ 1) with 2. lia. Qed.

Lemma lxor_2 a b : Z.lxor (2 * a) (2 * b) = 2 * Z.lxor a b.
Proof. rewrite !double_shift, Z.shiftl_lxor. reflexivity. Qed.

Lemma mirror_step c r (b : bool) : 0 <= r < 2 ^ 32 -> mirrored c r -> 0 <= c < 2 ^ 32 ->
  exists k r', 0 <= r' < 2 ^ 32 /\ mirrored (bit_step c b) r' /\ (k = 0 \/ k = 1) /\
    Z.lxor (2 * r) (Z.b2z b * 2 ^ 32) = Z.lxor (k * crc_poly) r'.
Proof.
  intros Hr M Hc.
  assert (Z.odd c = Z.testbit r 31) as O by (rewrite <- Z.bit0_odd; apply (M 0); lia).
  unfold bit_step. rewrite O.
  exists (Z.b2z (xorb (Z.testbit r 31) b)), (Z.lxor (Z.lxor (2 * r) (Z.b2z b * 2 ^ 32)) (Z.b2z (xorb (Z.testbit r 31) b) * crc_poly)).
  assert (forall i, 0 <= i -> Z.testbit (Z.b2z b * 2 ^ 32) i = b && (i =? 32)) as TB.
  { intros i Hi. destruct b; cbn [Z.b2z andb]; [|rewrite Z.bits_0; reflexivity]. rewrite Z.mul_1_l.
    destruct (Z.eqb_spec i 32) as [->|N]; [apply Z.pow2_bits_true; lia|apply Z.pow2_bits_false; lia]. }
  assert (forall i, Z.testbit (2 * r) i = Z.testbit r (i - 1)) as T2.
  { intros i. rewrite double_shift. destruct (Z_le_gt_dec 0 i) as [L|L]; [rewrite Z.shiftl_spec by exact L; reflexivity|]. rewrite !Z.testbit_neg_r by lia. reflexivity. }
  assert (forall i, 32 <= i -> Z.testbit r i = false) as RH.
  { intros i Hi. destruct (Z.eq_dec r 0) as [->|N]; [apply Z.bits_0|]. apply Z.bits_above_log2; [lia|]. assert (Z.log2 r < 32) by (apply Z.log2_lt_pow2; lia). lia. }
  assert (forall i, 32 <= i -> Z.testbit c i = false) as CH.
  { intros i Hi. destruct (Z.eq_dec c 0) as [->|N]; [apply Z.bits_0|]. apply Z.bits_above_log2; [lia|]. assert (Z.log2 c < 32) by (apply Z.log2_lt_pow2; lia). lia. }
  set (x := xorb (Z.testbit r 31) b).
  assert (forall i, 33 <= i -> Z.testbit crc_poly i = false) as PH.
  { intros i Hi. apply Z.bits_above_log2; [cbv; discriminate|]. change (Z.log2 crc_poly) with 32. lia. }
  assert (forall i, Z.testbit (Z.b2z x * crc_poly) i = x && Z.testbit crc_poly i) as TX.
  { intros i. destruct x; cbn [Z.b2z andb]; [rewrite Z.mul_1_l; reflexivity|apply Z.bits_0]. }
  set (r' := Z.lxor (Z.lxor (2 * r) (Z.b2z b * 2 ^ 32)) (Z.b2z x * crc_poly)).
  assert (forall i, 0 <= i -> Z.testbit r' i = xorb (xorb (Z.testbit r (i - 1)) (b && (i =? 32))) (x && Z.testbit crc_poly i)) as TR.
  { intros i Hi. unfold r'. rewrite !Z.lxor_spec, T2, TB, TX by exact Hi. reflexivity. }
  assert (0 <= r') as RN.
  { unfold r'. apply Z.lxor_nonneg. split; intros _; [destruct x; cbn [Z.b2z]; [cbv; discriminate|lia]|].
    apply Z.lxor_nonneg. split; intros _; [destruct b; cbn [Z.b2z]; lia|lia]. }
  assert (forall i, 32 <= i -> Z.testbit r' i = false) as RH'.
  { intros i Hi. rewrite TR by lia. destruct (Z.eq_dec i 32) as [->|N].
    - change (32 =? 32) with true. change (Z.testbit crc_poly 32) with true. rewrite !andb_true_r. unfold x. change (32 - 1) with 31.
      destruct (Z.testbit r 31), b; reflexivity.
    - rewrite RH, PH by lia. replace (i =? 32) with false by lia. rewrite !andb_false_r. reflexivity. }
  split.
  { split; [exact RN|]. destruct (Z.eq_dec r' 0) as [->|N]; [lia|]. apply Z.log2_lt_pow2; [lia|].
    destruct (Z_lt_ge_dec (Z.log2 r') 32) as [L|L]; [exact L|exfalso]. pose proof (Z.bit_log2 r' ltac:(lia)) as BL. rewrite RH' in BL by lia. discriminate BL. }
  split.
  - intros i Hi. rewrite TR by lia. replace (31 - i =? 32) with false by lia. rewrite andb_false_r, xorb_false_r.
    assert (Z.testbit (Z.shiftr c 1) i = Z.testbit r (31 - i - 1)) as SC.
    { rewrite Z.shiftr_spec by lia. destruct (Z.eq_dec i 31) as [->|N].
      - change (31 + 1) with 32. rewrite CH by lia. symmetry. apply Z.testbit_neg_r. lia.
      - rewrite M by lia. f_equal. lia. }
    assert (Z.testbit 3988292384 i = Z.testbit crc_poly (31 - i)) as SP.
    { assert (exists k, (k < 32)%nat /\ i = Z.of_nat k) as (k & Hk & ->) by (exists (Z.to_nat i); lia). clear - Hk.
      do 32 (destruct k as [|k]; [reflexivity|]). lia. }
    destruct x; cbn [andb].
    + rewrite Z.lxor_spec, SC, SP. reflexivity.
    + rewrite xorb_false_r. exact SC.
  - split; [destruct x; cbn [Z.b2z]; lia|]. unfold r'. rewrite (Z.lxor_comm (Z.b2z x * crc_poly)), Z.lxor_assoc, Z.lxor_nilpotent, Z.lxor_0_r. reflexivity.
Qed.

Lemma bit_step_word c b : word c -> word (bit_step c b).
Proof.
  intros H. pose proof (word_bit c H) as W. unfold crc_bit, bit_step in *.
  assert (word (Z.shiftr c 1)) as W1.
  { unfold word in *. rewrite Z.shiftr_div_pow2 by lia. change (2 ^ 1) with 2. pose proof (Z.div_mod c 2 ltac:(lia)). pose proof (Z.mod_pos_bound c 2 ltac:(lia)). lia. }
  destruct (xorb (Z.odd c) b); [|exact W1]. apply word_lxor; [exact W1|unfold word; lia].
Qed.

Lemma register w : exists q r, 0 <= q /\ 0 <= r < 2 ^ 32 /\ word (fold_left bit_step w 4294967295) /\
  mirrored (fold_left bit_step w 4294967295) r /\
  Z.lxor (msb_value w * 2 ^ 32) ((2 ^ 32 - 1) * 2 ^ zlen w) = Z.lxor (times q crc_poly) r.
Proof.
  induction w as [|b w (q & r & Hq & Hr & Hw & M & E)] using rev_ind.
  - exists 0, (2 ^ 32 - 1). split; [lia|]. split; [lia|]. split; [unfold word; cbn; lia|]. split; [|reflexivity].
    intros i Hi. cbn [fold_left]. change 4294967295 with (Z.ones 32). change (2 ^ 32 - 1) with (Z.ones 32). rewrite !Z.ones_spec_low by lia. reflexivity.
  - rewrite fold_left_app. cbn [fold_left]. set (c := fold_left bit_step w 4294967295) in *.
    destruct (mirror_step c r b Hr M) as (k & r' & Hr' & M' & Hk & E'); [exact Hw|].
    exists (2 * q + k), r'. split; [lia|]. split; [exact Hr'|]. split; [apply bit_step_word, Hw|]. split; [exact M'|].
    rewrite msb_snoc, zlen_app. change (zlen [b]) with 1. rewrite Z.pow_add_r by (pose proof (zlen_nonneg w); lia). change (2 ^ 1) with 2.
    assert ((2 * msb_value w + Z.b2z b) * 2 ^ 32 = Z.lxor (2 * (msb_value w * 2 ^ 32)) (Z.b2z b * 2 ^ 32)) as ->.
    { assert (2 * (msb_value w * 2 ^ 32) = Z.shiftl (2 * msb_value w) 32) as -> by (rewrite Z.shiftl_mul_pow2 by lia; lia).
      assert (Z.b2z b * 2 ^ 32 = Z.shiftl (Z.b2z b) 32) as -> by (rewrite Z.shiftl_mul_pow2 by lia; lia).
      rewrite <- Z.shiftl_lxor, <- Z.shiftl_mul_pow2 by lia. f_equal. rewrite <- Z.add_nocarry_lxor; [reflexivity|].
      destruct b; cbn [Z.b2z]; [|apply Z.land_0_r]. apply Z.bits_inj'. intros i Hi. rewrite Z.land_spec, Z.bits_0.
      destruct (Z.eq_dec i 0) as [->|N]; [rewrite Z.testbit_even_0; reflexivity|].
      change 1 with (2 ^ 0). rewrite (Z.pow2_bits_false 0 i) by lia. apply andb_false_r. }
    replace ((2 ^ 32 - 1) * (2 ^ zlen w * 2)) with (2 * ((2 ^ 32 - 1) * 2 ^ zlen w)) by lia.
    set (A := msb_value w * 2 ^ 32) in *. set (B := (2 ^ 32 - 1) * 2 ^ zlen w) in *. set (K := Z.b2z b * 2 ^ 32) in *.
    replace (Z.lxor (Z.lxor (2 * A) K) (2 * B)) with (Z.lxor (Z.lxor (2 * A) (2 * B)) K) by (rewrite !Z.lxor_assoc, (Z.lxor_comm K); reflexivity).
    rewrite lxor_2, E, <- lxor_2, Z.lxor_assoc, E', <- Z.lxor_assoc. f_equal.
    destruct Hk as [-> | ->].
    + rewrite Z.mul_0_l, Z.lxor_0_r, Z.add_0_r, times_double by exact Hq. reflexivity.
    + rewrite Z.mul_1_l, times_double1 by exact Hq. reflexivity.
Qed.

(** The remainder is unique. *)
Lemma times_pos_log p : 0 < times_pos p crc_poly /\ Z.log2 (times_pos p crc_poly) = Z.log2 (Zpos p) + 32.
Proof.
  induction p as [p [P L]|p [P L]|]; cbn [times_pos].
  - assert (Z.log2 (Zpos p~1) = Z.log2 (Zpos p) + 1) as E.
    { rewrite Pos2Z.inj_xI. rewrite Z.log2_succ_double by lia. lia. }
    pose proof (Z.log2_nonneg (Zpos p)) as LN.
    set (a := 2 * times_pos p crc_poly) in *.
    assert (Z.log2 a = Z.log2 (Zpos p) + 33) as La by (unfold a; rewrite Z.log2_double by lia; lia).
    assert (Z.testbit (Z.lxor a crc_poly) (Z.log2 a) = true) as T.
    { rewrite Z.lxor_spec, Z.bit_log2 by (unfold a; lia). rewrite (Z.bits_above_log2 crc_poly); [reflexivity|cbv; discriminate|change (Z.log2 crc_poly) with 32; lia]. }
    assert (0 <= Z.lxor a crc_poly) as N by (apply Z.lxor_nonneg; split; intros _; [cbv; discriminate|unfold a; lia]).
    assert (Z.lxor a crc_poly <> 0) as NZ by (intros Z0; rewrite Z0, Z.bits_0 in T; discriminate T).
    split; [lia|]. assert (Z.log2 a <= Z.log2 (Z.lxor a crc_poly)) as L1.
    { destruct (Z_le_gt_dec (Z.log2 a) (Z.log2 (Z.lxor a crc_poly))) as [H|H]; [exact H|]. rewrite Z.bits_above_log2 in T by lia. discriminate T. }
    assert (Z.log2 (Z.lxor a crc_poly) <= Z.log2 a) as L2.
    { pose proof (Z.log2_lxor a crc_poly ltac:(unfold a; lia) ltac:(cbv; discriminate)) as LL. change (Z.log2 crc_poly) with 32 in LL. lia. }
    lia.
  - split; [lia|]. rewrite Z.log2_double by lia. rewrite (Pos2Z.inj_xO p), (Z.log2_double (Zpos p)) by lia. lia.
  - split; [reflexivity|reflexivity].
Qed.

Lemma times_lxor_pos p : forall q, exists s, 0 <= s /\ Z.lxor (times_pos p crc_poly) (times_pos q crc_poly) = times s crc_poly /\ (s = 0 -> p = q).
Proof.
  induction p as [p IH|p IH|]; intros q; destruct q as [q|q|]; cbn [times_pos].
  - destruct (IH q) as (s & Hs & E & U). exists (2 * s). split; [lia|]. split; [|intros Z0; f_equal; apply U; lia].
    rewrite times_double, <- E, <- lxor_2 by exact Hs. rewrite (Z.lxor_comm (2 * times_pos q crc_poly)), Z.lxor_assoc, <- (Z.lxor_assoc crc_poly crc_poly), Z.lxor_nilpotent, Z.lxor_0_l. reflexivity.
  - destruct (IH q) as (s & Hs & E & U). exists (2 * s + 1). split; [lia|]. split; [|lia].
    rewrite times_double1, <- E, <- lxor_2 by exact Hs. rewrite !Z.lxor_assoc. f_equal. apply Z.lxor_comm.
  - exists (2 * Zpos p). split; [lia|]. split; [|lia]. rewrite times_double by lia. rewrite Z.lxor_assoc, Z.lxor_nilpotent, Z.lxor_0_r. reflexivity.
  - destruct (IH q) as (s & Hs & E & U). exists (2 * s + 1). split; [lia|]. split; [|lia].
    rewrite times_double1, <- E, <- lxor_2 by exact Hs. rewrite !Z.lxor_assoc. reflexivity.
  - destruct (IH q) as (s & Hs & E & U). exists (2 * s). split; [lia|]. split; [|intros Z0; f_equal; apply U; lia].
    rewrite times_double, <- E, <- lxor_2 by exact Hs. reflexivity.
  - exists (2 * Zpos p + 1). split; [lia|]. split; [|lia]. rewrite times_double1 by lia. reflexivity.
  - exists (2 * Zpos q). split; [lia|]. split; [|lia]. rewrite times_double by lia. rewrite (Z.lxor_comm (2 * times_pos q crc_poly)), <- Z.lxor_assoc, Z.lxor_nilpotent, Z.lxor_0_l. reflexivity.
  - exists (2 * Zpos q + 1). split; [lia|]. split; [|lia]. rewrite times_double1 by lia. rewrite Z.lxor_comm. reflexivity.
  - exists 0. split; [lia|]. split; [apply Z.lxor_nilpotent|reflexivity].
Qed.

Lemma times_lxor p q : 0 <= p -> 0 <= q -> exists s, 0 <= s /\ Z.lxor (times p crc_poly) (times q crc_poly) = times s crc_poly.
Proof.
  intros Hp Hq. destruct p as [|p|p]; [| |lia].
  - exists q. split; [exact Hq|]. apply Z.lxor_0_l.
  - destruct q as [|q|q]; [| |lia].
    + exists (Zpos p). split; [lia|]. apply Z.lxor_0_r.
    + destruct (times_lxor_pos p q) as (s & Hs & E & _). exists s. auto.
Qed.

Lemma remainder_unique q r q' r' : 0 <= q -> 0 <= q' -> 0 <= r < 2 ^ 32 -> 0 <= r' < 2 ^ 32 ->
  Z.lxor (times q crc_poly) r = Z.lxor (times q' crc_poly) r' -> r = r'.
Proof.
  intros Hq Hq' Hr Hr' E. destruct (times_lxor q q' Hq Hq') as (s & Hs & ES).
  assert (times s crc_poly = Z.lxor r r') as T.
  { rewrite <- ES. apply Z.lxor_eq. 
    replace (Z.lxor (Z.lxor (times q crc_poly) (times q' crc_poly)) (Z.lxor r r')) with (Z.lxor (Z.lxor (times q crc_poly) r) (Z.lxor (times q' crc_poly) r')).
    - rewrite E. apply Z.lxor_nilpotent.
    - rewrite !Z.lxor_assoc. f_equal. rewrite <- !Z.lxor_assoc, (Z.lxor_comm r). reflexivity. }
  destruct s as [|p|p]; [|exfalso|lia].
  - cbn [times] in T. symmetry in T. apply Z.lxor_eq in T. exact T.
  - cbn [times] in T. destruct (times_pos_log p) as [P L]. rewrite T in P, L. pose proof (Z.log2_lxor r r' ltac:(lia) ltac:(lia)) as LL.
    assert (forall x, 0 <= x < 2 ^ 32 -> Z.log2 x < 32) as B.
    { intros x Hx. destruct (Z.eq_dec x 0) as [->|N]; [cbn; lia|]. apply Z.log2_lt_pow2; lia. }
    pose proof (B r Hr). pose proof (B r' Hr'). pose proof (Z.log2_nonneg (Zpos p)). lia.
Qed.

Lemma word_ext a b : 0 <= a < 2 ^ 32 -> 0 <= b < 2 ^ 32 -> (forall i, 0 <= i < 32 -> Z.testbit a i = Z.testbit b i) -> a = b.
Proof.
  intros Ha Hb H. assert (forall x, 0 <= x < 2 ^ 32 -> forall i, 32 <= i -> Z.testbit x i = false) as HI.
  { intros x Hx i Hi. destruct (Z.eq_dec x 0) as [->|N]; [apply Z.bits_0|]. apply Z.bits_above_log2; [lia|]. assert (Z.log2 x < 32) by (apply Z.log2_lt_pow2; lia). lia. }
  apply Z.bits_inj'. intros i Hi. destruct (Z_lt_ge_dec i 32) as [L|L]; [apply H; lia|]. rewrite !HI by (assumption || lia). reflexivity.
Qed.

Lemma crc_exact l v : has_crc l v <-> v = crc32 l.
Proof.
  unfold crc32. rewrite crc_fold. destruct (register (data_bits l)) as (q & r & Hq & Hr & Hw & M & E).
  set (c := fold_left bit_step (data_bits l) 4294967295) in *.
  assert (0 <= Z.lxor c 4294967295 < 2 ^ 32) as B by (apply word_lxor; [exact Hw|unfold word; lia]).
  assert (forall i, 0 <= i < 32 -> Z.testbit (Z.lxor c 4294967295) i = negb (Z.testbit r (31 - i))) as T.
  { intros i Hi. rewrite Z.lxor_spec, M by exact Hi. change 4294967295 with (Z.ones 32). rewrite Z.ones_spec_low by lia. apply xorb_true_r. }
  split.
  - intros (q' & r' & Hq' & Hr' & Hv & E' & TV). rewrite E in E'. apply remainder_unique in E'; try assumption. subst r'.
    apply word_ext; [exact Hv|exact B|]. intros i Hi. rewrite TV, T by exact Hi. reflexivity.
  - intros ->. exists q, r. auto.
Qed.

(** ** Headers: readers of whole bytes *)

Definition Ab {A} (m : P A) (R : A -> list byte -> Prop) : Prop := forall l a s',
  m (mkB [] l) = Some (a, s') <-> exists w r, l = w ++ r /\ s' = mkB [] r /\ R a w.
(** The same, with what follows visible. *)
Definition Ar {A} (m : P A) (R : A -> list byte -> list byte -> Prop) : Prop := forall l a s',
  m (mkB [] l) = Some (a, s') <-> exists w r, l = w ++ r /\ s' = mkB [] r /\ R a w r.

Lemma Ab_iff {A} (m : P A) R R' : (forall a w, R a w <-> R' a w) -> Ab m R -> Ab m R'.
Proof.
  intros E H l a s'. rewrite (H l a s'). split; intros (w & r & X & Y & Z); exists w, r; (split; [exact X|]); (split; [exact Y|]); apply E, Z.
Qed.
Lemma Ab_ret {A} (a : A) : Ab (pret a) (fun b w => b = a /\ w = []).
Proof.
  intros l b s'. split.
  - intros E. injection E as <- <-. exists [], l. auto.
  - intros (w & r & -> & -> & -> & ->). reflexivity.
Qed.
Lemma Ab_fail {A} : Ab (@pfail A) (fun _ _ => False).
Proof. intros l b s'. split; [discriminate|intros (? & ? & _ & _ & [])]. Qed.
Lemma Ab_bind {A B} (m : P A) (k : A -> P B) R Q : Ab m R -> (forall a, Ab (k a) (Q a)) ->
  Ab (pbind m k) (fun b w => exists a w1 w2, w = w1 ++ w2 /\ R a w1 /\ Q a b w2).
Proof.
  intros Hm Hk l b s'. unfold pbind. split.
  - destruct (m (mkB [] l)) as [[a s1]|] eqn:E; [|discriminate]. apply Hm in E. destruct E as (w1 & r1 & -> & -> & Ha). intros E.
    apply Hk in E. destruct E as (w2 & r2 & -> & -> & Hb). exists (w1 ++ w2), r2. rewrite app_assoc. split; [reflexivity|]. split; [reflexivity|].
    exists a, w1, w2. auto.
  - intros (w & r & -> & -> & a & w1 & w2 & -> & Ha & Hb). rewrite <- app_assoc.
    assert (m (mkB [] (w1 ++ w2 ++ r)) = Some (a, mkB [] (w2 ++ r))) as -> by (apply Hm; exists w1, (w2 ++ r); auto).
    apply Hk. exists w2, r. auto.
Qed.
Lemma Ab_getbyte : Ab getbyte (fun b w => w = [b]).
Proof.
  intros l b s'. unfold getbyte. cbn [b_bytes b_bits]. split.
  - destruct l as [|x l]; [discriminate|]. intros E. injection E as <- <-. exists [x], l. auto.
  - intros (w & r & -> & -> & ->). reflexivity.
Qed.
Lemma Ab_skip n : Ab (skip_bytes n) (fun _ w => List.length w = n).
Proof.
  induction n as [|n IH]; cbn [skip_bytes].
  - eapply Ab_iff; [|apply Ab_ret]. intros [] w. split; [intros [_ ->]; reflexivity|]. intros L. destruct w; [auto|discriminate L].
  - eapply Ab_iff; [|apply Ab_bind; [apply Ab_getbyte|intros z; apply IH]]. intros [] w. cbn beta. split.
    + intros (b & w1 & w2 & -> & -> & L). cbn. lia.
    + intros L. destruct w as [|b w]; [discriminate L|]. injection L as L. exists b, [b], w. auto.
Qed.
Lemma after_nul_spec l r : after_nul l = Some r <-> exists t, l = t ++ x00 :: r /\ ~ In x00 t.
Proof.
  induction l as [|b l IH]; cbn [after_nul].
  - split; [discriminate|]. intros (t & E & _). destruct t; discriminate E.
  - destruct (Byte.eqb b x00) eqn:E.
    + apply Byte.byte_dec_bl in E. subst b. split.
      * intros H. injection H as <-. exists []. split; [reflexivity|intros []].
      * intros (t & E & N). destruct t as [|y t]; cbn [app] in E; [injection E as <-; reflexivity|]. injection E as <- _. exfalso. apply N. left. reflexivity.
    + assert (b <> x00) as NB by (intros ->; discriminate E). rewrite IH. split.
      * intros (t & -> & N). exists (b :: t). split; [reflexivity|]. intros [H|H]; [congruence|exact (N H)].
      * intros (t & H & N). destruct t as [|y t]; cbn [app] in H; [injection H as -> _; congruence|]. injection H as -> ->. exists t. split; [reflexivity|]. intros I. apply N. right. exact I.
Qed.
Lemma Ab_text : Ab skip_text (fun _ w => nul_text w).
Proof.
  intros l [] s'. unfold skip_text. cbn [b_bytes b_bits]. split.
  - destruct (after_nul l) as [r|] eqn:E; [|discriminate]. apply after_nul_spec in E. destruct E as (t & -> & N). intros H. injection H as <-.
    exists (t ++ [x00]), r. rewrite <- app_assoc. split; [reflexivity|]. split; [reflexivity|]. exists t. auto.
  - intros (w & r & -> & -> & t & -> & N). assert (after_nul ((t ++ [x00]) ++ r) = Some r) as ->; [|reflexivity].
    apply after_nul_spec. exists t. rewrite <- app_assoc. auto.
Qed.

Lemma flag_iff f n : 0 <= n -> flag f n = true <-> flag_set f n.
Proof. intros H. unfold flag, flag_set. rewrite Z.testbit_odd, Z.shiftr_div_pow2 by exact H. reflexivity. Qed.
Lemma Ab_optional (b : bool) (Pr : Prop) (m : P unit) R : (b = true <-> Pr) -> Ab m (fun _ w => R w) ->
  Ab (if b then m else pret tt) (fun _ w => optional Pr R w).
Proof.
  intros E H. unfold optional. destruct b.
  - eapply Ab_iff; [|exact H]. intros [] w. split; [intros Rw; left; split; [apply E; reflexivity|exact Rw]|].
    intros [[_ Rw]|[N _]]; [exact Rw|]. exfalso. apply N, E. reflexivity.
  - eapply Ab_iff; [|apply Ab_ret]. intros [] w. split; [intros [_ ->]; right; split; [intros X; apply E in X; discriminate X|reflexivity]|].
    intros [[X _]|[_ ->]]; [apply E in X; discriminate X|auto].
Qed.

Lemma Ab_extra : Ab (let* l0 := getbyte in let* l1 := getbyte in skip_bytes (Z.to_nat (bval l0 + 256 * bval l1))) (fun _ w => extra_field w).
Proof.
  eapply Ab_iff; [|apply Ab_bind; [apply Ab_getbyte|intros l0; apply Ab_bind; [apply Ab_getbyte|intros l1; apply Ab_skip]]].
  intros [] w. cbn beta. unfold extra_field. split.
  - intros (l0 & w1 & w2 & -> & -> & l1 & w3 & w4 & -> & -> & L). exists [l0; l1], w4. split; [reflexivity|]. split; [reflexivity|]. cbn [le16].
    pose proof (bval_range l0). pose proof (bval_range l1). unfold zlen. lia.
  - intros (n & e & -> & Ln & Le). destruct (bytes_len2 n Ln) as (l0 & l1 & ->). cbn [le16] in Le.
    exists l0, [l0], (l1 :: e). split; [reflexivity|]. split; [reflexivity|]. exists l1, [l1], e. split; [reflexivity|]. split; [reflexivity|]. unfold zlen in Le. lia.
Qed.

Definition header_bytes (w : list byte) : Prop := exists flags fixed extra name comment hcrc,
  w = [x08; flags] ++ fixed ++ extra ++ name ++ comment ++ hcrc /\ zlen fixed = 6 /\
  optional (flag_set flags 2) extra_field extra /\ optional (flag_set flags 3) nul_text name /\
  optional (flag_set flags 4) nul_text comment /\ optional (flag_set flags 1) (fun h => zlen h = 2) hcrc.

Lemma Ab_header : Ab gz_header (fun _ w => header_bytes w).
Proof.
  assert (forall b (A : Type) (m : P A) R, (b = false -> Ab m R) -> Ab (if b : bool then pfail else m) (fun a w => b = false /\ R a w)) as Hif.
  { intros b A m R H. destruct b.
    - eapply Ab_iff; [|apply Ab_fail]. intros a w. split; [intros []|intros [X _]; discriminate X].
    - eapply Ab_iff; [|apply H; reflexivity]. intros a w. split; [auto|intros [_ X]; exact X]. }
  unfold gz_header.
  eapply Ab_iff; [|apply Ab_bind; [apply Ab_getbyte|intros method; apply Ab_bind; [apply Ab_getbyte|intros flags; apply Ab_bind; [apply Ab_skip|intros z1; apply Hif; intros _;
    apply Ab_bind; [apply (Ab_optional _ (flag_set flags 2)); [apply flag_iff; lia|apply Ab_extra]|intros z2;
    apply Ab_bind; [apply (Ab_optional _ (flag_set flags 3)); [apply flag_iff; lia|apply Ab_text]|intros ?;
    apply Ab_bind; [apply (Ab_optional _ (flag_set flags 4)); [apply flag_iff; lia|apply Ab_text]|intros ?;
    apply (Ab_optional _ (flag_set flags 1) _ (fun h => zlen h = 2)); [apply flag_iff; lia|]]]]]]]].
  2:{ eapply Ab_iff; [|apply Ab_skip]. intros ? ?. unfold zlen. lia. }
  intros [] w. cbn beta. unfold header_bytes. split.
  - intros (method & w1 & w2 & -> & -> & flags & w3 & w4 & -> & -> & u & fixed & w5 & -> & L6 & M & u1 & extra & w6 & -> & H1 & u2 & name & w7 & -> & H2 & u3 & comment & hcrc & -> & H3 & H4).
    exists flags, fixed, extra, name, comment, hcrc. assert (method = x08) as ->.
    { apply negb_false_iff, Z.eqb_eq in M. rewrite <- (byte_of_bval method), M. reflexivity. }
    split; [reflexivity|]. split; [unfold zlen; lia|]. auto.
  - intros (flags & fixed & extra & name & comment & hcrc & -> & L6 & H1 & H2 & H3 & H4).
    exists x08, [x08], (flags :: fixed ++ extra ++ name ++ comment ++ hcrc). split; [reflexivity|]. split; [reflexivity|].
    exists flags, [flags], (fixed ++ extra ++ name ++ comment ++ hcrc). split; [reflexivity|]. split; [reflexivity|].
    exists tt, fixed, (extra ++ name ++ comment ++ hcrc). split; [reflexivity|]. split; [unfold zlen in L6; lia|]. split; [reflexivity|].
    exists tt, extra, (name ++ comment ++ hcrc). split; [reflexivity|]. split; [exact H1|].
    exists tt, name, (comment ++ hcrc). split; [reflexivity|]. split; [exact H2|].
    exists tt, comment, hcrc. auto.
Qed.

Lemma Ab_u32 : Ab get_u32 (fun v w => zlen w = 4 /\ v = le32 w).
Proof.
  unfold get_u32.
  eapply Ab_iff; [|apply Ab_bind; [apply Ab_getbyte|intros a; apply Ab_bind; [apply Ab_getbyte|intros b; apply Ab_bind; [apply Ab_getbyte|intros c; apply Ab_bind; [apply Ab_getbyte|intros d; apply Ab_ret]]]]].
  intros v w. cbn beta. split.
  - intros (a & w1 & w2 & -> & -> & b & w3 & w4 & -> & -> & c & w5 & w6 & -> & -> & d & w7 & w8 & -> & -> & -> & ->). split; [reflexivity|]. cbn [app le32 fold_right]. lia.
  - intros [L ->]. destruct w as [|a [|b [|c [|d [|e w]]]]]; try (exfalso; unfold zlen in L; cbn in L; lia).
    exists a, [a], [b; c; d]. split; [reflexivity|]. split; [reflexivity|]. exists b, [b], [c; d]. split; [reflexivity|]. split; [reflexivity|].
    exists c, [c], [d]. split; [reflexivity|]. split; [reflexivity|]. exists d, [d], []. split; [reflexivity|]. split; [reflexivity|]. cbn [le32 fold_right]. split; [lia|reflexivity].
Qed.

(** ** DEFLATE data that starts on a byte boundary *)

Lemma blocks_aligned fuel body : (8 * List.length body <= fuel)%nat -> forall d bits bytes,
  blocks fuel fuel [] (mkB [] body) = Some (rev d, mkB bits bytes) <->
  (zlen bits < 8 /\ deflated [] (data_bits body) d (bits ++ data_bits bytes)).
Proof.
  intros HF d bits bytes.
  assert (wfb (mkB [] body)) as W0 by (unfold wfb; cbn; lia).
  assert (List.length (sb (mkB [] body)) <= 8 * List.length body)%nat as L0 by (unfold sb; cbn [b_bits b_bytes app]; rewrite data_bits_len; lia).
  destruct (blocks_rd fuel fuel (8 * List.length body) [] HF HF (mkB [] body) W0 L0) as [B1 B2]. change (rev (@nil byte)) with (@nil byte) in *.
  change (sb (mkB [] body)) with (data_bits body) in *. split.
  - intros E. destruct (B1 _ _ E) as (W1 & w & Sw & out' & Er & D). unfold wfb in W1. cbn [b_bits] in W1. unfold sb in *. cbn [b_bits b_bytes] in *.
    apply (f_equal (@rev byte)) in Er. rewrite !rev_involutive in Er. subst out'. rewrite <- Sw in D. split; [unfold zlen; lia|exact D].
  - intros [Lb D]. destruct (deflated_suffix _ _ _ _ D) as (w & Ew). rewrite Ew in D.
    destruct (B2 (rev d) w (bits ++ data_bits bytes) Ew (ex_intro _ d (conj eq_refl D))) as ([bits2 bytes2] & E2 & W2 & S2).
    unfold wfb in W2. unfold sb in S2. cbn [b_bits b_bytes] in *. destruct (sb_tail _ _ _ _ W2 Lb S2) as [-> ->]. exact E2.
Qed.

Lemma member_exact l d rest : member l = Some (d, rest) <-> gzip_member l d rest.
Proof.
  unfold member. split.
  - destruct (gz_magic l) eqn:M; [|discriminate]. apply magic_two in M. destruct M as (l1 & ->). cbn [skipn].
    unfold gz_member. unfold pbind at 1. destruct (gz_header (mkB [] l1)) as [[[] s1]|] eqn:EH; [|discriminate].
    apply Ab_header in EH. destruct EH as (h & body & -> & -> & flags & fixed & extra & name & comment & hcrc & -> & L6 & H1 & H2 & H3 & H4).
    match goal with |- context [blocks ?f ?f] => set (fuel := f) end.
    assert (8 * List.length body <= fuel)%nat as HF by (unfold fuel; cbn [List.length]; rewrite !app_length; lia). clearbody fuel.
    unfold pbind at 1. destruct (blocks fuel fuel [] (mkB [] body)) as [[o [bits bytes]]|] eqn:EB; [|discriminate].
    rewrite <- (rev_involutive o) in EB. apply (blocks_aligned fuel body HF) in EB. destruct EB as [Lb D]. set (dd := rev o) in *. clearbody dd. clear o.
    unfold pbind at 1. unfold align. cbn [b_bytes]. cbn zeta.
    unfold pbind at 1. destruct (get_u32 (mkB [] bytes)) as [[crc s2]|] eqn:E1; [|discriminate]. apply Ab_u32 in E1. destruct E1 as (c & r1 & -> & -> & Lc & ->).
    unfold pbind at 1. destruct (get_u32 (mkB [] r1)) as [[len s3]|] eqn:E2; [|discriminate]. apply Ab_u32 in E2. destruct E2 as (n & r2 & -> & -> & Ln & ->).
    destruct ((le32 c =? crc32 dd) && (le32 n =? zlen dd mod 4294967296)) eqn:EC; [|discriminate]. apply andb_true_iff in EC. destruct EC as [C1 C2].
    intros E. injection E as <- <-. cbn [b_bytes].
    exists flags, fixed, extra, name, comment, hcrc, body, bits, c, n. split; [cbn [app]; rewrite <- !app_assoc; reflexivity|].
    do 8 (split; [assumption|]). split; [exact D|]. split; [apply crc_exact; lia|]. change (2 ^ 32) with 4294967296. lia.
  - intros (flags & fixed & extra & name & comment & hcrc & body & pad & c & n & -> & L6 & H1 & H2 & H3 & H4 & Lp & Lc & Ln & D & C & N).
    cbn [app gz_magic Byte.eqb andb skipn]. change (Byte.eqb x1f x1f && Byte.eqb x8b x8b) with true. cbn iota.
    match goal with |- context [gz_member ?f] => set (fuel := f) end.
    assert (8 * List.length body <= fuel)%nat as HF by (unfold fuel; cbn [List.length]; rewrite !app_length; lia). clearbody fuel.
    unfold gz_member. unfold pbind at 1.
    assert (gz_header (mkB [] (x08 :: flags :: fixed ++ extra ++ name ++ comment ++ hcrc ++ body)) = Some (tt, mkB [] body)) as ->.
    { apply Ab_header. exists ([x08; flags] ++ fixed ++ extra ++ name ++ comment ++ hcrc), body. split; [cbn [app]; rewrite <- !app_assoc; reflexivity|].
      split; [reflexivity|]. exists flags, fixed, extra, name, comment, hcrc. auto 10. }
    unfold pbind at 1.
    assert (blocks fuel fuel [] (mkB [] body) = Some (rev d, mkB pad (c ++ n ++ rest))) as -> by (apply blocks_aligned; auto).
    unfold pbind at 1. unfold align. cbn [b_bytes]. cbn zeta. rewrite rev_involutive.
    unfold pbind at 1. assert (get_u32 (mkB [] (c ++ n ++ rest)) = Some (le32 c, mkB [] (n ++ rest))) as -> by (apply Ab_u32; exists c, (n ++ rest); auto).
    unfold pbind at 1. assert (get_u32 (mkB [] (n ++ rest)) = Some (le32 n, mkB [] rest)) as -> by (apply Ab_u32; exists n, rest; auto).
    apply crc_exact in C. change (2 ^ 32) with 4294967296 in N.
    replace ((le32 c =? crc32 d) && (le32 n =? zlen d mod 4294967296)) with true by lia. reflexivity.
Qed.

Lemma drop_zeros_spec l : exists k, l = repeat x00 k ++ drop_zeros l /\ (forall r, drop_zeros l <> x00 :: r).
Proof.
  induction l as [|b l (k & E & N)]; [exists 0%nat; split; [reflexivity|discriminate]|]. cbn [drop_zeros]. destruct (Byte.eqb b x00) eqn:EB.
  - apply Byte.byte_dec_bl in EB. subst b. exists (S k). cbn [repeat app]. rewrite <- E. auto.
  - exists 0%nat. split; [reflexivity|]. intros r H. injection H as -> _. discriminate EB.
Qed.
Lemma drop_zeros_repeat k l : (forall r, l <> x00 :: r) -> drop_zeros (repeat x00 k ++ l) = l.
Proof.
  intros N. induction k as [|k IH]; cbn [repeat app drop_zeros].
  - destruct l as [|b l]; [reflexivity|]. cbn [drop_zeros]. destruct (Byte.eqb b x00) eqn:EB; [|reflexivity]. apply Byte.byte_dec_bl in EB. subst b. exfalso. eapply N. reflexivity.
  - exact IH.
Qed.

Lemma gzip_data_start l d : gzip_data l d -> forall r, l <> x00 :: r.
Proof.
  intros H. destruct H as [|l d k l' d' M _]; intros r; [discriminate|].
  destruct M as (flags & fixed & extra & name & comment & hcrc & body & pad & c & n & -> & _). discriminate.
Qed.

Lemma gunzip_exact l d : gunzip l = Some d <-> gzip_data l d.
Proof.
  split.
  - remember (List.length l) as k eqn:K. revert l d K. induction k as [k IH] using (well_founded_induction lt_wf). intros l d K E.
    destruct l as [|b l]; [injection E as <-; constructor|]. rewrite gunzip_step in E.
    destruct (member (b :: l)) as [[d1 rest]|] eqn:M; [|discriminate E]. pose proof (member_shorter _ _ _ M) as S.
    destruct (gunzip (drop_zeros rest)) as [d2|] eqn:E2; [|discriminate E]. injection E as <-.
    destruct (drop_zeros_spec rest) as (j & Er & _). apply (gz_more _ _ j (drop_zeros rest)).
    + apply member_exact. rewrite <- Er. exact M.
    + pose proof (drop_zeros_len rest). eapply IH; [|reflexivity|exact E2]. lia.
  - induction 1 as [|l d k l' d' M D IH]; [reflexivity|]. apply member_exact in M.
    destruct l as [|b l]; [discriminate M|]. rewrite gunzip_step, M, (drop_zeros_repeat k l' (gzip_data_start _ _ D)), IH. reflexivity.
Qed.
