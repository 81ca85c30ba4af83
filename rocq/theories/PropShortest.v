(** * C42: the text of a float is the shortest, and the closest of the shortest *)
From Coq Require Import List ZArith Lia Bool String QArith Qabs Qpower Lqa.
From Coq Require Import ZifyBool.
From Verif Require Import PyBase Model Parsers Json FloatRepr Spec SpecDict SpecJson SpecFloat SpecShortest BaseProofs JsonProofs FloatProofs FloatText FloatShortest.
Import ListNotations.
Local Open Scope list_scope.
Local Open Scope Z_scope.

(** The parts of the text of a float that is not zero. *)
Definition signed (b : Z) (q : Q) : Q := if b <? 2147483648 then q else (- q)%Q.

Lemma signed_abs b q x : (Qabs (signed b q - signed b x) == Qabs (q - x))%Q.
Proof.
  unfold signed. destruct (b <? 2147483648); [reflexivity|]. rewrite <- (Qabs_opp (q - x)). apply Qabs_wd. ring.
Qed.
Lemma signed_twice b q : (signed b (signed b q) == q)%Q.
Proof. unfold signed. destruct (b <? 2147483648); [reflexivity|]. ring. Qed.
Lemma signed_eq b q q' : (q == q')%Q -> (signed b q == signed b q')%Q.
Proof. intros H. unfold signed. destruct (b <? 2147483648); rewrite H; reflexivity. Qed.
Lemma signed_rounds b q x : rounds_to q x -> rounds_to (signed b q) (signed b x).
Proof. unfold signed. destruct (b <? 2147483648); [auto|apply rounds_to_opp]. Qed.

Lemma value32_signed b : value32 b = signed b (bin_q (f32_significand b) (f32_power b)).
Proof.
  unfold value32, signed, f32_significand, f32_power, f32_exponent, f32_mantissa. change (2 ^ 23) with 8388608.
  destruct (b / 8388608 mod 256 =? 0); [reflexivity|]. rewrite (Z.add_comm 8388608). reflexivity.
Qed.

Lemma significand_bounds b : finite32 b -> f32_significand b <> 0 -> 0 < f32_significand b < 2 ^ 24 /\ -149 <= f32_power b <= 104.
Proof.
  unfold finite32. intros Hf N. pose proof (Z.mod_pos_bound b 8388608 ltac:(lia)). pose proof (Z.mod_pos_bound (b / 8388608) 256 ltac:(lia)).
  unfold f32_significand, f32_power, f32_mantissa, f32_exponent in *. change (2 ^ 23) with 8388608 in *. change (2 ^ 24) with 16777216.
  destruct (Z.eqb_spec (b / 8388608 mod 256) 0); lia.
Qed.

Lemma repr32_parts b : finite32 b -> f32_significand b <> 0 ->
  exists d k, shortest_decimal (f32_significand b) (f32_power b) = (d, k) /\ 0 < d /\
    repr32 b = (if b <? 2147483648 then [] else [45]) ++ format_short d k /\
    unsigned (repr32 b) = format_short d k /\ (number_value (repr32 b) == signed b (dec_q d k))%Q.
Proof.
  intros Hf N. destruct (significand_bounds b Hf N) as [Hm He].
  destruct (shortest_decimal (f32_significand b) (f32_power b)) as [d k] eqn:S. exists d, k. split; [reflexivity|].
  destruct (shortest_decimal_reads _ _ d k Hm He S) as [Hd _]. split; [exact Hd|].
  assert (E : repr32 b = (if b <? 2147483648 then [] else [45]) ++ format_short d k).
  { unfold repr32. change (2 ^ 31) with 2147483648. rewrite S. destruct (Z.eqb_spec (f32_significand b) 0); [contradiction|reflexivity]. }
  split; [exact E|]. rewrite E.
  destruct (format_short_form d k Hd) as (c & s & f & e & Ef & F1 & F2 & F3 & F4 & F5 & V).
  destruct (number_form c s f e F1 F2 F3 F4 F5) as (_ & _ & _ & _ & N5 & U). rewrite <- Ef in U.
  assert (exists r, format_short d k = c :: r) as (r & Er) by (rewrite Ef; eexists; reflexivity).
  unfold signed. destruct (b <? 2147483648); cbn [app].
  - rewrite Er. cbn [unsigned number_value]. replace (c =? 45) with false by lia. split; [reflexivity|]. rewrite <- Er, U. exact V.
  - cbn [unsigned number_value]. rewrite Z.eqb_refl. split; [reflexivity|]. rewrite U, V. reflexivity.
Qed.

(** The number of a text, up to its sign, has as many digits as the text has significant ones. *)
Lemma number_value_digits t : exists D K, D < 10 ^ significant t /\ - D < 10 ^ significant t /\ (number_value t == dec_q D K)%Q.
Proof.
  unfold significant. destruct (unsigned_value_bound (unsigned t)) as (D & K & HD & V).
  destruct t as [|c r]; cbn [number_value unsigned] in *.
  - exists D, K. split; [lia|]. split; [lia|]. rewrite <- V. reflexivity.
  - destruct (c =? 45).
    + exists (- D), K. split; [lia|]. split; [lia|]. rewrite V. unfold dec_q. rewrite inject_Z_opp. ring.
    + exists D, K. split; [lia|]. split; [lia|]. exact V.
Qed.

Lemma best_text b : finite32 b -> f32_significand b <> 0 ->
  exists n, significant (repr32 b) <= n /\
    forall t, rounds_to (number_value t) (value32 b) ->
      n <= significant t /\
      (significant t = n -> (Qabs (number_value (repr32 b) - value32 b) <= Qabs (number_value t - value32 b))%Q).
Proof.
  intros Hf N. destruct (repr32_parts b Hf N) as (d & k & S & Hd & _ & EU & EV).
  destruct (significand_bounds b Hf N) as [Hm He]. destruct (shortest_decimal_best _ _ d k Hm He S) as (n & [Hn _] & Hdn & Best).
  exists n. split; [unfold significant; rewrite EU; apply format_short_significant; assumption|].
  intros t R. destruct (number_value_digits t) as (D & K & B1 & B2 & V).
  assert (0 <= significant t) as S0 by apply zlen_nonneg.
  rewrite value32_signed in *.
  assert (exists D', D' < 10 ^ significant t /\ (signed b (number_value t) == dec_q D' K)%Q) as (D' & B & V').
  { unfold signed. destruct (b <? 2147483648); [exists D; auto|]. exists (- D). split; [exact B2|]. rewrite V. unfold dec_q. rewrite inject_Z_opp. ring. }
  destruct (Best D' K (significant t) B S0) as [L C].
  { eapply rounds_to_eq; [exact V'|apply signed_twice|]. apply signed_rounds, R. }
  split; [exact L|]. intros E. specialize (C E). rewrite EV, signed_abs.
  assert (Qabs (number_value t - signed b (bin_q (f32_significand b) (f32_power b))) ==
          Qabs (dec_q D' K - bin_q (f32_significand b) (f32_power b)))%Q as ->; [|exact C].
  rewrite <- V', <- (signed_abs b (signed b (number_value t))), signed_twice. reflexivity.
Qed.

(** No text that is read as the float has fewer significant digits. *)
Theorem C42_float_shortest b t : finite32 b -> is_number t = true -> rounds_to (number_value t) (value32 b) ->
  significant (repr32 b) <= significant t.
Proof.
  intros Hf _ R. destruct (Z.eq_dec (f32_significand b) 0) as [Z0|N].
  - assert (significant (repr32 b) = 0) as ->; [|apply zlen_nonneg].
    unfold repr32. rewrite Z0. destruct (b <? 2 ^ 31); reflexivity.
  - destruct (best_text b Hf N) as (n & L & B). destruct (B t R) as [L' _]. lia.
Qed.

(** Those with as many are at least as far from the float. *)
Theorem C42_float_closest b t : finite32 b -> is_number t = true -> rounds_to (number_value t) (value32 b) ->
  significant t = significant (repr32 b) ->
  (Qabs (number_value (repr32 b) - value32 b) <= Qabs (number_value t - value32 b))%Q.
Proof.
  intros Hf _ R E. destruct (Z.eq_dec (f32_significand b) 0) as [Z0|N].
  - assert (Qabs (number_value (repr32 b) - value32 b) == 0)%Q as ->; [|apply Qabs_nonneg].
    rewrite value32_signed. unfold repr32, signed. rewrite Z0. change (2 ^ 31) with 2147483648.
    assert (bin_q 0 (f32_power b) == 0)%Q as Zb by (unfold bin_q; change (inject_Z 0) with 0%Q; ring).
    destruct (b <? 2147483648); rewrite Zb; reflexivity.
  - destruct (best_text b Hf N) as (n & L & B). destruct (B t R) as [L1 C]. apply C.
    destruct (B (repr32 b)) as [L2 _]; [apply repr32_reads, Hf|]. lia.
Qed.

(** At most 17 significant digits. *)
Theorem C42_float_digits b : finite32 b -> significant (repr32 b) <= 17.
Proof.
  intros Hf. destruct (Z.eq_dec (f32_significand b) 0) as [Z0|N].
  - unfold repr32. rewrite Z0. destruct (b <? 2 ^ 31); discriminate.
  - destruct (repr32_parts b Hf N) as (d & k & S & Hd & _ & EU & _). unfold significant. rewrite EU.
    destruct (significand_bounds b Hf N) as [Hm He]. apply format_short_significant; [lia|]. split; [exact Hd|].
    apply (shortest_decimal_17 _ _ d k Hm He S).
Qed.

(** ** The notation *)

Lemma digits_no_e l : forallb is_digit l = true -> ~ In 101 l /\ ~ In 69 l.
Proof.
  intros F. rewrite forallb_forall in F. split; intros H; specialize (F _ H); discriminate F.
Qed.

Lemma format_short_exponent d k : 0 < d ->
  (has_exponent (format_short d k) <-> zlen (digits_of d) + k <= -4 \/ 16 < zlen (digits_of d) + k).
Proof.
  intros Hd. destruct (stripped d Hd) as (c & s & j & E & F & N & Hj & V & L). unfold format_short, has_exponent.
  set (decpt := zlen (digits_of d) + k) in *. rewrite E. destruct (ztake_digits decpt (c :: s) F) as [F1 F2].
  destruct (digits_no_e _ F) as [Ne NE]. destruct (digits_no_e _ F1) as [Ne1 NE1]. destruct (digits_no_e _ F2) as [Ne2 NE2].
  assert (forall n, ~ In 101 (repeat 48 n) /\ ~ In 69 (repeat 48 n)) as Nz by (intros n; apply digits_no_e, digits_zeros).
  destruct (Z.ltb_spec (-4) decpt) as [A1|A1]; destruct (Z.leb_spec decpt 16) as [A2|A2]; cbn [andb].
  - split; [|lia]. intros H. exfalso.
    destruct (decpt <=? 0); [|destruct (decpt <? zlen (c :: s))].
    + destruct (Nz (Z.to_nat (- decpt))). destruct H as [H|H]; rewrite !in_app_iff in H; destruct H as [[H|[H|[]]]|[H|H]]; try discriminate H; tauto.
    + destruct H as [H|H]; rewrite !in_app_iff in H; destruct H as [H|[[H|[]]|H]]; try discriminate H; tauto.
    + destruct (Nz (Z.to_nat (decpt - zlen (c :: s)))). destruct H as [H|H]; rewrite !in_app_iff in H; destruct H as [H|[H|[H|[H|[]]]]]; try discriminate H; tauto.
  - split; [lia|]. intros _. left. rewrite !in_app_iff. right. right. left. left. reflexivity.
  - split; [lia|]. intros _. left. rewrite !in_app_iff. right. right. left. left. reflexivity.
  - lia.
Qed.

(** The exponent is written exactly for numbers below 0.0001 and from 10^16 on. *)
Theorem C42_float_notation b : finite32 b ->
  let v := Qabs (number_value (repr32 b)) in
  has_exponent (repr32 b) <-> (0 < v /\ v < 1 # 10000)%Q \/ ((10000000000000000 # 1) <= v)%Q.
Proof.
  intros Hf v. destruct (Z.eq_dec (f32_significand b) 0) as [Z0|N].
  - assert (v == 0)%Q as Ev.
    { unfold v, repr32. rewrite Z0. destruct (b <? 2 ^ 31); reflexivity. }
    rewrite Ev. split; [|intros [[H _]|H]; exfalso; lra].
    unfold repr32, has_exponent. rewrite Z0. intros H. exfalso.
    destruct (b <? 2 ^ 31); cbn in H; intuition discriminate.
  - destruct (repr32_parts b Hf N) as (d & k & S & Hd & E & _ & EV).
    assert (v == dec_q d k)%Q as Ev.
    { unfold v. rewrite EV.
      assert (0 <= dec_q d k)%Q as P by (unfold dec_q; apply Qmult_le_0_compat; [rewrite Zlt_Qlt in Hd; apply Qlt_le_weak; exact Hd|apply Qlt_le_weak, ten_pos]).
      unfold signed. destruct (b <? 2147483648); [apply Qabs_pos, P|]. rewrite Qabs_opp. apply Qabs_pos, P. }
    assert (has_exponent (repr32 b) <-> has_exponent (format_short d k)) as ->.
    { rewrite E. unfold has_exponent. destruct (b <? 2147483648); [reflexivity|]. cbn [app In]. intuition discriminate. }
    rewrite (format_short_exponent d k Hd). rewrite Ev. destruct (digits_len d Hd) as (L1 & L2 & L3). set (l := zlen (digits_of d)) in *.
    assert (dec_q 1 (l - 1 + k) <= dec_q d k)%Q as B1.
    { replace (l - 1 + k) with (k + (l - 1)) by lia. rewrite <- dec_pow by lia. apply dec_le, L2. }
    assert (dec_q d k < dec_q 1 (l + k))%Q as B2.
    { rewrite Z.add_comm, <- dec_pow by lia. apply dec_lt, L3. }
    assert (forall a b, a <= b -> (dec_q 1 a <= dec_q 1 b)%Q) as Mono.
    { intros x y H. destruct (Qlt_le_dec (dec_q 1 y) (dec_q 1 x)) as [A|A]; [|exact A]. apply dec_pow_lt in A. lia. }
    assert (dec_q 1 (-4) == 1 # 10000)%Q as C1 by reflexivity. assert (dec_q 1 16 == 10000000000000000 # 1)%Q as C2 by reflexivity.
    rewrite <- C1, <- C2. clear C1 C2.
    assert (0 < dec_q d k)%Q as P.
    { unfold dec_q. apply Qmult_lt_0_compat; [rewrite Zlt_Qlt in Hd; exact Hd|apply ten_pos]. }
    split; intros [H|H].
    + left. split; [exact P|]. eapply Qlt_le_trans; [exact B2|]. apply Mono, H.
    + right. eapply Qle_trans; [|exact B1]. apply Mono. lia.
    + left. destruct H as [_ H]. assert (l - 1 + k < -4); [|lia]. apply dec_pow_lt. eapply Qle_lt_trans; eassumption.
    + right. assert (16 < l + k); [|lia]. apply dec_pow_lt. eapply Qle_lt_trans; eassumption.
Qed.

(** ** Cases *)

Example C42_shortest_examples :
  finite32 1036831949 /\ significant (repr32 1036831949) = 17 /\ ~ has_exponent (repr32 1036831949) /\
  finite32 1 /\ has_exponent (repr32 1) /\ finite32 3267887104 /\ significant (repr32 3267887104) = 1 /\
  is_number (text "-1E2") = true /\ rounds_to (number_value (text "-1E2")) (value32 3267887104) /\
  significant (text "-1E2") = 1 /\ significant (text "-100.00e0") = 1 /\ significant (text "0.00120") = 2.
Proof.
  split; [vm_compute; discriminate|]. split; [vm_compute; reflexivity|].
  split. { vm_compute. intros [H|H]; repeat (destruct H as [H|H]; [discriminate H|]); exact H. }
  split; [vm_compute; discriminate|]. split. { left. vm_compute. tauto. }
  split; [vm_compute; discriminate|]. split; [vm_compute; reflexivity|]. split; [vm_compute; reflexivity|].
  split. { assert (finite32 3267887104) as Hf by (vm_compute; discriminate).
           destruct (repr32_reads _ Hf) as (_ & _ & R & _). eapply rounds_to_eq; [| |exact R]; [vm_compute|]; reflexivity. }
  repeat split; vm_compute; reflexivity.
Qed.
