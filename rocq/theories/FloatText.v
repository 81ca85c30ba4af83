(** * The text of float.__repr__ *)
From Coq Require Import List ZArith Lia Bool String QArith Qabs Qpower.
From Coq Require Import ZifyBool.
From Verif Require Import PyBase Model Parsers Json FloatRepr Spec SpecDict SpecJson SpecFloat BaseProofs JsonProofs FloatProofs.
Import ListNotations.
Local Open Scope list_scope.
Local Open Scope Z_scope.

(** ** Digits *)

Lemma digits_value_app a b : digits_value (a ++ b) = digits_value a * 10 ^ zlen b + digits_value b.
Proof. unfold digits_value. rewrite fold_left_app. apply fold_digits_acc. Qed.

Lemma digits_value_zeros n : digits_value (repeat 48 n) = 0.
Proof.
  induction n as [|n IH]; [reflexivity|]. change (repeat 48 (S n)) with ([48] ++ repeat 48 n).
  rewrite digits_value_app, IH. reflexivity.
Qed.

Lemma zlen_repeat {A} (x : A) n : zlen (repeat x n) = Z.of_nat n.
Proof. unfold zlen. rewrite repeat_length. reflexivity. Qed.

Lemma digits_zeros n : forallb is_digit (repeat 48 n) = true.
Proof. induction n; [reflexivity|exact IHn]. Qed.

(** The digits of a positive integer. *)
Lemma digits_of_pos z : 0 < z ->
  exists c s, digits_of z = c :: s /\ forallb is_digit (c :: s) = true /\ c <> 48 /\ digits_value (c :: s) = z.
Proof.
  intros Hz. unfold digits_of. pose proof (int_text_str z) as E. unfold int_text in E.
  destruct (is_number (text (str_of_int z))) eqn:N; [|discriminate E].
  destruct (text (str_of_int z)) as [|c s] eqn:T; [discriminate E|]. exists c, s. split; [reflexivity|].
  destruct (Z.eqb_spec c 45) as [->|Hc].
  - exfalso. destruct (forallb is_digit s) eqn:F; [|discriminate E]. injection E as E.
    assert (0 <= digits_value s); [|lia]. clear -F. unfold digits_value.
    assert (forall a, 0 <= a -> 0 <= fold_left (fun a c => 10 * a + (c - 48)) s a) as K; [|apply K; lia].
    induction s as [|c s IH]; intros a Ha; cbn [fold_left]; [exact Ha|]. cbn [forallb] in F. apply andb_prop in F as [Hc F].
    apply IH; [exact F|]. unfold is_digit in Hc. lia.
  - destruct (forallb is_digit (c :: s)) eqn:F; [|discriminate E]. injection E as E. split; [reflexivity|]. split; [|exact E].
    intros ->. unfold is_number in N. change (48 =? 45) with false in N. cbn [skip_int] in N. rewrite Z.eqb_refl in N.
    cbn [forallb] in F. apply andb_prop in F as [_ F].
    destruct s as [|d s]; [change (digits_value [48]) with 0 in E; lia|].
    cbn [forallb] in F. apply andb_prop in F as [Hd F]. unfold is_digit in Hd. cbn [skip_frac] in N.
    replace (d =? 46) with false in N by lia. cbn [skip_exp] in N.
    replace ((d =? 101) || (d =? 69)) with false in N by lia. discriminate N.
Qed.

Lemma digits_of_nonneg z : 0 <= z -> forallb is_digit (digits_of z) = true /\ digits_of z <> [] /\ digits_value (digits_of z) = z.
Proof.
  intros H. destruct (Z.eq_dec z 0) as [->|N]; [split; [reflexivity|]; split; [discriminate|reflexivity]|].
  destruct (digits_of_pos z ltac:(lia)) as (c & s & -> & A & _ & B). split; [exact A|]. split; [discriminate|exact B].
Qed.

Lemma drop_zeros_spec l : exists n, l = repeat 48 n ++ drop_zeros l.
Proof.
  induction l as [|c l (n & IH)]; [exists O; reflexivity|]. cbn [drop_zeros].
  destruct (Z.eqb_spec c 48) as [->|H]; [exists (S n); cbn [repeat app]; f_equal; exact IH|exists O; reflexivity].
Qed.
Lemma strip_zeros_spec l : exists n, l = strip_zeros l ++ repeat 48 n.
Proof.
  destruct (drop_zeros_spec (rev l)) as (n & E). exists n. unfold strip_zeros.
  transitivity (rev (repeat 48 n ++ drop_zeros (rev l))); [rewrite <- E; symmetry; apply rev_involutive|].
  rewrite rev_app_distr. f_equal.
  clear. induction n as [|n IH]; [reflexivity|]. cbn [repeat rev]. rewrite IH. clear.
  induction n as [|n IH]; [reflexivity|]. cbn [repeat app]. f_equal. exact IH.
Qed.

(** The stripped digits of a positive integer. *)
Lemma stripped d : 0 < d ->
  exists c s j, strip_zeros (digits_of d) = c :: s /\ forallb is_digit (c :: s) = true /\ c <> 48 /\
    0 <= j /\ d = digits_value (c :: s) * 10 ^ j /\ zlen (digits_of d) = zlen (c :: s) + j.
Proof.
  intros Hd. destruct (digits_of_pos d Hd) as (c & s & E & F & N & V).
  destruct (strip_zeros_spec (digits_of d)) as (n & S).
  destruct (strip_zeros (digits_of d)) as [|c' s'].
  - exfalso. rewrite E in S. destruct n as [|n]; [discriminate S|]. injection S as S _. congruence.
  - rewrite E in S. injection S as <- S. exists c, s', (Z.of_nat n). split; [reflexivity|].
    rewrite S in F, V. change (c :: s' ++ repeat 48 n) with ((c :: s') ++ repeat 48 n) in F, V.
    rewrite forallb_app in F. apply andb_prop in F as [F _]. split; [exact F|]. split; [exact N|]. split; [lia|].
    rewrite digits_value_app, digits_value_zeros, zlen_repeat in V. split; [lia|].
    rewrite E, S. change (c :: s' ++ repeat 48 n) with ((c :: s') ++ repeat 48 n). rewrite zlen_app, zlen_repeat. reflexivity.
Qed.

(** ** The general form of a number text *)

Definition not_digit_first (l : list Z) : Prop := match l with [] => True | c :: _ => is_digit c = false end.

Lemma take_digits_app a b : forallb is_digit a = true -> not_digit_first b -> take_digits (a ++ b) = (a, b).
Proof.
  intros Ha Hb. induction a as [|c a IH].
  - cbn [app]. destruct b as [|c b]; [reflexivity|]. cbn [take_digits]. cbn in Hb. rewrite Hb. reflexivity.
  - cbn [forallb] in Ha. apply andb_prop in Ha as [Hc Ha]. cbn [app take_digits]. rewrite Hc, IH by exact Ha. reflexivity.
Qed.
Lemma skip_digits_app a b : forallb is_digit a = true -> not_digit_first b -> skip_digits (a ++ b) = b.
Proof.
  intros Ha Hb. induction a as [|c a IH].
  - cbn [app]. destruct b as [|c b]; [reflexivity|]. cbn [skip_digits]. cbn in Hb. rewrite Hb. reflexivity.
  - cbn [forallb] in Ha. apply andb_prop in Ha as [Hc Ha]. cbn [app skip_digits]. rewrite Hc. apply IH. exact Ha.
Qed.

Definition frac_text (f : list Z) : list Z := match f with [] => [] | _ => 46 :: f end.
Definition exp_text (e : option (Z * list Z)) : list Z := match e with None => [] | Some (sg, x) => 101 :: sg :: x end.
Definition exp_ok (e : option (Z * list Z)) : Prop :=
  match e with None => True | Some (sg, x) => (sg = 43 \/ sg = 45) /\ forallb is_digit x = true /\ x <> [] end.
Definition exp_val (e : option (Z * list Z)) : Z :=
  match e with None => 0 | Some (sg, x) => if sg =? 45 then - digits_value x else digits_value x end.

Lemma exp_first e : not_digit_first (exp_text e).
Proof. destruct e as [[sg x]|]; [reflexivity|exact I]. Qed.

Lemma number_form c s f e : forallb is_digit (c :: s) = true -> (c = 48 -> s = []) -> forallb is_digit f = true ->
  exp_ok e -> f <> [] \/ e <> None ->
  let t := (c :: s) ++ frac_text f ++ exp_text e in
  is_number t = true /\ is_number (45 :: t) = true /\ int_text t = None /\ int_text (45 :: t) = None /\ c <> 45 /\
  unsigned_value t = dec_q (digits_value ((c :: s) ++ f)) (exp_val e - zlen f).
Proof.
  intros Hi H0 Hf He Hne t. pose proof Hi as Hi2. cbn [forallb] in Hi2. apply andb_prop in Hi2 as [Hc Hs].
  assert (48 <= c <= 57) as Rc by (unfold is_digit in Hc; lia).
  assert (not_digit_first (frac_text f ++ exp_text e)) as ND.
  { destruct f; [apply exp_first|reflexivity]. }
  assert (match skip_int t with
          | Some s => match skip_frac s with
              | Some s => match skip_exp s with Some [] => true | _ => false end
              | None => false
              end
          | None => false
          end = true) as K.
  { assert (skip_int t = Some (frac_text f ++ exp_text e)) as ->.
    { unfold t. cbn [app skip_int]. destruct (Z.eqb_spec c 48) as [->|Hn].
      - rewrite (H0 eq_refl). reflexivity.
      - rewrite Hc, skip_digits_app by assumption. reflexivity. }
    assert (skip_frac (frac_text f ++ exp_text e) = Some (exp_text e)) as ->.
    { destruct f as [|a f].
      - cbn [frac_text app]. destruct e as [[sg x]|]; reflexivity.
      - cbn [frac_text app skip_frac]. rewrite Z.eqb_refl. cbn [some_digits]. cbn [forallb] in Hf.
        apply andb_prop in Hf as [Ha Hf]. rewrite Ha, skip_digits_app by (exact Hf || apply exp_first). reflexivity. }
    destruct e as [[sg x]|]; [|reflexivity]. destruct He as (Hsg & Hx & Hxn). cbn [exp_text skip_exp].
    cbn [Z.eqb Pos.eqb orb]. replace ((sg =? 43) || (sg =? 45)) with true by lia.
    destruct x as [|a x]; [congruence|]. cbn [some_digits]. cbn [forallb] in Hx. apply andb_prop in Hx as [Ha Hx].
    rewrite Ha, skip_digits_all by exact Hx. reflexivity. }
  assert (is_number t = true) as N1.
  { unfold is_number. unfold t at 1 2. cbn [app]. replace (c =? 45) with false by lia. exact K. }
  assert (is_number (45 :: t) = true) as N2 by (unfold is_number; rewrite Z.eqb_refl; exact K).
  assert (forallb is_digit t = false) as NA.
  { unfold t. rewrite !forallb_app. destruct f as [|a f]; [|cbn; rewrite ?andb_false_r; reflexivity].
    destruct e as [[sg x]|]; [cbn; rewrite ?andb_false_r; reflexivity|]. destruct Hne; congruence. }
  split; [exact N1|]. split; [exact N2|]. split.
  { unfold int_text. rewrite N1, NA. unfold t at 1. cbn [app]. replace (c =? 45) with false by lia. reflexivity. }
  split. { unfold int_text. rewrite N2, Z.eqb_refl, NA. reflexivity. }
  split; [lia|]. unfold unsigned_value, t. rewrite take_digits_app by assumption.
  assert (exponent_value (exp_text e) = exp_val e) as EV.
  { destruct e as [[sg x]|]; [|reflexivity]. destruct He as (Hsg & _). cbn [exp_text exponent_value exp_val].
    destruct Hsg as [-> | ->]; reflexivity. }
  destruct f as [|a f].
  - cbn [frac_text app]. rewrite app_nil_r, <- EV.
    destruct e as [[sg x]|]; cbn [exp_text]; [change (101 =? 46) with false|]; cbv iota; rewrite app_nil_r; reflexivity.
  - cbn [frac_text app]. rewrite Z.eqb_refl. change (a :: f ++ exp_text e) with ((a :: f) ++ exp_text e).
    rewrite take_digits_app by (exact Hf || apply exp_first). rewrite EV. reflexivity.
Qed.

Lemma ztake_digits n l : forallb is_digit l = true -> forallb is_digit (ztake n l) = true /\ forallb is_digit (zdrop n l) = true.
Proof.
  intros H. rewrite <- (ztake_zdrop n l), forallb_app in H. apply andb_prop in H. exact H.
Qed.

(** The text of [d * 10^k]. *)
Lemma format_short_form d k : 0 < d ->
  exists c s f e, format_short d k = (c :: s) ++ frac_text f ++ exp_text e /\
    forallb is_digit (c :: s) = true /\ (c = 48 -> s = []) /\ forallb is_digit f = true /\ exp_ok e /\ (f <> [] \/ e <> None) /\
    (dec_q (digits_value ((c :: s) ++ f)) (exp_val e - zlen f) == dec_q d k)%Q.
Proof.
  intros Hd. destruct (stripped d Hd) as (c & s & j & E & F & N & Hj & V & L).
  unfold format_short. rewrite E, L. set (decpt := zlen (c :: s) + j + k).
  pose proof (zlen_nonneg s) as Hs. assert (zlen (c :: s) = 1 + zlen s) as Lc by apply zlen_cons.
  (* the value without the stripped zeros *)
  assert (dec_q d k == dec_q (digits_value (c :: s)) (decpt - zlen (c :: s)))%Q as VD.
  { rewrite V. rewrite <- (dec_shift (digits_value (c :: s)) (decpt - zlen (c :: s)) j) by exact Hj.
    replace (decpt - zlen (c :: s) - j) with k by lia. reflexivity. }
  destruct ((-4 <? decpt) && (decpt <=? 16)) eqn:B.
  - destruct (Z.leb_spec decpt 0) as [L0|L0].
    + exists 48, [], (repeat 48 (Z.to_nat (- decpt)) ++ c :: s), None.
      split. { cbn [exp_text]. rewrite app_nil_r. destruct (Z.to_nat (- decpt)); reflexivity. }
      split; [reflexivity|]. split; [reflexivity|].
      split; [rewrite forallb_app, digits_zeros; exact F|]. split; [exact I|].
      split. { left. destruct (Z.to_nat (- decpt)); discriminate. }
      rewrite VD. cbn [exp_val]. rewrite digits_value_app, digits_value_app, digits_value_zeros, zlen_app, zlen_repeat.
      change (digits_value [48]) with 0.
      match goal with |- (dec_q ?a ?b == dec_q ?a' ?b')%Q => replace a with a' by lia; replace b with b' by lia end. reflexivity.
    + destruct (Z.ltb_spec decpt (zlen (c :: s))) as [L1|L1].
      * assert (ztake decpt (c :: s) = c :: ztake (decpt - 1) s) as T.
        { unfold ztake. replace (Z.to_nat decpt) with (S (Z.to_nat (decpt - 1))) by lia. reflexivity. }
        assert (zlen (zdrop decpt (c :: s)) = zlen (c :: s) - decpt) as LD by (rewrite zlen_zdrop; lia).
        exists c, (ztake (decpt - 1) s), (zdrop decpt (c :: s)), None.
        split. { rewrite T. cbn [exp_text]. rewrite app_nil_r. destruct (zdrop decpt (c :: s)); [change (zlen (@nil Z)) with 0 in LD; lia|reflexivity]. }
        rewrite <- T. destruct (ztake_digits decpt (c :: s) F) as [F1 F2].
        split; [exact F1|]. split; [congruence|]. split; [exact F2|]. split; [exact I|].
        split. { left. intros X. rewrite X in LD. change (zlen (@nil Z)) with 0 in LD. lia. }
        rewrite VD, ztake_zdrop, LD. cbn [exp_val].
        match goal with |- (dec_q ?a ?b == dec_q ?a' ?b')%Q => replace b with b' by lia end. reflexivity.
      * exists c, (s ++ repeat 48 (Z.to_nat (decpt - zlen (c :: s)))), [48], None.
        split. { cbn [exp_text frac_text app]. rewrite <- app_assoc. reflexivity. }
        split. { cbn [forallb] in *. rewrite forallb_app, digits_zeros, andb_true_r. exact F. }
        split; [congruence|]. split; [reflexivity|]. split; [exact I|]. split; [left; discriminate|].
        rewrite VD. cbn [exp_val].
        change ((c :: s ++ repeat 48 (Z.to_nat (decpt - zlen (c :: s)))) ++ [48])
          with (((c :: s) ++ repeat 48 (Z.to_nat (decpt - zlen (c :: s)))) ++ [48]).
        rewrite !digits_value_app, digits_value_zeros, zlen_repeat. change (digits_value [48]) with 0. change (zlen [48]) with 1.
        rewrite <- (dec_shift (digits_value (c :: s)) (decpt - zlen (c :: s)) (decpt - zlen (c :: s) + 1)) by lia.
        rewrite Z.pow_add_r by lia. rewrite Z2Nat.id by lia.
        match goal with |- (dec_q ?a ?b == dec_q ?a' ?b')%Q => replace a with a' by lia; replace b with b' by lia end. reflexivity.
  - set (e := decpt - 1).
    exists c, [], s, (Some (if e <? 0 then 45 else 43, (if Z.abs e <? 10 then [48] else []) ++ digits_of (Z.abs e))).
    destruct (digits_of_nonneg (Z.abs e) ltac:(lia)) as (A1 & A2 & A3).
    split.
    { cbn [exp_text app]. f_equal.
      - destruct s as [|c2 s]; [reflexivity|]. rewrite !zlen_cons in *. pose proof (zlen_nonneg s).
        destruct (Z.ltb_spec 1 (1 + (1 + zlen s))) as [_|X]; [|lia]. reflexivity. }
    pose proof F as F'. cbn [forallb] in F'. apply andb_prop in F' as [Fc Fs].
    split; [cbn [forallb]; rewrite Fc; reflexivity|]. split; [reflexivity|]. split; [exact Fs|].
    split. { split; [destruct (e <? 0); auto|]. split; [rewrite forallb_app, A1; destruct (Z.abs e <? 10); reflexivity|].
             destruct (Z.abs e <? 10); [discriminate|exact A2]. }
    split; [right; discriminate|]. rewrite VD. cbn [exp_val app].
    assert (digits_value ((if Z.abs e <? 10 then [48] else []) ++ digits_of (Z.abs e)) = Z.abs e) as ->.
    { rewrite digits_value_app, A3. destruct (Z.abs e <? 10); cbn [digits_value fold_left]; lia. }
    assert ((if (if e <? 0 then 45 else 43) =? 45 then - Z.abs e else Z.abs e) = e) as ->.
    { destruct (Z.ltb_spec e 0); cbn [Z.eqb Pos.eqb]; lia. }
    match goal with |- (dec_q ?a ?b == dec_q ?a' ?b')%Q => replace b with b' by lia end. reflexivity.
Qed.

Lemma rounds_to_opp q x : rounds_to q x -> rounds_to (- q) (- x).
Proof.
  assert (forall a, is_double a -> is_double (- a)) as ID.
  { intros a (m & e & H1 & H2 & H3). exists (- m), e. split; [lia|]. split; [exact H2|]. rewrite H3. unfold bin_q. rewrite inject_Z_opp. ring. }
  assert (forall a, even_double a -> even_double (- a)) as IE.
  { intros a (m & e & H1 & H2 & H3 & H4 & H5). exists (- m), e. split; [lia|]. split; [exact H2|]. split; [lia|].
    split; [rewrite Z.even_opp; exact H4|]. rewrite H5. unfold bin_q. rewrite inject_Z_opp. ring. }
  assert (forall a b, even_double a -> (b == a)%Q -> even_double b) as EQ.
  { intros a b (m & e & H1 & H2 & H3 & H4 & H5) E. exists m, e. rewrite E. auto. }
  intros (R1 & R2). split; [apply ID, R1|]. intros y Hy N.
  assert (Qabs (- q - - x) == Qabs (q - x))%Q as E1.
  { rewrite <- (Qabs_opp (q - x)). apply Qabs_wd. ring. }
  assert (Qabs (- q - y) == Qabs (q - - y))%Q as E2.
  { rewrite <- (Qabs_opp (q - - y)). apply Qabs_wd. ring. }
  rewrite E1, E2. destruct (R2 (- y)%Q) as [R|(R & V & O)].
  - apply ID, Hy.
  - intros X. apply N. rewrite <- X. ring.
  - left. exact R.
  - right. split; [exact R|]. split; [apply IE, V|]. intros X. apply O. apply IE, X.
Qed.

Lemma rounds_to_eq q q' x x' : (q == q')%Q -> (x == x')%Q -> rounds_to q x -> rounds_to q' x'.
Proof.
  intros Eq Ex (R1 & R2). split.
  - destruct R1 as (m & e & H1 & H2 & H3). exists m, e. rewrite <- Ex. auto.
  - intros y Hy N. rewrite <- Ex in N. destruct (R2 y Hy N) as [R|(R & (m & e & V1 & V2 & V3 & V4 & V5) & O)].
    + left. rewrite <- Eq, <- Ex. exact R.
    + right. split; [rewrite <- Eq, <- Ex; exact R|]. split; [|exact O]. exists m, e. rewrite <- Ex. auto.
Qed.

(** Reading is a function: at most one double is the nearest. *)
Lemma rounds_to_unique q x x' : rounds_to q x -> rounds_to q x' -> (x == x')%Q.
Proof.
  intros (A1 & A2) (B1 & B2). destruct (Qeq_dec x x') as [E|N]; [exact E|exfalso].
  assert (~ (x' == x)%Q) as N' by (intros X; apply N; symmetry; exact X).
  destruct (A2 x' B1 N') as [R|(R & V & O)]; destruct (B2 x A1 N) as [R'|(R' & V' & O')].
  - apply (Qlt_irrefl (Qabs (q - x))). eapply Qlt_trans; eassumption.
  - rewrite R' in R. apply (Qlt_irrefl _ R).
  - rewrite R in R'. apply (Qlt_irrefl _ R').
  - apply O, V'.
Qed.

Lemma rounds_to_zero : rounds_to 0 0.
Proof.
  split.
  - exists 0, 0. split; [reflexivity|]. split; [lia|]. reflexivity.
  - intros y _ N. left. assert (Qabs (0 - 0) == 0)%Q as -> by reflexivity.
    destruct (Qlt_le_dec 0 (Qabs (0 - y))) as [L|L]; [exact L|exfalso]. apply N.
    apply Qabs_Qle_condition in L. destruct L as [L1 L2].
    apply Qle_antisym.
    + apply (Qplus_le_r _ _ (- y)). ring_simplify. ring_simplify in L1. exact L1.
    + apply (Qplus_le_r _ _ (- y)). ring_simplify. ring_simplify in L2. exact L2.
Qed.

Lemma repr32_reads b : finite32 b -> reads_as_float b (repr32 b).
Proof.
  intros Hf. unfold finite32 in Hf. unfold repr32. change (2 ^ 31) with 2147483648.
  set (body := if f32_significand b =? 0 then [48; 46; 48]
               else let (d, k) := shortest_decimal (f32_significand b) (f32_power b) in format_short d k).
  set (x := if b / 8388608 mod 256 =? 0 then bin_q (b mod 8388608) (-149) else bin_q (8388608 + b mod 8388608) (b / 8388608 mod 256 - 150)).
  assert (bin_q (f32_significand b) (f32_power b) = x) as EX.
  { unfold x, f32_significand, f32_power, f32_exponent, f32_mantissa. change (2 ^ 23) with 8388608.
    destruct (b / 8388608 mod 256 =? 0); [reflexivity|]. f_equal. lia. }
  pose proof (Z.mod_pos_bound b 8388608 ltac:(lia)) as B1. pose proof (Z.mod_pos_bound (b / 8388608) 256 ltac:(lia)) as B2.
  assert (exists c s f e, body = (c :: s) ++ frac_text f ++ exp_text e /\
    forallb is_digit (c :: s) = true /\ (c = 48 -> s = []) /\ forallb is_digit f = true /\ exp_ok e /\ (f <> [] \/ e <> None) /\
    rounds_to (dec_q (digits_value ((c :: s) ++ f)) (exp_val e - zlen f)) x) as (c & s & f & e & E & F1 & F2 & F3 & F4 & F5 & R).
  { unfold body. destruct (Z.eqb_spec (f32_significand b) 0) as [Z0|Z0].
    - exists 48, [], [48], None. split; [reflexivity|]. split; [reflexivity|]. split; [reflexivity|]. split; [reflexivity|].
      split; [exact I|]. split; [left; discriminate|]. rewrite <- EX, Z0.
      eapply rounds_to_eq; [| |apply rounds_to_zero]; [reflexivity|]. unfold bin_q. change (inject_Z 0) with 0%Q. ring.
    - destruct (shortest_decimal (f32_significand b) (f32_power b)) as [d k] eqn:S.
      destruct (shortest_decimal_reads (f32_significand b) (f32_power b) d k) as (Hd & R); [| |exact S|].
      + unfold f32_significand, f32_mantissa, f32_exponent in *. change (2 ^ 23) with 8388608 in *. change (2 ^ 24) with 16777216. destruct (_ =? 0); lia.
      + unfold f32_power, f32_exponent. change (2 ^ 23) with 8388608. destruct (Z.eqb_spec (b / 8388608 mod 256) 0); lia.
      + destruct (format_short_form d k Hd) as (c & s & f & e & E & F1 & F2 & F3 & F4 & F5 & V).
        exists c, s, f, e. split; [exact E|]. split; [exact F1|]. split; [exact F2|]. split; [exact F3|]. split; [exact F4|].
        split; [exact F5|]. rewrite <- EX. eapply rounds_to_eq; [symmetry; exact V|reflexivity|exact R]. }
  destruct (number_form c s f e F1 F2 F3 F4 F5) as (N1 & N2 & N3 & N4 & N5 & U). rewrite <- E in *.
  assert (exists r, body = c :: r) as (r & Er) by (rewrite E; eexists; reflexivity).
  unfold reads_as_float, value32, negative32. fold x.
  destruct (Z.ltb_spec b 2147483648) as [L|L]; cbn [app].
  - split; [exact N1|]. split; [exact N3|]. split.
    + rewrite Er. cbn [number_value]. replace (c =? 45) with false by lia. rewrite <- Er, U. exact R.
    + rewrite Er. cbn [hd]. lia.
  - split; [exact N2|]. split; [exact N4|]. split.
    + cbn [number_value]. rewrite Z.eqb_refl, U. apply rounds_to_opp, R.
    + cbn [hd]. lia.
Qed.
