(** * The decompressor agrees with the RFCs (for C41) *)
From Coq Require Import List ZArith Lia Bool.
From Coq Require Import Init.Byte.
From Coq Require Import ZifyBool.
From Verif Require Import PyBase Inflate SpecDeflate BaseProofs InflateProofs.
Import ListNotations.
Local Open Scope list_scope.
Local Open Scope Z_scope.

(** ** The reader as a list of bits *)

Definition wfb (s : bst) : Prop := (List.length (b_bits s) < 8)%nat.
Definition sb (s : bst) : list bool := b_bits s ++ data_bits (b_bytes s).

Lemma byte_bits_len b : List.length (byte_bits b) = 8%nat.
Proof. reflexivity. Qed.
Lemma bits_of_byte_spec b : bits_of_byte b = byte_bits b.
Proof.
  unfold bits_of_byte, byte_bits. cbn [map]. rewrite !Z.testbit_odd, !Z.shiftr_div_pow2 by lia. reflexivity.
Qed.
Lemma data_bits_len l : List.length (data_bits l) = (8 * List.length l)%nat.
Proof. unfold data_bits. induction l as [|b l IH]; [reflexivity|]. cbn [flat_map List.length]. rewrite app_length, IH, byte_bits_len. lia. Qed.
Lemma data_bits_app a b : data_bits (a ++ b) = data_bits a ++ data_bits b.
Proof. apply flat_map_app. Qed.
Lemma sb_len s : List.length (sb s) = bsize s.
Proof. unfold sb, bsize. rewrite app_length, data_bits_len. reflexivity. Qed.

Lemma app_inj_len {A} (a b c d : list A) : a ++ b = c ++ d -> List.length a = List.length c -> a = c /\ b = d.
Proof.
  revert c. induction a as [|x a IH]; intros [|y c] E L; try discriminate L; [auto|].
  injection E as -> E. injection L as L. destruct (IH c E L) as [-> ->]. auto.
Qed.

(** A parser as a relation between its result, the bits it takes and the bits that follow. *)
Definition Rd {A} (m : P A) (R : A -> list bool -> list bool -> Prop) : Prop := forall s, wfb s ->
  (forall a s', m s = Some (a, s') -> wfb s' /\ exists w, sb s = w ++ sb s' /\ R a w (sb s')) /\
  (forall a w rest, sb s = w ++ rest -> R a w rest -> exists s', m s = Some (a, s') /\ wfb s' /\ sb s' = rest).

Lemma Rd_iff {A} (m : P A) R R' : (forall a w rest, R a w rest <-> R' a w rest) -> Rd m R -> Rd m R'.
Proof.
  intros E H s W. destruct (H s W) as [H1 H2]. split.
  - intros a s' X. destruct (H1 a s' X) as (W' & w & S & Q). split; [exact W'|]. exists w. split; [exact S|apply E, Q].
  - intros a w rest S Q. apply (H2 a w rest S), E, Q.
Qed.

Lemma Rd_ret {A} (a : A) : Rd (pret a) (fun b w _ => b = a /\ w = []).
Proof.
  intros s W. split.
  - intros b s' E. injection E as <- <-. split; [exact W|]. exists []. auto.
  - intros b w rest S [-> ->]. exists s. split; [reflexivity|]. split; [exact W|exact S].
Qed.
Lemma Rd_fail {A} : Rd (@pfail A) (fun _ _ _ => False).
Proof. intros s W. split; [intros a s' E; discriminate E|intros a w rest _ []]. Qed.

Lemma Rd_bind {A B} (m : P A) (k : A -> P B) R Q : Rd m R -> (forall a, Rd (k a) (Q a)) ->
  Rd (pbind m k) (fun b w rest => exists a w1 w2, w = w1 ++ w2 /\ R a w1 (w2 ++ rest) /\ Q a b w2 rest).
Proof.
  intros Hm Hk s W. destruct (Hm s W) as [M1 M2]. split.
  - intros b s' E. unfold pbind in E. destruct (m s) as [[a s1]|] eqn:Em; [|discriminate E].
    destruct (M1 a s1 eq_refl) as (W1 & w1 & S1 & Q1). destruct (Hk a s1 W1) as [K1 _].
    destruct (K1 b s' E) as (W2 & w2 & S2 & Q2). split; [exact W2|].
    exists (w1 ++ w2). split; [rewrite S1, S2, app_assoc; reflexivity|]. exists a, w1, w2. split; [reflexivity|].
    split; [rewrite <- S2; exact Q1|exact Q2].
  - intros b w rest S (a & w1 & w2 & -> & Q1 & Q2). rewrite <- app_assoc in S.
    destruct (M2 a w1 (w2 ++ rest) S Q1) as (s1 & E1 & W1 & S1).
    destruct (Hk a s1 W1) as [_ K2]. destruct (K2 b w2 rest S1 Q2) as (s2 & E2 & W2 & S2).
    exists s2. unfold pbind. rewrite E1. auto.
Qed.

(** With a postcondition on the first result available. *)
Lemma Rd_bind_if {A B} (m : P A) (k : A -> P B) R Q (T : A -> Prop) : Rd m R -> (forall a w rest, R a w rest -> T a) ->
  (forall a, T a -> Rd (k a) (Q a)) ->
  Rd (pbind m k) (fun b w rest => exists a w1 w2, w = w1 ++ w2 /\ R a w1 (w2 ++ rest) /\ Q a b w2 rest).
Proof.
  intros Hm HT Hk s W. destruct (Hm s W) as [M1 M2]. split.
  - intros b s' E. unfold pbind in E. destruct (m s) as [[a s1]|] eqn:Em; [|discriminate E].
    destruct (M1 a s1 eq_refl) as (W1 & w1 & S1 & Q1). destruct (Hk a (HT _ _ _ Q1) s1 W1) as [K1 _].
    destruct (K1 b s' E) as (W2 & w2 & S2 & Q2). split; [exact W2|].
    exists (w1 ++ w2). split; [rewrite S1, S2, app_assoc; reflexivity|]. exists a, w1, w2. split; [reflexivity|].
    split; [rewrite <- S2; exact Q1|exact Q2].
  - intros b w rest S (a & w1 & w2 & -> & Q1 & Q2). rewrite <- app_assoc in S.
    destruct (M2 a w1 (w2 ++ rest) S Q1) as (s1 & E1 & W1 & S1).
    destruct (Hk a (HT _ _ _ Q1) s1 W1) as [_ K2]. destruct (K2 b w2 rest S1 Q2) as (s2 & E2 & W2 & S2).
    exists s2. unfold pbind. rewrite E1. auto.
Qed.

Lemma Rd_getbit : Rd getbit (fun b w _ => w = [b]).
Proof.
  intros [bits bytes] W. unfold getbit, sb, wfb in *. cbn [b_bits b_bytes] in *. destruct bits as [|b r]; cbn [app].
  - destruct bytes as [|x xs].
    + split; [intros a s' E; discriminate E|]. intros a w rest S ->. discriminate S.
    + change (data_bits (x :: xs)) with (byte_bits x ++ data_bits xs). rewrite bits_of_byte_spec.
      unfold byte_bits. cbn [map app]. split.
      * intros a s' E. injection E as <- <-. cbn [b_bits b_bytes List.length]. split; [lia|]. eexists [_]. split; [|reflexivity]. reflexivity.
      * intros a w rest S ->. injection S as <- <-. eexists. split; [reflexivity|]. cbn [b_bits b_bytes List.length app]. split; [lia|reflexivity].
  - cbn [List.length] in W. split.
    + intros a s' E. injection E as <- <-. cbn [b_bits b_bytes List.length]. split; [lia|]. eexists [_]. split; [|reflexivity]. reflexivity.
    + intros a w rest S ->. injection S as <- <-. eexists. split; [reflexivity|]. cbn [b_bits b_bytes List.length app]. split; [lia|reflexivity].
Qed.

Lemma Rd_getbits n : Rd (getbits n) (fun v w _ => List.length w = n /\ v = lsb_value w).
Proof.
  induction n as [|n IH]; cbn [getbits].
  - eapply Rd_iff; [|apply Rd_ret]. intros a w rest. split.
    + intros [-> ->]. split; reflexivity.
    + intros [L ->]. destruct w; [split; reflexivity|discriminate L].
  - eapply Rd_iff; [|apply Rd_bind; [apply Rd_getbit|intros a; apply Rd_bind; [apply IH|intros v; apply Rd_ret]]].
    intros v w rest. cbn beta. split.
    + intros (b & w1 & w2 & -> & -> & u & w3 & w4 & -> & [L ->] & -> & ->). rewrite app_nil_r. cbn [app List.length lsb_value]. auto.
    + intros [L ->]. destruct w as [|b w]; [discriminate L|]. injection L as L.
      exists b, [b], w. split; [reflexivity|]. split; [reflexivity|]. exists (lsb_value w), w, []. rewrite app_nil_r. auto.
Qed.

Lemma Rd_align : Rd align (fun _ w rest => (List.length w < 8)%nat /\ exists l, rest = data_bits l).
Proof.
  intros [bits bytes] W. unfold align, wfb, sb in *. cbn [b_bits b_bytes] in *. split.
  - intros a s' E. injection E as <- <-. cbn [b_bits b_bytes app List.length]. split; [lia|]. exists bits. split; [reflexivity|].
    split; [exact W|]. exists bytes. reflexivity.
  - intros a w rest S [L (l & ->)]. exists (mkB [] bytes). cbn [b_bits b_bytes app List.length]. split; [destruct a; reflexivity|]. split; [lia|].
    assert (List.length bits = List.length w) as E.
    { apply (f_equal (@List.length bool)) in S. rewrite !app_length, !data_bits_len in S. lia. }
    apply app_inj_len in S; [apply S|exact E].
Qed.

(** ** Huffman codes *)

Lemma occurs_nonneg n l : 0 <= occurs n l.
Proof. apply zlen_nonneg. Qed.

Lemma number_nth n lens : forall i r sym,
  nth_error (map fst (filter (fun p => snd p =? n) (number_from i lens))) r = Some sym <->
  exists k, sym = i + Z.of_nat k /\ nth_error lens k = Some n /\ List.length (filter (fun x => x =? n) (firstn k lens)) = r.
Proof.
  induction lens as [|x lens IH]; intros i r sym; cbn [number_from filter map].
  - split.
    + intros E. destruct r; discriminate E.
    + intros (k & _ & E & _). destruct k; discriminate E.
  - cbn [snd]. destruct (Z.eqb_spec x n) as [->|N]; cbn [map fst].
    + destruct r as [|r]; cbn [nth_error].
      * split.
        -- intros E. injection E as <-. exists 0%nat. split; [lia|]. split; reflexivity.
        -- intros (k & -> & E & L). destruct k as [|k]; [f_equal; lia|]. cbn [firstn filter] in L. rewrite Z.eqb_refl in L. discriminate L.
      * rewrite IH. split.
        -- intros (k & -> & E & L). exists (S k). split; [lia|]. split; [exact E|]. cbn [firstn filter]. rewrite Z.eqb_refl. cbn [List.length]. lia.
        -- intros (k & -> & E & L). destruct k as [|k]; [discriminate L|]. exists k. split; [lia|]. split; [exact E|].
           cbn [firstn filter] in L. rewrite Z.eqb_refl in L. injection L as L. exact L.
    + rewrite IH. split.
      * intros (k & -> & E & L). exists (S k). split; [lia|]. split; [exact E|]. cbn [firstn filter].
        replace (x =? n) with false by lia. exact L.
      * intros (k & -> & E & L). destruct k as [|k]; [cbn in E; congruence|]. exists k. split; [lia|]. split; [exact E|].
        cbn [firstn filter] in L. replace (x =? n) with false in L by lia. exact L.
Qed.

Lemma syms_nth lens n r sym : 0 < n ->
  nth_error (syms_of_len lens n) r = Some sym <->
  (0 <= sym < zlen lens /\ len_of lens sym = n /\ occurs n (ztake sym lens) = Z.of_nat r).
Proof.
  intros Hn. unfold syms_of_len. rewrite number_nth. unfold len_of, occurs, ztake, zlen. split.
  - intros (k & -> & E & L). pose proof (proj1 (nth_error_Some lens k) ltac:(congruence)).
    rewrite Z.add_0_l, Nat2Z.id. split; [lia|]. split; [apply nth_error_nth, E|]. congruence.
  - intros (B & E & L). exists (Z.to_nat sym). split; [lia|]. split; [|lia].
    rewrite <- E. apply nth_error_nth'. lia.
Qed.

Lemma syms_len lens n : zlen (syms_of_len lens n) = occurs n lens.
Proof.
  unfold syms_of_len, occurs, zlen. f_equal. rewrite map_length. generalize 0. induction lens as [|x l IH]; intros i; [reflexivity|].
  cbn [number_from filter snd]. destruct (x =? n); cbn [List.length]; rewrite IH; reflexivity.
Qed.

Definition upto (n k : nat) : list Z := map Z.of_nat (seq n k).

Lemma first_code_step lens n : (0 < n)%nat -> first_code lens (S n) = 2 * (first_code lens n + occurs (Z.of_nat n) lens).
Proof. destruct n; [lia|reflexivity]. Qed.

Lemma first_code_grows lens n j : (0 < n)%nat ->
  (first_code lens n + occurs (Z.of_nat n) lens) * 2 ^ Z.of_nat (S j) <= first_code lens (n + S j).
Proof.
  intros Hn. induction j as [|j IH].
  - rewrite Nat.add_1_r, first_code_step by exact Hn. change (2 ^ Z.of_nat 1) with 2. lia.
  - rewrite Nat.add_succ_r, first_code_step by lia. pose proof (occurs_nonneg (Z.of_nat (n + S j)) lens).
    replace (Z.of_nat (S (S j))) with (Z.of_nat (S j) + 1) by lia. rewrite Z.pow_add_r by lia. change (2 ^ 1) with 2.
    rewrite Z.mul_assoc. set (q := _ * 2 ^ _) in *. clearbody q. lia.
Qed.

Lemma msb_range w : 0 <= msb_value w < 2 ^ zlen w.
Proof.
  induction w as [|b w IH]; [change (0 <= 0 < 1); lia|]. cbn [msb_value]. rewrite zlen_cons. replace (1 + zlen w) with (zlen w + 1) by lia.
  rewrite Z.pow_add_r by (pose proof (zlen_nonneg w); lia). change (2 ^ 1) with 2. destruct b; cbn [Z.b2z]; lia.
Qed.

Lemma Rd_nth {A} (l : list A) i : Rd (match nth_error l i with Some s => pret s | None => pfail end)
  (fun a w _ => w = [] /\ nth_error l i = Some a).
Proof.
  destruct (nth_error l i) as [x|].
  - eapply Rd_iff; [|apply Rd_ret]. intros a w rest. split; [intros [-> ->]; auto|intros [-> E]; split; congruence].
  - eapply Rd_iff; [|apply Rd_fail]. intros a w rest. split; [intros []|intros [_ E]; discriminate E].
Qed.

(** [w] is the rest of the code of [sym] after the bits of value [p], from length [n] on. *)
Definition code_from (lens : list Z) (n k : nat) (p sym : Z) (w : list bool) : Prop :=
  0 <= sym < zlen lens /\ Z.of_nat n <= len_of lens sym < Z.of_nat (n + k) /\
  zlen w = len_of lens sym - Z.of_nat n + 1 /\
  p * 2 ^ zlen w + msb_value w = first_code lens (Z.to_nat (len_of lens sym)) + occurs (len_of lens sym) (ztake sym lens).

Lemma occurs_before lens sym : 0 <= sym < zlen lens ->
  0 <= occurs (len_of lens sym) (ztake sym lens) < occurs (len_of lens sym) lens.
Proof.
  intros H. split; [apply occurs_nonneg|]. unfold occurs, len_of, ztake.
  assert (Z.to_nat sym < List.length lens)%nat as L by (unfold zlen in H; lia).
  replace (filter (fun x => x =? nth (Z.to_nat sym) lens 0) lens)
    with (filter (fun x => x =? nth (Z.to_nat sym) lens 0) (firstn (Z.to_nat sym) lens ++ skipn (Z.to_nat sym) lens))
    by (rewrite firstn_skipn; reflexivity).
  rewrite filter_app, zlen_app.
  remember (skipn (Z.to_nat sym) lens) as r eqn:E.
  assert (nth (Z.to_nat sym) lens 0 = hd 0 r) as N.
  { subst r. clear H. revert L. generalize (Z.to_nat sym). induction lens as [|x l IH]; intros [|m] L; try (cbn in L; lia); [reflexivity|].
    cbn [nth skipn]. apply IH. cbn in L. lia. }
  destruct r as [|x r].
  - exfalso. apply (f_equal (@List.length Z)) in E. rewrite skipn_length in E. cbn in E. lia.
  - cbn [hd] in N. rewrite N. cbn [filter]. rewrite Z.eqb_refl, zlen_cons. pose proof (zlen_nonneg (filter (fun y => y =? x) r)). lia.
Qed.

Lemma decode_sym_rd lens k : forall n p, (0 < n)%nat -> first_code lens n <= 2 * p ->
  Rd (decode_sym (map (fun n => zlen (syms_of_len lens n)) (upto n k)) (flat_map (syms_of_len lens) (upto n k))
        (2 * p) (first_code lens n))
     (fun sym w _ => code_from lens n k p sym w).
Proof.
  induction k as [|k IH]; intros n p Hn Hp.
  - eapply Rd_iff; [|apply Rd_fail]. intros a w rest. unfold code_from. split; [intros []|lia].
  - unfold upto. cbn [seq map flat_map decode_sym]. fold (upto (S n) k).
    eapply Rd_iff; [|apply (Rd_bind _ _ (fun b w _ => w = [b]) (fun b sym w (_ : list bool) =>
          if 2 * p + Z.b2z b <? first_code lens n + occurs (Z.of_nat n) lens
          then w = [] /\ nth_error (syms_of_len lens (Z.of_nat n)) (Z.to_nat (2 * p + Z.b2z b - first_code lens n)) = Some sym
          else code_from lens (S n) k (2 * p + Z.b2z b) sym w)); [apply Rd_getbit|]].
    2:{ intros b. cbn zeta. rewrite syms_len.
        destruct (Z.ltb_spec (2 * p + Z.b2z b) (first_code lens n + occurs (Z.of_nat n) lens)) as [L|L].
        - eapply Rd_iff; [|apply Rd_nth]. intros a w rest. cbn beta. rewrite nth_error_app1; [reflexivity|].
          pose proof (syms_len lens (Z.of_nat n)) as SL. unfold zlen in SL. destruct b; cbn [Z.b2z] in *; lia.
        - rewrite zdrop_app, syms_len. replace (zdrop (occurs (Z.of_nat n) lens) (syms_of_len lens (Z.of_nat n))) with (@nil Z).
          2:{ symmetry. unfold zdrop. apply skipn_all2. pose proof (syms_len lens (Z.of_nat n)) as SL. unfold zlen in SL. lia. }
          rewrite Z.sub_diag. cbn [app]. change (zdrop 0 (flat_map (syms_of_len lens) (upto (S n) k))) with (flat_map (syms_of_len lens) (upto (S n) k)).
          rewrite <- first_code_step by exact Hn. apply IH; [lia|]. rewrite first_code_step by exact Hn. lia. }
    intros sym w rest. cbn beta. split.
    + intros (b & w1 & w2 & -> & -> & H).
      destruct (Z.ltb_spec (2 * p + Z.b2z b) (first_code lens n + occurs (Z.of_nat n) lens)) as [L|L].
      * destruct H as [-> H]. apply syms_nth in H; [|lia]. destruct H as (B & E & O).
        unfold code_from. rewrite E, Nat2Z.id. split; [exact B|]. split; [lia|]. cbn [app]. rewrite zlen_cons. change (zlen (@nil bool)) with 0.
        split; [lia|]. rewrite O. change (2 ^ (1 + 0)) with 2. cbn [msb_value]. change (2 ^ zlen (@nil bool)) with 1. destruct b; cbn [Z.b2z] in *; lia.
      * destruct H as (B & E & Lw & V). unfold code_from. split; [exact B|]. split; [lia|]. cbn [app]. rewrite zlen_cons.
        split; [lia|]. rewrite <- V. cbn [msb_value]. rewrite (Z.pow_add_r 2 1 (zlen w2)) by (pose proof (zlen_nonneg w2); lia).
        change (2 ^ 1) with 2. lia.
    + intros (B & E & Lw & V). destruct w as [|b w]; [change (zlen (@nil bool)) with 0 in Lw; lia|].
      exists b, [b], w. split; [reflexivity|]. split; [reflexivity|]. rewrite zlen_cons in *. cbn [msb_value] in V.
      rewrite (Z.pow_add_r 2 1 (zlen w)) in V by (pose proof (zlen_nonneg w); lia). change (2 ^ 1) with 2 in V.
      pose proof (msb_range w) as MR. pose proof (occurs_before lens sym B) as OB.
      destruct (Z.eq_dec (len_of lens sym) (Z.of_nat n)) as [En|Nn].
      * destruct w as [|b' w]; [|exfalso; rewrite zlen_cons in Lw; pose proof (zlen_nonneg w); lia].
        change (2 ^ zlen (@nil bool)) with 1 in V. cbn [msb_value] in V. rewrite En, Nat2Z.id in *.
        replace (2 * p + Z.b2z b <? first_code lens n + occurs (Z.of_nat n) lens) with true by lia.
        split; [reflexivity|]. apply syms_nth; [lia|]. split; [exact B|]. split; [exact En|]. destruct b; cbn [Z.b2z] in *; lia.
      * pose proof (first_code_grows lens n (Z.to_nat (len_of lens sym) - n - 1) Hn) as G.
        replace (n + S (Z.to_nat (len_of lens sym) - n - 1))%nat with (Z.to_nat (len_of lens sym)) in G by lia.
        replace (Z.of_nat (S (Z.to_nat (len_of lens sym) - n - 1))) with (zlen w) in G by lia.
        assert (0 < 2 ^ zlen w) by lia.
        assert (first_code lens n + occurs (Z.of_nat n) lens <= 2 * p + Z.b2z b) as LE by nia.
        replace (2 * p + Z.b2z b <? first_code lens n + occurs (Z.of_nat n) lens) with false by lia.
        split; [exact B|]. split; [lia|]. split; [lia|]. rewrite <- V. lia.
Qed.

Definition lens_ok (lens : list Z) : Prop := Forall (fun n => 0 <= n <= 15) lens.

Lemma len_of_ok lens sym : lens_ok lens -> 0 <= len_of lens sym <= 15.
Proof.
  intros H. unfold len_of. destruct (Nat.lt_ge_cases (Z.to_nat sym) (List.length lens)) as [L|L].
  - apply Forall_nth; [exact H|exact L].
  - rewrite nth_overflow by exact L. lia.
Qed.

Lemma Rd_decode lens : lens_ok lens -> Rd (decode (mk_huff lens)) (fun sym w _ => is_code lens sym w).
Proof.
  intros Hl. unfold decode, mk_huff. cbn [hf_counts hf_syms].
  eapply Rd_iff; [|exact (decode_sym_rd lens 15 1 0 ltac:(lia) ltac:(cbn; lia))].
  intros sym w rest. cbn beta. unfold code_from, is_code. pose proof (len_of_ok lens sym Hl). change (Z.of_nat 1) with 1. change (Z.of_nat (1 + 15)) with 16.
  split; intros (H1 & H2 & H3 & H4); (split; [exact H1|]); (split; [lia|]); (split; [lia|]); lia.
Qed.

Lemma is_code_len lens sym w : is_code lens sym w -> (0 < List.length w)%nat.
Proof. intros (_ & H & E & _). unfold zlen in E. lia. Qed.

(** ** Readers of at most [N] bits *)

Definition RdN {A} (N : nat) (m : P A) (R : A -> list bool -> list bool -> Prop) : Prop :=
  forall s, wfb s -> (List.length (sb s) <= N)%nat ->
  (forall a s', m s = Some (a, s') -> wfb s' /\ exists w, sb s = w ++ sb s' /\ R a w (sb s')) /\
  (forall a w rest, sb s = w ++ rest -> R a w rest -> exists s', m s = Some (a, s') /\ wfb s' /\ sb s' = rest).

Lemma Rd_RdN {A} N (m : P A) R : Rd m R -> RdN N m R.
Proof. intros H s W _. apply H, W. Qed.
Lemma RdN_le {A} N M (m : P A) R : (M <= N)%nat -> RdN N m R -> RdN M m R.
Proof. intros L H s W S. apply H; [exact W|lia]. Qed.

Lemma RdN_iff {A} N (m : P A) R R' : (forall a w rest, R a w rest <-> R' a w rest) -> RdN N m R -> RdN N m R'.
Proof.
  intros E H s W L. destruct (H s W L) as [H1 H2]. split.
  - intros a s' X. destruct (H1 a s' X) as (W' & w & S & Q). split; [exact W'|]. exists w. split; [exact S|apply E, Q].
  - intros a w rest S Q. apply (H2 a w rest S), E, Q.
Qed.

Lemma RdN_bind {A B} N M c (m : P A) (k : A -> P B) R Q (T : A -> Prop) : (N <= M + c)%nat -> RdN N m R ->
  (forall a w rest, R a w rest -> T a /\ (c <= List.length w)%nat) ->
  (forall a, T a -> RdN M (k a) (Q a)) ->
  RdN N (pbind m k) (fun b w rest => exists a w1 w2, w = w1 ++ w2 /\ R a w1 (w2 ++ rest) /\ Q a b w2 rest).
Proof.
  intros Hc Hm HT Hk s W L. destruct (Hm s W L) as [M1 M2]. split.
  - intros b s' E. unfold pbind in E. destruct (m s) as [[a s1]|] eqn:Em; [|discriminate E].
    destruct (M1 a s1 eq_refl) as (W1 & w1 & S1 & Q1). destruct (HT _ _ _ Q1) as [Ta Lc].
    assert (List.length (sb s1) <= M)%nat as L1 by (rewrite S1, app_length in L; lia).
    destruct (Hk a Ta s1 W1 L1) as [K1 _].
    destruct (K1 b s' E) as (W2 & w2 & S2 & Q2). split; [exact W2|].
    exists (w1 ++ w2). split; [rewrite S1, S2, app_assoc; reflexivity|]. exists a, w1, w2. split; [reflexivity|].
    split; [rewrite <- S2; exact Q1|exact Q2].
  - intros b w rest S (a & w1 & w2 & -> & Q1 & Q2). rewrite <- app_assoc in S.
    destruct (M2 a w1 (w2 ++ rest) S Q1) as (s1 & E1 & W1 & S1). destruct (HT _ _ _ Q1) as [Ta Lc].
    assert (List.length (sb s1) <= M)%nat as L1 by (rewrite S, !app_length in L; rewrite S1, app_length; lia).
    destruct (Hk a Ta s1 W1 L1) as [_ K2]. destruct (K2 b w2 rest S1 Q2) as (s2 & E2 & W2 & S2).
    exists s2. unfold pbind. rewrite E1. auto.
Qed.

(** ** Lengths, distances, copies *)

Definition extra_rel (bases : list Z) (extras : list nat) (i v : Z) (w _ : list bool) : Prop :=
  exists b e, nth_error bases (Z.to_nat i) = Some b /\ nth_error extras (Z.to_nat i) = Some e /\
    List.length w = e /\ v = b + lsb_value w.
Lemma Rd_with_extra bases extras i : Rd (with_extra bases extras i) (extra_rel bases extras i).
Proof.
  unfold with_extra, extra_rel. destruct (nth_error bases (Z.to_nat i)) as [b|].
  2:{ eapply Rd_iff; [|apply Rd_fail]. intros a w rest. split; [intros []|intros (? & ? & E & _); discriminate E]. }
  destruct (nth_error extras (Z.to_nat i)) as [e|].
  2:{ eapply Rd_iff; [|apply Rd_fail]. intros a w rest. split; [intros []|intros (? & ? & _ & E & _); discriminate E]. }
  eapply Rd_iff; [|apply Rd_bind; [apply Rd_getbits|intros x; apply Rd_ret]]. intros a w rest. cbn beta. split.
  - intros (x & w1 & w2 & -> & [L ->] & -> & ->). rewrite app_nil_r. exists b, e. auto.
  - intros (b' & e' & E1 & E2 & L & ->). injection E1 as <-. injection E2 as <-.
    exists (lsb_value w), w, []. rewrite app_nil_r. auto.
Qed.

Lemma length_table sym e b : 257 <= sym ->
  (nth_error len_base (Z.to_nat (sym - 257)) = Some b /\ nth_error len_extra (Z.to_nat (sym - 257)) = Some e) <->
  length_code sym (Z.of_nat e) b.
Proof.
  intros H. split.
  - intros [E1 E2]. pose proof (proj1 (nth_error_Some len_base _) ltac:(rewrite E1; discriminate)) as L.
    change (List.length len_base) with 29%nat in L. remember (Z.to_nat (sym - 257)) as k eqn:K.
    assert (sym = 257 + Z.of_nat k) as -> by lia. clear K H.
    do 8 (destruct k as [|k]; [injection E1 as <-; injection E2 as <-; apply lc_short; lia|]).
    do 4 (destruct k as [|k]; [injection E1 as <-; injection E2 as <-; solve [exact (lc_long 1 0 ltac:(lia) ltac:(lia))|exact (lc_long 1 1 ltac:(lia) ltac:(lia))|exact (lc_long 1 2 ltac:(lia) ltac:(lia))|exact (lc_long 1 3 ltac:(lia) ltac:(lia))]|]).
    do 4 (destruct k as [|k]; [injection E1 as <-; injection E2 as <-; solve [exact (lc_long 2 0 ltac:(lia) ltac:(lia))|exact (lc_long 2 1 ltac:(lia) ltac:(lia))|exact (lc_long 2 2 ltac:(lia) ltac:(lia))|exact (lc_long 2 3 ltac:(lia) ltac:(lia))]|]).
    do 4 (destruct k as [|k]; [injection E1 as <-; injection E2 as <-; solve [exact (lc_long 3 0 ltac:(lia) ltac:(lia))|exact (lc_long 3 1 ltac:(lia) ltac:(lia))|exact (lc_long 3 2 ltac:(lia) ltac:(lia))|exact (lc_long 3 3 ltac:(lia) ltac:(lia))]|]).
    do 4 (destruct k as [|k]; [injection E1 as <-; injection E2 as <-; solve [exact (lc_long 4 0 ltac:(lia) ltac:(lia))|exact (lc_long 4 1 ltac:(lia) ltac:(lia))|exact (lc_long 4 2 ltac:(lia) ltac:(lia))|exact (lc_long 4 3 ltac:(lia) ltac:(lia))]|]).
    do 4 (destruct k as [|k]; [injection E1 as <-; injection E2 as <-; solve [exact (lc_long 5 0 ltac:(lia) ltac:(lia))|exact (lc_long 5 1 ltac:(lia) ltac:(lia))|exact (lc_long 5 2 ltac:(lia) ltac:(lia))|exact (lc_long 5 3 ltac:(lia) ltac:(lia))]|]).
    destruct k as [|k]; [injection E1 as <-; injection E2 as <-; exact lc_max|]. lia.
  - intros C. inversion C as [s B E1 E2 E3|e0 r B1 B2 E1 E2 E3|E1 E2 E3]; subst.
    + destruct e; [|discriminate]. clear C H E2.
      assert (sym = 257 \/ sym = 258 \/ sym = 259 \/ sym = 260 \/ sym = 261 \/ sym = 262 \/ sym = 263 \/ sym = 264) as D by lia.
      destruct D as [->|[->|[->|[->|[->|[->|[->| ->]]]]]]]; split; reflexivity.
    + clear C H. assert (e = 1 \/ e = 2 \/ e = 3 \/ e = 4 \/ e = 5)%nat as D by lia.
      assert (r = 0 \/ r = 1 \/ r = 2 \/ r = 3) as D' by lia. clear B1 B2.
      destruct D as [->|[->|[->|[->| ->]]]]; destruct D' as [->|[->|[->| ->]]]; split; reflexivity.
    + destruct e; [|discriminate]. split; reflexivity.
Qed.

Lemma distance_table sym e b : 0 <= sym ->
  (nth_error dist_base (Z.to_nat sym) = Some b /\ nth_error dist_extra (Z.to_nat sym) = Some e) <->
  distance_code sym (Z.of_nat e) b.
Proof.
  intros H. split.
  - intros [E1 E2]. pose proof (proj1 (nth_error_Some dist_base _) ltac:(rewrite E1; discriminate)) as L.
    change (List.length dist_base) with 30%nat in L. remember (Z.to_nat sym) as k eqn:K.
    assert (sym = Z.of_nat k) as -> by lia. clear K H.
    do 4 (destruct k as [|k]; [injection E1 as <-; injection E2 as <-; apply dc_short; lia|]).
    do 26 (destruct k as [|k]; [injection E1 as <-; injection E2 as <-;
      match goal with |- distance_code _ (Z.of_nat ?n) _ =>
        first [exact (dc_long (Z.of_nat n) 0 ltac:(lia) ltac:(lia))|exact (dc_long (Z.of_nat n) 1 ltac:(lia) ltac:(lia))] end|]).
    lia.
  - intros C. inversion C as [s B E1 E2 E3|e0 r B1 B2 E1 E2 E3]; subst.
    + destruct e; [|discriminate]. clear C H E2.
      assert (sym = 0 \/ sym = 1 \/ sym = 2 \/ sym = 3) as D by lia.
      destruct D as [->|[->|[->| ->]]]; split; reflexivity.
    + clear C H. assert (r = 0 \/ r = 1) as D' by lia. clear B2.
      do 14 (destruct e as [|e]; [try lia; destruct D' as [->| ->]; split; reflexivity|]). lia.
Qed.

Lemma distance_pos sym e b : distance_code sym e b -> 1 <= b.
Proof.
  intros C. destruct C as [s B|e r B1 B2]; [lia|]. assert (0 < 2 ^ e) by (apply Z.pow_pos_nonneg; lia). nia.
Qed.
Lemma length_pos sym e b : length_code sym e b -> 257 <= sym /\ 1 <= b.
Proof.
  intros C. destruct C as [s B|e r B1 B2|]; [lia| |lia]. assert (0 < 2 ^ e) by (apply Z.pow_pos_nonneg; lia). split; nia.
Qed.
Lemma lsb_range w : 0 <= lsb_value w < 2 ^ zlen w.
Proof.
  induction w as [|b w IH]; [change (0 <= 0 < 1); lia|]. cbn [lsb_value]. rewrite zlen_cons. replace (1 + zlen w) with (zlen w + 1) by lia.
  rewrite Z.pow_add_r by (pose proof (zlen_nonneg w); lia). change (2 ^ 1) with 2. destruct b; cbn [Z.b2z]; lia.
Qed.

Lemma nth_rev {A} (l : list A) : forall k, (k < List.length l)%nat -> nth_error (rev l) k = nth_error l (List.length l - 1 - k).
Proof.
  induction l as [|x l IH] using rev_ind; intros k H; [cbn in H; lia|].
  rewrite rev_app_distr. rewrite app_length in *. cbn [List.length rev app] in *. destruct k as [|k]; cbn [nth_error].
  - rewrite nth_error_app2 by lia. replace (List.length l + 1 - 1 - 0 - List.length l)%nat with 0%nat by lia. reflexivity.
  - rewrite IH by lia. rewrite nth_error_app1 by lia. f_equal. lia.
Qed.

Lemma copy_sound n d : 1 <= d -> forall out o, copy_back n d (rev out) = Some o ->
  exists m, o = rev (out ++ m) /\ List.length m = n /\ (n <> 0%nat -> d <= zlen out) /\
    forall i, zlen out <= i < zlen out + Z.of_nat n ->
      nth_error (out ++ m) (Z.to_nat i) = nth_error (out ++ m) (Z.to_nat (i - d)).
Proof.
  intros Hd. induction n as [|n IH]; intros out o E; cbn [copy_back] in E.
  - injection E as <-. exists []. rewrite app_nil_r. split; [reflexivity|]. split; [reflexivity|]. split; [congruence|]. intros i Hi. lia.
  - destruct (nth_error (rev out) (Z.to_nat (d - 1))) as [b|] eqn:N; [|discriminate E].
    pose proof (proj1 (nth_error_Some (rev out) _) ltac:(rewrite N; discriminate)) as L. rewrite rev_length in L.
    rewrite nth_rev in N by exact L. change (b :: rev out) with ([b] ++ rev out) in E.
    change ([b] ++ rev out) with (rev [b] ++ rev out) in E. rewrite <- rev_app_distr in E.
    destruct (IH _ _ E) as (m & -> & Lm & _ & C). exists (b :: m).
    replace (out ++ b :: m) with ((out ++ [b]) ++ m) by (rewrite <- app_assoc; reflexivity).
    split; [reflexivity|]. split; [cbn; lia|]. unfold zlen. split; [intros _; lia|]. intros i Hi.
    destruct (Z.eq_dec i (zlen out)) as [->|Ni].
    + rewrite <- !app_assoc. unfold zlen. rewrite Nat2Z.id, nth_error_app2, Nat.sub_diag by lia. cbn [app nth_error].
      rewrite nth_error_app1 by lia. rewrite <- N. f_equal. lia.
    + apply C. rewrite zlen_app. unfold zlen in *. change (List.length [b]) with 1%nat. lia.
Qed.

Lemma copy_complete n d : 1 <= d -> forall out m, List.length m = n -> (n <> 0%nat -> d <= zlen out) ->
  (forall i, zlen out <= i < zlen out + Z.of_nat n ->
      nth_error (out ++ m) (Z.to_nat i) = nth_error (out ++ m) (Z.to_nat (i - d))) ->
  copy_back n d (rev out) = Some (rev (out ++ m)).
Proof.
  intros Hd. induction n as [|n IH]; intros out m Lm Ld C; cbn [copy_back].
  - destruct m; [rewrite app_nil_r; reflexivity|discriminate Lm].
  - destruct m as [|b m]; [discriminate Lm|]. injection Lm as Lm. specialize (Ld ltac:(discriminate)).
    assert (nth_error (rev out) (Z.to_nat (d - 1)) = Some b) as N.
    { unfold zlen in *. rewrite nth_rev by lia. specialize (C (Z.of_nat (List.length out)) ltac:(lia)).
      rewrite Nat2Z.id, nth_error_app2, Nat.sub_diag, nth_error_app1 in C by lia. cbn [nth_error] in C. rewrite C. f_equal. lia. }
    rewrite N. replace (b :: rev out) with (rev (out ++ [b])) by (rewrite rev_app_distr; reflexivity).
    replace (out ++ b :: m) with ((out ++ [b]) ++ m) by (rewrite <- app_assoc; reflexivity).
    apply IH; [exact Lm| |].
    + intros _. rewrite zlen_app. change (zlen [b]) with 1. lia.
    + intros i Hi. rewrite zlen_app in Hi. change (zlen [b]) with 1 in Hi. rewrite <- app_assoc. cbn [app]. apply C. lia.
Qed.

Lemma copy_spec len d out o : 1 <= len -> 1 <= d ->
  copy_back (Z.to_nat len) d (rev out) = Some o <-> exists out', o = rev out' /\ copied out len d out'.
Proof.
  intros Hl Hd. split.
  - intros E. destruct (copy_sound _ _ Hd _ _ E) as (m & -> & Lm & D & C). exists (out ++ m). split; [reflexivity|].
    exists m. split; [reflexivity|]. split; [unfold zlen; lia|]. split; [apply D; lia|]. intros i Hi. apply C. lia.
  - intros (out' & -> & m & -> & Lm & D & C). apply copy_complete; [exact Hd|unfold zlen in Lm; lia|intros _; exact D|].
    intros i Hi. apply C. lia.
Qed.

Lemma byte_of_bval b : byte_of (bval b) = b.
Proof. destruct b; reflexivity. Qed.
Lemma bval_byte_of z : 0 <= z < 256 -> bval (byte_of z) = z.
Proof.
  intros H. unfold byte_of, bval. destruct (Byte.of_N (Z.to_N z)) as [b|] eqn:E.
  - apply Byte.to_of_N in E. rewrite E. lia.
  - apply Byte.of_N_None_iff in E. lia.
Qed.

(** ** Literals and matches *)

Lemma Rd_if {A} (b : bool) (m1 m2 : P A) N R1 R2 : (b = true -> RdN N m1 R1) -> (b = false -> RdN N m2 R2) ->
  RdN N (if b then m1 else m2) (fun a w r => if b then R1 a w r else R2 a w r).
Proof. destruct b; auto. Qed.

Lemma codes_rd ll dl : lens_ok ll -> lens_ok dl -> forall fuel out,
  RdN fuel (codes_loop fuel (mk_huff ll) (mk_huff dl) (rev out))
    (fun o w _ => exists out', o = rev out' /\ tokens ll dl out w out').
Proof.
  intros Hll Hdl. induction fuel as [|k IH]; intros out.
  - intros s W L. assert (sb s = []) as E by (destruct (sb s); [reflexivity|cbn in L; lia]). split.
    + intros a s' X. discriminate X.
    + intros a w rest S (out' & -> & T). exfalso. rewrite E in S. symmetry in S. apply app_eq_nil in S. destruct S as [-> _].
      remember (@nil bool) as w eqn:E0. destruct T as [? ? C|? ? ? ? ? C ?|? ? ? ? ? ? ? ? ? ? ? ? ? ? C ? ? ? ? ? ? ?];
        apply is_code_len in C; apply (f_equal (@List.length bool)) in E0; rewrite ?app_length in E0; cbn in E0; lia.
  - cbn [codes_loop].
    eapply RdN_iff; [|apply (RdN_bind (S k) k 1 _ _ (fun sym w _ => is_code ll sym w) (fun s o w (_ : list bool) =>
       if s <? 256 then exists out', o = rev out' /\ tokens ll dl (out ++ [byte_of s]) w out'
       else if s =? 256 then o = rev out /\ w = []
       else exists e base x ds w' e' base' y out1 more out', o = rev out' /\ w = x ++ w' ++ y ++ more /\
          length_code s e base /\ zlen x = e /\ is_code dl ds w' /\ distance_code ds e' base' /\ zlen y = e' /\
          copied out (base + lsb_value x) (base' + lsb_value y) out1 /\ tokens ll dl out1 more out')
       (fun s => 0 <= s)); [lia|apply Rd_RdN, Rd_decode, Hll| |]].
    + intros o w rest. cbn beta. split.
      * intros (s & w1 & w2 & -> & C & H). pose proof (proj1 C) as B. destruct (Z.ltb_spec s 256) as [L|L].
        -- destruct H as (out' & -> & T). exists out'. split; [reflexivity|]. eapply tk_literal; [|exact T].
           rewrite bval_byte_of by lia. exact C.
        -- destruct (Z.eqb_spec s 256) as [->|N].
           ++ destruct H as [-> ->]. rewrite app_nil_r. exists out. split; [reflexivity|]. apply tk_end, C.
           ++ destruct H as (e & base & x & ds & w' & e' & base' & y & out1 & more & out' & -> & -> & H1 & H2 & H3 & H4 & H5 & H6 & H7).
              exists out'. split; [reflexivity|]. eapply tk_match; eassumption.
      * intros (out' & -> & T). destruct T as [out w C|out b w more out' C T'|out w1 sym e base x w' ds e' base' y out1 more out' C LC ZX C' DC ZY CP T'].
        -- exists 256, w, []. rewrite app_nil_r. split; [reflexivity|]. split; [exact C|]. cbn. auto.
        -- eexists (bval b), _, _. split; [reflexivity|]. split; [exact C|]. pose proof (bval_range b).
           replace (bval b <? 256) with true by lia. exists out'. rewrite byte_of_bval. auto.
        -- eexists sym, _, _. split; [reflexivity|]. split; [exact C|]. destruct (length_pos _ _ _ LC) as [LP _].
           replace (sym <? 256) with false by lia. replace (sym =? 256) with false by lia.
           do 11 eexists. split; [reflexivity|]. split; [reflexivity|]. repeat (split; [eassumption|]). eassumption.
    + intros s w rest C. split; [apply C|]. apply is_code_len in C. lia.
    + intros s Hs. destruct (s <? 256) eqn:S1.
      * replace (byte_of s :: rev out) with (rev (out ++ [byte_of s])) by (rewrite rev_app_distr; reflexivity). apply IH.
      * destruct (s =? 256) eqn:S2; [apply Rd_RdN, Rd_ret|].
        eapply RdN_iff; [|apply (RdN_bind k k 0 _ _ (extra_rel len_base len_extra (s - 257))
           (fun len o w (_ : list bool) => exists ds w' e' base' y out1 more out', o = rev out' /\ w = w' ++ y ++ more /\
              is_code dl ds w' /\ distance_code ds e' base' /\ zlen y = e' /\
              copied out len (base' + lsb_value y) out1 /\ tokens ll dl out1 more out')
           (fun len => 1 <= len)); [lia|apply Rd_RdN, Rd_with_extra| |]].
        -- intros o w rest. cbn beta. split.
           ++ intros (len & w1 & w2 & -> & (b & e & N1 & N2 & Le & ->) & ds & w' & e' & base' & y & out1 & more & out' & -> & -> & H).
              exists (Z.of_nat e), b, w1, ds, w', e', base', y, out1, more, out'. split; [reflexivity|]. split; [reflexivity|].
              split; [apply length_table; [lia|auto]|]. split; [unfold zlen; lia|]. exact H.
           ++ intros (e & base & x & ds & w' & e' & base' & y & out1 & more & out' & -> & -> & LC & ZX & H).
              exists (base + lsb_value x), x, (w' ++ y ++ more). split; [reflexivity|]. split.
              ** exists base, (List.length x). unfold zlen in ZX. subst e. apply length_table in LC; [|lia]. destruct LC. auto.
              ** exists ds, w', e', base', y, out1, more, out'. auto.
        -- intros len w rest (b & e & N1 & N2 & Le & ->). split; [|lia].
           pose proof (length_pos _ _ _ (proj1 (length_table s e b ltac:(lia)) (conj N1 N2))). pose proof (lsb_range w). lia.
        -- intros len Hlen.
           eapply RdN_iff; [|apply (RdN_bind k k 0 _ _ (fun ds w _ => is_code dl ds w)
              (fun ds o w (_ : list bool) => exists e' base' y out1 more out', o = rev out' /\ w = y ++ more /\
                 distance_code ds e' base' /\ zlen y = e' /\
                 copied out len (base' + lsb_value y) out1 /\ tokens ll dl out1 more out')
              (fun ds => 0 <= ds)); [lia|apply Rd_RdN, Rd_decode, Hdl| |]].
           ++ intros o w rest. cbn beta. split.
              ** intros (ds & w1 & w2 & -> & C & e' & base' & y & out1 & more & out' & -> & -> & H).
                 exists ds, w1, e', base', y, out1, more, out'. auto.
              ** intros (ds & w' & e' & base' & y & out1 & more & out' & -> & -> & C & H).
                 exists ds, w', (y ++ more). split; [reflexivity|]. split; [exact C|]. exists e', base', y, out1, more, out'. auto.
           ++ intros ds w rest C. split; [apply C|lia].
           ++ intros ds Hds.
              eapply RdN_iff; [|apply (RdN_bind k k 0 _ _ (extra_rel dist_base dist_extra ds)
                 (fun d o w (_ : list bool) => exists out1 out', o = rev out' /\ copied out len d out1 /\ tokens ll dl out1 w out')
                 (fun d => 1 <= d)); [lia|apply Rd_RdN, Rd_with_extra| |]].
              ** intros o w rest. cbn beta. split.
                 --- intros (d & w1 & w2 & -> & (b & e & N1 & N2 & Le & ->) & out1 & out' & -> & H).
                     exists (Z.of_nat e), b, w1, out1, w2, out'. split; [reflexivity|]. split; [reflexivity|].
                     split; [apply distance_table; auto|]. split; [unfold zlen; lia|]. exact H.
                 --- intros (e' & base' & y & out1 & more & out' & -> & -> & DC & ZY & H).
                     exists (base' + lsb_value y), y, more. split; [reflexivity|]. split.
                     +++ exists base', (List.length y). unfold zlen in ZY. subst e'. apply distance_table in DC; [|lia]. destruct DC. auto.
                     +++ exists out1, out'. auto.
              ** intros d w rest (b & e & N1 & N2 & Le & ->). split; [|lia].
                 pose proof (distance_pos _ _ _ (proj1 (distance_table ds e b Hds) (conj N1 N2))). pose proof (lsb_range w). lia.
              ** intros d Hd. destruct (copy_back (Z.to_nat len) d (rev out)) as [o1|] eqn:CB.
                 --- pose proof (proj1 (copy_spec _ _ _ _ Hlen Hd) CB) as (out1 & -> & CP).
                     eapply RdN_iff; [|apply IH]. intros o w rest. cbn beta. split.
                     +++ intros (out' & -> & T). exists out1, out'. auto.
                     +++ intros (out2 & out' & -> & CP2 & T). exists out'. split; [reflexivity|].
                         assert (copy_back (Z.to_nat len) d (rev out) = Some (rev out2)) as CB2 by (apply copy_spec; eauto).
                         rewrite CB in CB2. injection CB2 as E2. apply (f_equal (@rev byte)) in E2. rewrite !rev_involutive in E2. subst out2. exact T.
                 --- eapply RdN_iff; [|apply Rd_RdN, Rd_fail]. intros o w rest. cbn beta. split; [intros []|].
                     intros (out1 & out' & _ & CP & _). assert (copy_back (Z.to_nat len) d (rev out) = Some (rev out1)) as CB2 by (apply copy_spec; eauto). congruence.
Qed.
