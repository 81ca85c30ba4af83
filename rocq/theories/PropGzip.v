(** * C50: gzip-compressed logs are read by RFC 1952

    [gzip_data], [gzip_member] and [has_crc] (SpecGzip.v) are the specification; [open_file] is
    the model of opening a log (reader.py:79-80) and [gunzip], [crc32] the model of gzip.open. *)
From Coq Require Import List ZArith Lia Bool.
From Coq Require Import Init.Byte.
From Verif Require Import PyBase Inflate Gzip Reader SpecDeflate SpecGzip Spec SpecReader BaseProofs DeflateProofs DeflateProofs3 GzipProofs ReaderProofs GzipExact.
Import ListNotations.
Local Open Scope list_scope.
Local Open Scope Z_scope.

Theorem C50_gunzip_exact l d : gunzip l = Some d <-> gzip_data l d.
Proof. apply gunzip_exact. Qed.

(** Under a path containing ".gz", exactly the gzip files open without a later read error, and
    what is then read is their data. *)
Theorem C50_open_exact disk salvage fault path stored d :
  disk path = Ok stored -> gz_path path ->
  (open_file disk salvage fault path = Ok (plain d) <-> gzip_data stored d).
Proof.
  intros Hd Hg. unfold open_file. rewrite Hd. cbn [rbind]. rewrite (proj2 (uses_gzip_spec path) Hg). rewrite <- gunzip_exact.
  unfold gzip_file. destruct stored as [|b r].
  - change (gunzip []) with (Some (@nil byte)). split; intros H; injection H as <-; reflexivity.
  - destruct (gz_magic (b :: r)) eqn:M.
    + destruct (gunzip (b :: r)) as [x|]; split; intros H; try discriminate H; injection H as <-; reflexivity.
    + split; [discriminate|]. intros H. exfalso. destruct (gunzip_start _ _ H) as [E|(q & E)]; [discriminate E|].
      rewrite E in M. discriminate M.
Qed.

(** A gzip file says one thing. *)
Theorem C50_unambiguous l d d' : gzip_data l d -> gzip_data l d' -> d = d'.
Proof. intros H H'. apply gunzip_exact in H, H'. rewrite H in H'. injection H' as ->. reflexivity. Qed.

Theorem C50_crc_exact l v : has_crc l v <-> v = crc32 l.
Proof. apply crc_exact. Qed.

(** Files can be concatenated (as "cat a.gz b.gz" or log rotation does), and padded with zeros. *)
Theorem C50_concatenation l d l' d' : gzip_data l d -> gzip_data l' d' -> gzip_data (l ++ l') (d ++ d').
Proof.
  intros H H'. induction H as [|l d k r d2 M D IH]; [exact H'|]. rewrite <- app_assoc. apply (gz_more _ _ k (r ++ l')); [|exact IH].
  apply member_exact. apply member_exact in M. rewrite (member_app _ _ _ l' M), <- app_assoc. reflexivity.
Qed.

Theorem C50_padding l d k : gzip_data l d -> l <> [] -> gzip_data (l ++ repeat x00 k) d.
Proof.
  intros H. induction H as [|l d j r d2 M D IH]; [congruence|]. intros _. destruct r as [|b r].
  - apply (gz_more _ _ (j + k) []); [|exact D]. apply member_exact. apply member_exact in M.
    rewrite (member_app _ _ _ (repeat x00 k) M), !app_nil_r, repeat_app. reflexivity.
  - apply (gz_more _ _ j ((b :: r) ++ repeat x00 k)); [|apply IH; discriminate]. apply member_exact. apply member_exact in M.
    rewrite (member_app _ _ _ (repeat x00 k) M), <- app_assoc. reflexivity.
Qed.

(** A gzip file cut short is not a gzip file. *)
Theorem C50_cut l d p q : gzip_member l d [] -> l = p ++ q -> q <> [] -> p <> [] -> forall d', ~ gzip_data p d'.
Proof.
  intros M E Hq Hp d' D. apply member_exact in M. apply gunzip_exact in D.
  rewrite (gunzip_cut _ _ _ _ M E Hq Hp) in D. discriminate D.
Qed.

(** Every content has a gzip file. *)
Theorem C50_every_content d : exists l, gzip_data l d.
Proof. exists (gzip_store d). apply gunzip_exact, gunzip_store. Qed.

(** ** Damage within 32 bits of the data never leaves the check value unchanged *)

Definition zipx (w w' : list bool) : list bool := map (fun p => xorb (fst p) (snd p)) (combine w w').

Lemma zipx_snoc w w' b b' : List.length w = List.length w' -> zipx (w ++ [b]) (w' ++ [b']) = zipx w w' ++ [xorb b b'].
Proof.
  revert w'. induction w as [|x w IH]; intros [|y w'] L; try discriminate L; [reflexivity|].
  injection L as L. unfold zipx in *. cbn [app combine map fst snd]. rewrite IH by exact L. reflexivity.
Qed.
Lemma zipx_app a a' b b' : List.length a = List.length a' -> zipx (a ++ b) (a' ++ b') = zipx a a' ++ zipx b b'.
Proof.
  revert a'. induction a as [|x a IH]; intros [|y a'] L; try discriminate L; [reflexivity|].
  injection L as L. unfold zipx in *. cbn [app combine map fst snd]. rewrite IH by exact L. reflexivity.
Qed.
Lemma zipx_same a : zipx a a = repeat false (List.length a).
Proof. induction a as [|x a IH]; [reflexivity|]. unfold zipx in *. cbn [combine map fst snd List.length repeat]. rewrite IH, xorb_nilpotent. reflexivity. Qed.
Lemma zipx_len a b : List.length a = List.length b -> zlen (zipx a b) = zlen a.
Proof. intros L. unfold zlen, zipx. rewrite map_length, combine_length. lia. Qed.
Lemma zipx_zero a : forall b, List.length a = List.length b -> zipx a b = repeat false (List.length a) -> a = b.
Proof.
  induction a as [|x a IH]; intros [|y b] L E; try discriminate L; [reflexivity|]. injection L as L.
  unfold zipx in *. cbn [combine map fst snd List.length repeat] in E. injection E as E1 E2.
  apply xorb_eq in E1. subst y. rewrite (IH b L E2). reflexivity.
Qed.

Lemma lxor_last u v b c : Z.lxor (2 * u + Z.b2z b) (2 * v + Z.b2z c) = 2 * Z.lxor u v + Z.b2z (xorb b c).
Proof.
  apply Z.bits_inj'. intros i Hi. rewrite Z.lxor_spec. destruct (Z.eq_dec i 0) as [->|N].
  - rewrite !Z.testbit_0_r. reflexivity.
  - replace i with (Z.succ (i - 1)) by lia. rewrite !Z.testbit_succ_r, Z.lxor_spec by lia. reflexivity.
Qed.

Lemma msb_xor n : forall w w', List.length w = n -> List.length w' = n -> Z.lxor (msb_value w) (msb_value w') = msb_value (zipx w w').
Proof.
  induction n as [|n IH]; intros w w' L L'.
  - destruct w, w'; try discriminate. reflexivity.
  - destruct (exists_last (l := w)) as (u & b & ->); [intros ->; discriminate L|].
    destruct (exists_last (l := w')) as (u' & b' & ->); [intros ->; discriminate L'|].
    rewrite app_length in L, L'. cbn [List.length] in L, L'.
    rewrite zipx_snoc by lia. rewrite !msb_snoc, lxor_last, IH by lia. reflexivity.
Qed.

Lemma msb_app u w : msb_value (u ++ w) = msb_value u * 2 ^ zlen w + msb_value w.
Proof.
  induction u as [|b u IH]; [reflexivity|]. cbn [app msb_value]. rewrite IH, zlen_app, Z.pow_add_r by apply zlen_nonneg. lia.
Qed.
Lemma msb_zeros n : msb_value (repeat false n) = 0.
Proof. induction n as [|n IH]; [reflexivity|]. cbn [repeat msb_value Z.b2z]. rewrite IH. lia. Qed.
Lemma msb_zero w : msb_value w = 0 -> w = repeat false (List.length w).
Proof.
  induction w as [|b w IH]; [reflexivity|]. cbn [msb_value List.length repeat]. intros H. pose proof (msb_range w).
  pose proof (Z.pow_pos_nonneg 2 (zlen w) ltac:(lia) (zlen_nonneg w)).
  destruct b; cbn [Z.b2z] in H; [lia|]. f_equal. apply IH. lia.
Qed.

Lemma times_shift n : forall s e, 0 <= s -> times s crc_poly = e * 2 ^ Z.of_nat n -> exists t, 0 <= t /\ times t crc_poly = e.
Proof.
  induction n as [|n IH]; intros s e Hs E; [exists s; split; [exact Hs|]; rewrite E; change (2 ^ Z.of_nat 0) with 1; lia|].
  rewrite Nat2Z.inj_succ, Z.pow_succ_r in E by lia.
  destruct s as [|p|p]; [|destruct p as [p|p|]|lia].
  - exists 0. split; [lia|]. cbn [times] in *. pose proof (Z.pow_pos_nonneg 2 (Z.of_nat n) ltac:(lia) ltac:(lia)). nia.
  - exfalso. cbn [times times_pos] in E. apply (f_equal Z.odd) in E.
    rewrite <- Z.bit0_odd, Z.lxor_spec, !Z.bit0_odd, !Z.odd_mul in E. cbn in E. rewrite andb_false_r in E. discriminate E.
  - apply (IH (Zpos p)); [lia|]. cbn [times times_pos] in *. lia.
  - exfalso. cbn [times times_pos] in E. apply (f_equal Z.odd) in E. rewrite !Z.odd_mul in E. cbn in E. rewrite andb_false_r in E. discriminate E.
Qed.

Lemma byte_bits_len b : List.length (byte_bits b) = 8%nat.
Proof. reflexivity. Qed.
Lemma data_bits_len l : List.length (data_bits l) = (8 * List.length l)%nat.
Proof. induction l as [|b l IH]; [reflexivity|]. unfold data_bits in *. cbn [flat_map List.length]. rewrite app_length, IH, byte_bits_len. lia. Qed.

Theorem C50_burst_detected a x y b v :
  has_crc (a ++ x ++ b) v -> has_crc (a ++ y ++ b) v -> zlen x = zlen y -> zlen x <= 4 -> x = y.
Proof.
  intros (q & r & Hq & Hr & Hv & E & T) (q' & r' & Hq' & Hr' & _ & E' & T') L L4.
  assert (List.length x = List.length y) as Ln by (unfold zlen in L; lia).
  assert (r = r') as <-.
  { apply word_ext; [exact Hr|exact Hr'|]. intros i Hi. specialize (T (31 - i) ltac:(lia)). specialize (T' (31 - i) ltac:(lia)).
    rewrite T in T'. replace (31 - (31 - i)) with i in T' by lia. destruct (Z.testbit r i), (Z.testbit r' i); try reflexivity; discriminate T'. }
  set (A := data_bits (a ++ x ++ b)) in *. set (B := data_bits (a ++ y ++ b)) in *.
  assert (List.length A = List.length B) as LL by (unfold A, B; rewrite !data_bits_len, !app_length; lia).
  assert (zlen A = zlen B) as ZL by (unfold zlen; lia). rewrite <- ZL in E'.
  destruct (times_lxor q q' Hq Hq') as (s & Hs & ES).
  assert (times s crc_poly = Z.lxor (msb_value A) (msb_value B) * 2 ^ 32) as TS.
  { rewrite <- ES. rewrite <- !Z.shiftl_mul_pow2 in * by lia. rewrite Z.shiftl_lxor.
    set (K := (2 ^ 32 - 1) * 2 ^ zlen A) in *. apply Z.lxor_eq.
    apply (f_equal2 Z.lxor E) in E'. 
    assert (forall m m' k, Z.lxor (Z.lxor m k) (Z.lxor m' k) = Z.lxor m m') as C.
    { intros m m' k. rewrite !Z.lxor_assoc. f_equal. rewrite (Z.lxor_comm m' k), <- Z.lxor_assoc, Z.lxor_nilpotent. apply Z.lxor_0_l. }
    rewrite !C in E'. rewrite <- E'. apply Z.lxor_nilpotent. }
  rewrite (msb_xor _ A B eq_refl (eq_sym LL)) in TS.
  assert (zipx A B = repeat false (List.length (data_bits a)) ++ zipx (data_bits x) (data_bits y) ++ repeat false (List.length (data_bits b))) as ZX.
  { unfold A, B, data_bits. rewrite !flat_map_app. fold (data_bits a) (data_bits x) (data_bits y) (data_bits b).
    rewrite zipx_app, zipx_app, !zipx_same by (rewrite ?data_bits_len; lia). reflexivity. }
  rewrite ZX, !msb_app, !msb_zeros, Z.mul_0_l, Z.add_0_l, Z.add_0_r in TS.
  set (n := List.length (data_bits b)) in *.
  assert (zlen (repeat false n) = Z.of_nat n) as Zn by (unfold zlen; rewrite repeat_length; reflexivity). rewrite Zn in TS.
  replace (msb_value (zipx (data_bits x) (data_bits y)) * 2 ^ Z.of_nat n * 2 ^ 32)
    with (msb_value (zipx (data_bits x) (data_bits y)) * 2 ^ Z.of_nat (n + 32)) in TS
    by (rewrite Nat2Z.inj_add, Z.pow_add_r by lia; change (Z.of_nat 32) with 32; lia).
  destruct (times_shift _ _ _ Hs TS) as (t & Ht & Et).
  assert (List.length (data_bits x) = List.length (data_bits y)) as LB by (rewrite !data_bits_len; lia).
  pose proof (msb_range (zipx (data_bits x) (data_bits y))) as R. rewrite (zipx_len _ _ LB) in R.
  assert (zlen (data_bits x) <= 32) as B32 by (unfold zlen in *; rewrite data_bits_len; lia).
  pose proof (Z.pow_le_mono_r 2 _ _ ltac:(lia) B32) as P32.
  destruct t as [|p|p]; [|exfalso|lia].
  - cbn [times] in Et. symmetry in Et. apply msb_zero in Et.
    assert (List.length (zipx (data_bits x) (data_bits y)) = List.length (data_bits x)) as LZ by (pose proof (zipx_len _ _ LB) as Z0; unfold zlen in Z0; lia).
    rewrite LZ in Et. apply zipx_zero in Et; [|exact LB]. 
    apply data_bits_inj, Et.
  - cbn [times] in Et. destruct (times_pos_log p) as [P Lg]. rewrite Et in P, Lg. pose proof (Z.log2_nonneg (Zpos p)).
    assert (Z.log2 (msb_value (zipx (data_bits x) (data_bits y))) < 32) by (apply Z.log2_lt_pow2; lia). lia.
Qed.

(** ** A file of two members, the first with a file name, as written by CPython's gzip module *)

Definition named_member : list byte :=
  [x1f; x8b; x08; x08; x00; xf1; x53; x65; x02; xff; x61; x74; x6f; x70; x2e; x6c; x6f; x67; x00; x4b; x2c; xc9; x2f;
   x50; x48; x44; x21; x00; xf4; xe1; x59; x70; x13; x00; x00; x00].
Definition plain_member : list byte :=
  [x1f; x8b; x08; x00; x00; x00; x00; x00; x02; x03; x53; xc8; xc9; x4f; x07; x00; xf5; xc1; x08; xf1; x04; x00; x00; x00].
Definition two_data : list byte :=
  [x61; x74; x6f; x70; x20; x61; x74; x6f; x70; x20; x61; x74; x6f; x70; x20; x61; x74; x6f; x70; x20; x6c; x6f; x67].

Example C50_two_members : gzip_data (named_member ++ [x00; x00] ++ plain_member ++ [x00]) two_data.
Proof. apply C50_gunzip_exact. vm_compute. reflexivity. Qed.
Example C50_member_example : gzip_member named_member (firstn 19 two_data) [].
Proof. apply member_exact. vm_compute. reflexivity. Qed.
(** The check value of "123456789" from the CRC catalogue. *)
Example C50_crc_example : has_crc [x31; x32; x33; x34; x35; x36; x37; x38; x39] 3421780262.
Proof. apply C50_crc_exact. vm_compute. reflexivity. Qed.
Example C50_garbage_after_member : forall d, ~ gzip_data (named_member ++ [x01]) d.
Proof. intros d H. apply C50_gunzip_exact in H. vm_compute in H. discriminate H. Qed.
