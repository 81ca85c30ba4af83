(** * Lemmas about PyBase and Spec numbers *)
From Coq Require Import List ZArith Lia Bool String.
From Coq Require Import Init.Byte.
From Coq Require Import ZifyBool.
From Verif Require Import PyBase CTypes Spec.
Import ListNotations.
Open Scope list_scope.
Open Scope Z_scope.

(** ** Lengths *)

Lemma zlen_nonneg {A} (l : list A) : 0 <= zlen l.
Proof. unfold zlen; lia. Qed.

Lemma zlen_nil {A} : zlen (@nil A) = 0.
Proof. reflexivity. Qed.

Lemma zlen_cons {A} (x : A) l : zlen (x :: l) = 1 + zlen l.
Proof. unfold zlen; cbn [List.length]; lia. Qed.

Lemma zlen_app {A} (l m : list A) : zlen (l ++ m) = zlen l + zlen m.
Proof. unfold zlen; rewrite app_length; lia. Qed.

Lemma zlen_map {A B} (f : A -> B) l : zlen (map f l) = zlen l.
Proof. unfold zlen; rewrite map_length; reflexivity. Qed.

Lemma zlen_rev {A} (l : list A) : zlen (rev l) = zlen l.
Proof. unfold zlen; rewrite rev_length; reflexivity. Qed.

Lemma zlen_zeros n : zlen (zeros n) = Z.max 0 n.
Proof. unfold zlen, zeros; rewrite repeat_length; lia. Qed.

Lemma zlen_ztake {A} n (l : list A) : zlen (ztake n l) = Z.max 0 (Z.min n (zlen l)).
Proof. unfold zlen, ztake; rewrite firstn_length; lia. Qed.

Lemma zlen_zdrop {A} n (l : list A) : zlen (zdrop n l) = Z.max 0 (zlen l - Z.max 0 n).
Proof. unfold zlen, zdrop; rewrite skipn_length; lia. Qed.

Lemma zlen_zero {A} (l : list A) : zlen l = 0 -> l = [].
Proof. destruct l; [reflexivity|]. rewrite zlen_cons. pose proof (zlen_nonneg l); lia. Qed.

Lemma ztake_all {A} n (l : list A) : zlen l <= n -> ztake n l = l.
Proof. unfold zlen, ztake; intros; apply firstn_all2; lia. Qed.

Lemma zdrop_all {A} n (l : list A) : zlen l <= n -> zdrop n l = [].
Proof. unfold zlen, zdrop; intros; apply skipn_all2; lia. Qed.

Lemma ztake_zdrop {A} n (l : list A) : ztake n l ++ zdrop n l = l.
Proof. apply firstn_skipn. Qed.

Lemma ztake_0 {A} n (l : list A) : n <= 0 -> ztake n l = [].
Proof. unfold ztake; intros; replace (Z.to_nat n) with O by lia; reflexivity. Qed.

Lemma zdrop_0 {A} n (l : list A) : n <= 0 -> zdrop n l = l.
Proof. unfold zdrop; intros; replace (Z.to_nat n) with O by lia; reflexivity. Qed.

Lemma ztake_app {A} n (l m : list A) : ztake n (l ++ m) = ztake n l ++ ztake (n - zlen l) m.
Proof. unfold ztake, zlen. rewrite firstn_app. do 2 f_equal. lia. Qed.

Lemma zdrop_app {A} n (l m : list A) : zdrop n (l ++ m) = zdrop n l ++ zdrop (n - zlen l) m.
Proof. unfold zdrop, zlen. rewrite skipn_app. do 2 f_equal. lia. Qed.

Lemma ztake_exact {A} n (l m : list A) : zlen l = n -> ztake n (l ++ m) = l.
Proof. intros <-. rewrite ztake_app, ztake_all, (ztake_0 (zlen l - zlen l)), app_nil_r by lia. reflexivity. Qed.

Lemma zdrop_exact {A} n (l m : list A) : zlen l = n -> zdrop n (l ++ m) = m.
Proof. intros <-. rewrite zdrop_app, zdrop_all, (zdrop_0 (zlen l - zlen l)) by lia. reflexivity. Qed.

Lemma zdrop_zdrop {A} a b (l : list A) : 0 <= a -> 0 <= b -> zdrop a (zdrop b l) = zdrop (b + a) l.
Proof.
  intros. unfold zdrop. revert l. replace (Z.to_nat (b + a)) with (Z.to_nat b + Z.to_nat a)%nat by lia.
  generalize (Z.to_nat a) as m, (Z.to_nat b) as n. intros m n.
  induction n as [|n IH]; intros l; [reflexivity|].
  destruct l; cbn [skipn Nat.add]; [apply skipn_nil|apply IH].
Qed.

Lemma zdrop_ztake {A} a b (l : list A) : 0 <= a -> zdrop a (ztake b l) = ztake (b - a) (zdrop a l).
Proof.
  intros. unfold zdrop, ztake. rewrite firstn_skipn_comm.
  destruct (Z_lt_le_dec b a).
  - rewrite !skipn_all2; [|rewrite firstn_length; lia|rewrite firstn_length; lia]. reflexivity.
  - do 2 f_equal. lia.
Qed.

Lemma ztake_ztake {A} a b (l : list A) : ztake a (ztake b l) = ztake (Z.min a b) l.
Proof.
  unfold ztake. rewrite firstn_firstn. f_equal. lia.
Qed.

(** ** sub_bytes *)

Lemma sub_bytes_sub off1 n1 off2 n2 b :
  0 <= off1 -> 0 <= off2 -> off2 + n2 <= n1 ->
  sub_bytes off2 n2 (sub_bytes off1 n1 b) = sub_bytes (off1 + off2) n2 b.
Proof.
  intros. unfold sub_bytes. rewrite zdrop_ztake, ztake_ztake, zdrop_zdrop by lia.
  f_equal. lia.
Qed.

Lemma zlen_sub_bytes off n b : 0 <= off -> 0 <= n -> off + n <= zlen b -> zlen (sub_bytes off n b) = n.
Proof. intros. unfold sub_bytes. rewrite zlen_ztake, zlen_zdrop. lia. Qed.

Lemma sub_bytes_mid off n (a m c : list byte) :
  zlen a = off -> zlen m = n -> sub_bytes off n (a ++ m ++ c) = m.
Proof. intros. unfold sub_bytes. rewrite zdrop_exact, ztake_exact by assumption. reflexivity. Qed.

Lemma sub_bytes_app_l off n (a c : list byte) :
  0 <= off -> off + n <= zlen a -> sub_bytes off n (a ++ c) = sub_bytes off n a.
Proof.
  intros. unfold sub_bytes. rewrite zdrop_app, ztake_app, zlen_zdrop.
  rewrite (ztake_0 (n - _)), app_nil_r by lia. reflexivity.
Qed.

(** ** Byte values *)

Lemma bval_range b : 0 <= bval b < 256.
Proof. unfold bval. pose proof (Byte.to_N_bounded b). lia. Qed.

Lemma bval_inj a b : bval a = bval b -> a = b.
Proof.
  unfold bval. intros H.
  assert (Byte.to_N a = Byte.to_N b) by lia.
  apply (f_equal Byte.of_N) in H0. rewrite !Byte.of_to_N in H0. congruence.
Qed.

Lemma bval_byte_of_Z z : 0 <= z < 256 -> bval (byte_of_Z z) = z.
Proof.
  intros. unfold byte_of_Z, bval.
  destruct (Byte.of_N (Z.to_N z)) eqn:E.
  - apply Byte.to_of_N in E. lia.
  - apply Byte.of_N_None_iff in E. lia.
Qed.

Lemma byte_of_Z_bval b : byte_of_Z (bval b) = b.
Proof. apply bval_inj. apply bval_byte_of_Z, bval_range. Qed.

Lemma at8_range b i : 0 <= at8 b i < 256.
Proof. apply bval_range. Qed.

(** ** Little-endian numbers *)

Lemma le_uint_range l : 0 <= le_uint l < 256 ^ zlen l.
Proof.
  induction l as [|b l IH]; [vm_compute; split; [discriminate|reflexivity]|].
  cbn [le_uint]. rewrite zlen_cons, Z.pow_add_r by (pose proof (zlen_nonneg l); lia).
  pose proof (bval_range b). change (256 ^ 1) with 256. lia.
Qed.

Lemma le_uint_app a b : le_uint (a ++ b) = le_uint a + 256 ^ zlen a * le_uint b.
Proof.
  induction a as [|x a IH]; [change (le_uint b = 0 + 1 * le_uint b); lia|].
  cbn [le_uint app]. rewrite IH, zlen_cons, Z.pow_add_r by (pose proof (zlen_nonneg a); lia).
  change (256 ^ 1) with 256. ring.
Qed.

Lemma le_uint_zeros n : le_uint (zeros n) = 0.
Proof.
  unfold zeros. induction (Z.to_nat n); cbn [repeat le_uint]; [reflexivity|].
  rewrite IHn0. reflexivity.
Qed.

Lemma le_uint_inj a b : zlen a = zlen b -> le_uint a = le_uint b -> a = b.
Proof.
  revert b. induction a as [|x a IH]; intros [|y b]; rewrite ?zlen_cons, ?zlen_nil; cbn [le_uint].
  - reflexivity.
  - pose proof (zlen_nonneg b); lia.
  - pose proof (zlen_nonneg a); lia.
  - intros L E. pose proof (bval_range x); pose proof (bval_range y).
    assert (bval x = bval y) by lia. assert (le_uint a = le_uint b) by lia.
    f_equal; [apply bval_inj; assumption|apply IH; lia].
Qed.

Lemma sub_bytes_step off n b : 0 <= off -> 0 <= n ->
  le_uint (sub_bytes off (1 + n) b) = at8 b off + 256 * le_uint (sub_bytes (off + 1) n b).
Proof.
  intros. unfold sub_bytes, ztake, zdrop, at8.
  replace (Z.to_nat (1 + n)) with (S (Z.to_nat n)) by lia.
  replace (Z.to_nat (off + 1)) with (S (Z.to_nat off)) by lia.
  generalize (Z.to_nat off) as o, (Z.to_nat n) as m. clear. intros o. revert b.
  induction o as [|o IH]; intros [|x b] m.
  - cbn [skipn]. rewrite !firstn_nil. reflexivity.
  - reflexivity.
  - cbn [skipn]. rewrite !firstn_nil. reflexivity.
  - cbn [skipn nth]. rewrite IH. reflexivity.
Qed.

Lemma le_uint_sub_0 off b : le_uint (sub_bytes off 0 b) = 0.
Proof. reflexivity. Qed.

Lemma le_uint_sub_1 off b : 0 <= off -> le_uint (sub_bytes off 1 b) = at8 b off.
Proof. intros. change 1 with (1 + 0) at 1. rewrite sub_bytes_step, le_uint_sub_0 by lia. lia. Qed.

Lemma le_uint_sub_2 off b : 0 <= off -> le_uint (sub_bytes off 2 b) = u16_at b off.
Proof.
  intros. change 2 with (1 + 1) at 1. rewrite sub_bytes_step, le_uint_sub_1 by lia. reflexivity.
Qed.

Lemma le_uint_sub_4 off b : 0 <= off -> le_uint (sub_bytes off 4 b) = u32_at b off.
Proof.
  intros. change 4 with (1 + 3) at 1. rewrite sub_bytes_step by lia.
  change 3 with (1 + 2) at 1. rewrite sub_bytes_step, le_uint_sub_2 by lia.
  unfold u32_at, u16_at. replace (off + 1 + 1) with (off + 2) by lia. lia.
Qed.

Lemma le_uint_sub_8 off b : 0 <= off -> le_uint (sub_bytes off 8 b) = u64_at b off.
Proof.
  intros. change 8 with (1 + 7) at 1. rewrite sub_bytes_step by lia.
  change 7 with (1 + 6) at 1. rewrite sub_bytes_step by lia.
  change 6 with (1 + 5) at 1. rewrite sub_bytes_step by lia.
  change 5 with (1 + 4) at 1. rewrite sub_bytes_step, le_uint_sub_4 by lia.
  unfold u64_at, u32_at, u16_at.
  repeat match goal with |- context [?x + ?a + ?b] =>
    is_var x; let c := eval vm_compute in (a + b) in
    lazymatch c with Zpos _ => change (x + a + b) with ((x + a) + b); replace (x + a + b) with (x + c) by lia end
  end.
  lia.
Qed.

Lemma u16_range b i : 0 <= u16_at b i < 65536.
Proof. unfold u16_at. pose proof (at8_range b i); pose proof (at8_range b (i + 1)). lia. Qed.
Lemma u32_range b i : 0 <= u32_at b i < 4294967296.
Proof. unfold u32_at. pose proof (u16_range b i); pose proof (u16_range b (i + 2)). lia. Qed.
Lemma u64_range b i : 0 <= u64_at b i < 18446744073709551616.
Proof. unfold u64_at. pose proof (u32_range b i); pose proof (u32_range b (i + 4)). lia. Qed.
Lemma i32_range b i : -2147483648 <= i32_at b i < 2147483648.
Proof. unfold i32_at. pose proof (u32_range b i). destruct (_ <? _) eqn:E; lia. Qed.
Lemma i64_range b i : -9223372036854775808 <= i64_at b i < 9223372036854775808.
Proof. unfold i64_at. pose proof (u64_range b i). destruct (_ <? _) eqn:E; lia. Qed.

Lemma at8_app_l b c i : 0 <= i < zlen b -> at8 (b ++ c) i = at8 b i.
Proof. intros. unfold at8, zlen in *. rewrite app_nth1 by lia. reflexivity. Qed.

Lemma at8_zeros b n i : at8 (b ++ zeros n) i = at8 b i.
Proof.
  unfold at8. destruct (Nat.lt_ge_cases (Z.to_nat i) (List.length b)).
  - rewrite app_nth1 by assumption. reflexivity.
  - rewrite app_nth2, (nth_overflow b) by assumption.
    unfold zeros. rewrite nth_repeat. reflexivity.
Qed.

Lemma at8_out b i : zlen b <= i -> at8 b i = 0.
Proof. intros. unfold at8. rewrite nth_overflow; [reflexivity|unfold zlen in *; lia]. Qed.

Lemma u16_zeros b n i : u16_at (b ++ zeros n) i = u16_at b i.
Proof. unfold u16_at. rewrite !at8_zeros. reflexivity. Qed.
Lemma u32_zeros b n i : u32_at (b ++ zeros n) i = u32_at b i.
Proof. unfold u32_at. rewrite !u16_zeros. reflexivity. Qed.
Lemma i32_zeros b n i : i32_at (b ++ zeros n) i = i32_at b i.
Proof. unfold i32_at. rewrite !u32_zeros. reflexivity. Qed.

Lemma u16_app_l b c i : 0 <= i -> i + 2 <= zlen b -> u16_at (b ++ c) i = u16_at b i.
Proof. intros. unfold u16_at. rewrite !at8_app_l by lia. reflexivity. Qed.
Lemma u32_app_l b c i : 0 <= i -> i + 4 <= zlen b -> u32_at (b ++ c) i = u32_at b i.
Proof. intros. unfold u32_at. rewrite !u16_app_l by lia. reflexivity. Qed.
Lemma i32_app_l b c i : 0 <= i -> i + 4 <= zlen b -> i32_at (b ++ c) i = i32_at b i.
Proof. intros. unfold i32_at. rewrite !u32_app_l by lia. reflexivity. Qed.

(** ** Reading files *)

Lemma fread_plain n l : 0 <= n -> n <= zlen l ->
  fread n (plain l) = (Ok (ztake n l), plain (zdrop n l)).
Proof. intros. unfold fread, plain; cbn [f_rem f_fault]. destruct (n <=? zlen l) eqn:E; [reflexivity|lia]. Qed.

Lemma fread_plain_any n l : fread n (plain l) = (Ok (ztake n l), plain (zdrop n l)).
Proof.
  unfold fread, plain; cbn [f_rem f_fault]. destruct (n <=? zlen l) eqn:E; [reflexivity|].
  rewrite ztake_all, zdrop_all by lia. reflexivity.
Qed.

Lemma fread_app n (a b : list byte) : zlen a = n -> fread n (plain (a ++ b)) = (Ok a, plain b).
Proof. intros. rewrite fread_plain_any, ztake_exact, zdrop_exact by assumption. reflexivity. Qed.

Lemma freadinto_plain n l :
  freadinto n (plain l) = (Ok (ztake n l ++ zeros (n - zlen (ztake n l))), plain (zdrop n l)).
Proof. unfold freadinto. rewrite fread_plain_any. reflexivity. Qed.

Lemma freadinto_app n (a b : list byte) : zlen a = n ->
  freadinto n (plain (a ++ b)) = (Ok a, plain b).
Proof.
  intros. rewrite freadinto_plain, ztake_exact, zdrop_exact by assumption.
  replace (n - zlen a) with 0 by lia. rewrite app_nil_r. reflexivity.
Qed.

(** ** Python slices *)

Lemma pyslice_pos {A} a b (l : list A) : 0 <= a -> a <= b -> pyslice a b l = ztake (b - a) (zdrop a l).
Proof.
  intros. unfold pyslice, norm_index.
  replace (a <? 0) with false by lia. replace (b <? 0) with false by lia.
  pose proof (zlen_nonneg l).
  destruct (Z_le_gt_dec a (zlen l)).
  - rewrite (Z.min_l a) by lia. destruct (Z_le_gt_dec b (zlen l)).
    + rewrite Z.min_l by lia. reflexivity.
    + rewrite Z.min_r by lia. rewrite !ztake_all; try reflexivity; rewrite zlen_zdrop; lia.
  - rewrite !Z.min_r by lia. rewrite zdrop_all by lia. rewrite (zdrop_all a) by lia.
    unfold ztake. rewrite !firstn_nil. reflexivity.
Qed.

Lemma pyslice_to_pos {A} n (l : list A) : 0 <= n -> pyslice_to n l = ztake n l.
Proof.
  intros. unfold pyslice_to. rewrite pyslice_pos, zdrop_0 by lia. f_equal. lia.
Qed.

Lemma pyslice_to_neg {A} n (l : list A) : n < 0 -> pyslice_to n l = ztake (zlen l + n) l.
Proof.
  intros. unfold pyslice_to, pyslice, norm_index.
  replace (n <? 0) with true by lia. change (0 <? 0) with false. cbv iota.
  pose proof (zlen_nonneg l). rewrite (Z.min_l 0), zdrop_0 by lia.
  destruct (Z_le_gt_dec 0 (zlen l + n)).
  - f_equal. lia.
  - rewrite !ztake_0 by lia. reflexivity.
Qed.

(** ** Sequencing *)

Lemma rmap_ok {A B} (f : A -> res B) (g : A -> B) l :
  (forall x, In x l -> f x = Ok (g x)) -> rmap f l = Ok (map g l).
Proof.
  induction l as [|x l IH]; intros H; cbn [rmap map]; [reflexivity|].
  rewrite (H x), IH; cbn [rbind]; auto with datatypes.
Qed.

Lemma rmap_length {A B} (f : A -> res B) l r : rmap f l = Ok r -> zlen r = zlen l.
Proof.
  revert r. induction l as [|x l IH]; cbn [rmap]; intros r H; [injection H as <-; reflexivity|].
  destruct (f x); [|discriminate]. cbn [rbind] in H. destruct (rmap f l); [|discriminate].
  cbn [rbind] in H. injection H as <-. rewrite !zlen_cons, (IH a0); auto.
Qed.

Lemma existsb_false {A} (f : A -> bool) l : existsb f l = false <-> forall x, In x l -> f x = false.
Proof.
  induction l as [|x l IH]; cbn [existsb In]; [tauto|].
  rewrite orb_false_iff, IH. split.
  - intros [H1 H2] y [<-|Hy]; auto.
  - intros H; split; auto.
Qed.
