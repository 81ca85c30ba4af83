(** * Facts about the gzip model *)
From Coq Require Import List ZArith Lia Bool.
From Coq Require Import Init.Byte.
From Coq Require Import ZifyBool.
From Verif Require Import PyBase Inflate Gzip Spec BaseProofs RepProofs InflateProofs.
Import ListNotations.
Open Scope list_scope.
Open Scope Z_scope.

Definition word (c : Z) : Prop := 0 <= c < 4294967296.

Lemma word_lxor a b : word a -> word b -> word (Z.lxor a b).
Proof.
  unfold word. intros Ha Hb.
  assert (0 <= Z.lxor a b) as N by (rewrite Z.lxor_nonneg; lia). split; [exact N|].
  destruct (Z.eq_dec (Z.lxor a b) 0) as [->|Z0]; [lia|].
  change 4294967296 with (2 ^ 32). apply Z.log2_lt_pow2; [lia|].
  pose proof (Z.log2_lxor a b ltac:(lia) ltac:(lia)) as L.
  assert (forall x, 0 <= x < 4294967296 -> Z.log2 x < 32) as K.
  { intros x Hx. destruct (Z.eq_dec x 0) as [->|X]; [reflexivity|]. apply Z.log2_lt_pow2; [lia|]. exact (proj2 Hx). }
  pose proof (K a Ha). pose proof (K b Hb). lia.
Qed.

Lemma word_bit c : word c -> word (crc_bit c).
Proof.
  intros H. assert (word (Z.shiftr c 1)) as S.
  { unfold word in *. rewrite Z.shiftr_div_pow2 by lia. change (2 ^ 1) with 2. split; [apply Z.div_pos; lia|apply Z.div_lt_upper_bound; lia]. }
  unfold crc_bit. destruct (Z.odd c); [|exact S]. apply word_lxor; [exact S|unfold word; lia].
Qed.

Lemma word_byte c b : word c -> word (crc_byte c b).
Proof.
  intros H. unfold crc_byte. do 8 apply word_bit. apply word_lxor; [exact H|]. pose proof (bval_range b). unfold word. lia.
Qed.

Lemma crc32_word l : word (crc32 l).
Proof.
  unfold crc32. apply word_lxor; [|unfold word; lia].
  assert (forall c, word c -> word (fold_left crc_byte l c)) as K.
  { induction l as [|b l IH]; intros c H; cbn [fold_left]; [exact H|]. apply IH, word_byte, H. }
  apply K. unfold word. lia.
Qed.

Lemma get_u32_le4 n rest : word n -> get_u32 (mkB [] (le4 n ++ rest)) = Some (n, mkB [] rest).
Proof.
  unfold word. intros H. unfold get_u32, le4. cbn [app].
  do 4 (unfold pbind at 1, getbyte at 1; cbn [b_bytes b_bits]). unfold pret. f_equal. f_equal.
  rewrite !byte_of_same, !bval_byte_of_Z by
    first [apply Z.mod_pos_bound; lia | split; [apply Z.div_pos; lia|apply Z.div_lt_upper_bound; lia]].
  replace (n / 65536) with (n / 256 / 256) by (rewrite Z.div_div by lia; reflexivity).
  replace (n / 16777216) with (n / 256 / 256 / 256) by (rewrite !Z.div_div by lia; reflexivity).
  pose proof (Z.div_mod n 256). pose proof (Z.div_mod (n / 256) 256). pose proof (Z.div_mod (n / 256 / 256) 256). lia.
Qed.

Lemma gz_member_stored fuel l rest : (List.length l < fuel)%nat ->
  gz_member fuel (mkB [] (skipn 2 (gzip_store l) ++ rest)) = Some (l, mkB [] rest).
Proof.
  intros F. unfold gzip_store. cbn [skipn app]. unfold gz_member.
  assert (forall r, gz_header (mkB [] (x08 :: x00 :: x00 :: x00 :: x00 :: x00 :: x00 :: xff :: r)) = Some (tt, mkB [] r)) as H by reflexivity.
  unfold pbind at 1. rewrite H. unfold pbind at 1. rewrite <- !app_assoc. rewrite store_blocks_ok by lia.
  rewrite app_nil_r. unfold pbind at 1, align. cbn [b_bytes]. rewrite rev_involutive.
  unfold pbind at 1. rewrite get_u32_le4 by apply crc32_word.
  unfold pbind at 1. rewrite get_u32_le4 by (unfold word; apply Z.mod_pos_bound; lia).
  rewrite !Z.eqb_refl. reflexivity.
Qed.

Lemma gz_magic_store l : gz_magic (gzip_store l) = true.
Proof. reflexivity. Qed.

(** ** More bytes after a complete member change nothing *)

Lemma mono_skip n : mono (skip_bytes n).
Proof. induction n as [|n IH]; cbn [skip_bytes]; [apply mono_ret|]. apply mono_bind; [apply mono_getbyte|]. intros _. exact IH. Qed.

Lemma after_nul_app l r x : after_nul l = Some r -> after_nul (l ++ x) = Some (r ++ x).
Proof.
  induction l as [|b l IH]; cbn [after_nul app]; [discriminate|].
  destruct (Byte.eqb b x00); [|exact IH]. intros H. injection H as ->. reflexivity.
Qed.

Lemma mono_text : mono skip_text.
Proof.
  intros [bits bytes] a s' x H. unfold skip_text, ext in *. cbn [b_bits b_bytes] in *.
  destruct (after_nul bytes) as [r|] eqn:E; [|discriminate H]. injection H as <- <-.
  rewrite (after_nul_app _ _ x E). reflexivity.
Qed.

Lemma mono_header : mono gz_header.
Proof.
  unfold gz_header. apply mono_bind; [apply mono_getbyte|]. intros m. apply mono_bind; [apply mono_getbyte|]. intros fl.
  apply mono_bind; [apply mono_skip|]. intros _. destruct (negb _); [apply mono_fail|].
  apply mono_bind.
  { destruct (flag fl 2); [|apply mono_ret]. do 2 (apply mono_bind; [apply mono_getbyte|]; intros ?). apply mono_skip. }
  intros _. apply mono_bind; [destruct (flag fl 3); [apply mono_text|apply mono_ret]|].
  intros _. apply mono_bind; [destruct (flag fl 4); [apply mono_text|apply mono_ret]|].
  intros _. destruct (flag fl 1); [apply mono_skip|apply mono_ret].
Qed.

Lemma mono_u32 : mono get_u32.
Proof. unfold get_u32. do 4 (apply mono_bind; [apply mono_getbyte|]; intros ?). apply mono_ret. Qed.

Lemma mono_member fuel : mono (gz_member fuel).
Proof.
  unfold gz_member. apply mono_bind; [apply mono_header|]. intros _. apply mono_bind; [apply mono_blocks|]. intros out.
  apply mono_bind; [apply mono_align|]. intros _. do 2 (apply mono_bind; [apply mono_u32|]; intros ?).
  destruct (_ && _); [apply mono_ret|apply mono_fail].
Qed.

Lemma eats_skip n : eats 0 (skip_bytes n).
Proof. induction n as [|n IH]; cbn [skip_bytes]; [apply eats_ret|]. apply eats_bind0; [apply eats_getbyte|]. intros _. exact IH. Qed.

Lemma after_nul_shorter l r : after_nul l = Some r -> (List.length r <= List.length l)%nat.
Proof.
  induction l as [|b l IH]; cbn [after_nul]; [discriminate|]. destruct (Byte.eqb b x00).
  - intros H. injection H as ->. cbn. lia.
  - intros H. apply IH in H. cbn. lia.
Qed.

Lemma eats_text : eats 0 skip_text.
Proof.
  intros [bits bytes] a s' H. unfold skip_text, bsize in *. cbn [b_bits b_bytes] in *.
  destruct (after_nul bytes) as [r|] eqn:E; [|discriminate H]. injection H as _ <-. apply after_nul_shorter in E.
  cbn [b_bits b_bytes]. lia.
Qed.

Lemma eats_header : eats 0 gz_header.
Proof.
  unfold gz_header. apply eats_bind0; [apply eats_getbyte|]. intros m. apply eats_bind0; [apply eats_getbyte|]. intros fl.
  apply eats_bind0; [apply eats_skip|]. intros _. destruct (negb _); [apply eats_fail|].
  apply eats_bind0.
  { destruct (flag fl 2); [|apply eats_ret]. do 2 (apply eats_bind0; [apply eats_getbyte|]; intros ?). apply eats_skip. }
  intros _. apply eats_bind0; [destruct (flag fl 3); [apply eats_text|apply eats_ret]|].
  intros _. apply eats_bind0; [destruct (flag fl 4); [apply eats_text|apply eats_ret]|].
  intros _. destruct (flag fl 1); [apply eats_skip|apply eats_ret].
Qed.

Lemma eats_u32 : eats 0 get_u32.
Proof. unfold get_u32. do 4 (apply eats_bind0; [apply eats_getbyte|]; intros ?). apply eats_ret. Qed.

Lemma eats_blocks fuel sub out : eats 0 (blocks fuel sub out).
Proof.
  revert out. induction fuel as [|k IH]; intros out; cbn [blocks]; [apply eats_fail|].
  apply eats_bind0; [eapply eats_weaken; [apply eats_getbit|lia]|]. intros final. apply eats_bind0; [apply eats_getbits|]. intros ty.
  apply eats_bind0.
  - destruct (ty =? 0); [apply eats_stored|]. destruct (ty =? 1); [apply eats_codes_loop|].
    destruct (ty =? 2); [|apply eats_fail]. apply eats_bind0; [apply eats_dynamic|]. intros ld. apply eats_codes_loop.
  - intros out'. destruct final; [apply eats_ret|apply IH].
Qed.

Lemma eats_member fuel : eats 0 (gz_member fuel).
Proof.
  unfold gz_member. apply eats_bind0; [apply eats_header|]. intros _. apply eats_bind0; [apply eats_blocks|]. intros out.
  apply eats_bind0; [apply eats_align|]. intros _. do 2 (apply eats_bind0; [apply eats_u32|]; intros ?).
  destruct (_ && _); [apply eats_ret|apply eats_fail].
Qed.

Lemma member_fuel k k' s : (bsize s < k)%nat -> (bsize s < k')%nat -> gz_member k s = gz_member k' s.
Proof.
  intros H H'. unfold gz_member. apply pbind_ext. intros a s1 E1. pose proof (eats_header _ _ _ E1).
  unfold pbind. rewrite (blocks_fuel k k' k k' [] s1) by lia. reflexivity.
Qed.

Lemma drop_zeros_len l : (List.length (drop_zeros l) <= List.length l)%nat.
Proof. induction l as [|b l IH]; cbn [drop_zeros]; [lia|]. destruct (Byte.eqb b x00); cbn [List.length]; lia. Qed.

(** A member with enough fuel, as a function of the bytes alone. *)
Definition member (l : list byte) : option (list byte * list byte) :=
  if gz_magic l then
    match gz_member (S (8 * List.length l)) (mkB [] (skipn 2 l)) with
    | Some (d, s) => Some (d, b_bytes s)
    | None => None
    end
  else None.

Lemma gz_members_step k b l : gz_members (S k) (b :: l) =
  match member (b :: l) with
  | Some (d, r) => match gz_members k (drop_zeros r) with Some x => Some (d ++ x) | None => None end
  | None => None
  end.
Proof.
  unfold member. cbn [gz_members]. destruct (gz_magic (b :: l)); [|reflexivity].
  destruct (gz_member _ _) as [[d s]|]; reflexivity.
Qed.

Lemma magic_two l : gz_magic l = true -> exists r, l = x1f :: x8b :: r.
Proof.
  destruct l as [|a [|b r]]; cbn [gz_magic]; intros H; try discriminate H. apply andb_prop in H. destruct H as [H1 H2].
  apply Byte.byte_dec_bl in H1. apply Byte.byte_dec_bl in H2. subst. exists r. reflexivity.
Qed.

Lemma member_shorter l d r : member l = Some (d, r) -> (List.length r < List.length l)%nat.
Proof.
  unfold member. destruct (gz_magic l) eqn:M; [|discriminate]. apply magic_two in M. destruct M as (q & ->). cbn [skipn].
  destruct (gz_member _ _) as [[d' s]|] eqn:E; [|discriminate]. intros H. injection H as _ <-.
  apply eats_member in E. unfold bsize in E. cbn [b_bits b_bytes List.length] in *. lia.
Qed.

Lemma member_app l d r x : member l = Some (d, r) -> member (l ++ x) = Some (d, r ++ x).
Proof.
  unfold member. destruct (gz_magic l) eqn:M; [|discriminate]. apply magic_two in M. destruct M as (q & ->). cbn [skipn app].
  change (gz_magic (x1f :: x8b :: q ++ x)) with true. cbv iota.
  set (k := S (8 * List.length (x1f :: x8b :: q ++ x))).
  rewrite (member_fuel _ k); [|unfold bsize; cbn; lia|unfold bsize, k; cbn; rewrite app_length; lia].
  destruct (gz_member k (mkB [] q)) as [[d' s]|] eqn:E; [|discriminate]. intros H. injection H as -> <-.
  apply (mono_member k _ _ _ x) in E. unfold ext in E. cbn [b_bits b_bytes] in E. rewrite E. reflexivity.
Qed.

Lemma gz_members_fuel k k' l : (List.length l <= k)%nat -> (List.length l <= k')%nat -> gz_members k l = gz_members k' l.
Proof.
  revert k' l. induction k as [|k IH]; intros k' [|b l] H H'; try reflexivity.
  - destruct k'; reflexivity.
  - cbn in H. lia.
  - destruct k'; reflexivity.
  - destruct k' as [|k']; [cbn in H'; lia|]. rewrite !gz_members_step.
    destruct (member (b :: l)) as [[d r]|] eqn:E; [|reflexivity]. apply member_shorter in E.
    pose proof (drop_zeros_len r). rewrite (IH k'); [reflexivity| |]; cbn in *; lia.
Qed.

(** How gunzip reads: a member, padding, and then the rest in the same way. *)
Theorem gunzip_step b l : gunzip (b :: l) =
  match member (b :: l) with
  | Some (d, r) => match gunzip (drop_zeros r) with Some x => Some (d ++ x) | None => None end
  | None => None
  end.
Proof.
  unfold gunzip. cbn [List.length]. rewrite gz_members_step. destruct (member (b :: l)) as [[d r]|] eqn:E; [|reflexivity].
  apply member_shorter in E. pose proof (drop_zeros_len r). cbn in E.
  rewrite (gz_members_fuel _ (List.length (drop_zeros r))); [reflexivity| |]; lia.
Qed.

Lemma drop_zeros_app l x : drop_zeros l <> [] -> drop_zeros (l ++ x) = drop_zeros l ++ x.
Proof.
  induction l as [|b l IH]; cbn [drop_zeros app]; [congruence|]. destruct (Byte.eqb b x00); [exact IH|reflexivity].
Qed.
Lemma drop_zeros_nil l x : drop_zeros l = [] -> drop_zeros (l ++ x) = drop_zeros x.
Proof. induction l as [|b l IH]; cbn [drop_zeros app]; [reflexivity|]. destruct (Byte.eqb b x00); [exact IH|discriminate]. Qed.

Lemma gunzip_start l d : gunzip l = Some d -> l = [] \/ exists r, l = x1f :: x8b :: r.
Proof.
  destruct l as [|b l]; [auto|]. rewrite gunzip_step. unfold member. destruct (gz_magic (b :: l)) eqn:M; [|discriminate].
  intros _. right. apply magic_two, M.
Qed.

(** Concatenated gzip files hold the concatenated contents. *)
Theorem gunzip_app a b x y : gunzip a = Some x -> gunzip b = Some y -> gunzip (a ++ b) = Some (x ++ y).
Proof.
  intros Ha Hb. assert (drop_zeros b = b) as Db.
  { apply gunzip_start in Hb. destruct Hb as [->|(r & ->)]; reflexivity. }
  remember (List.length a) as n eqn:En. revert a x En Ha.
  induction n as [n IH] using lt_wf_ind. intros [|c a] x -> Ha.
  - change (gunzip []) with (Some (@nil byte)) in Ha. injection Ha as <-. exact Hb.
  - rewrite gunzip_step in Ha. cbn [app]. rewrite gunzip_step.
    destruct (member (c :: a)) as [[d r]|] eqn:E; [|discriminate Ha].
    apply (member_app _ _ _ b) in E as E2. cbn [app] in E2. rewrite E2.
    apply member_shorter in E. pose proof (drop_zeros_len r).
    destruct (gunzip (drop_zeros r)) as [z|] eqn:G; [|discriminate Ha]. injection Ha as <-.
    destruct (drop_zeros r) as [|w q] eqn:Dr.
    + rewrite drop_zeros_nil, Db, Hb by exact Dr. change (gunzip []) with (Some (@nil byte)) in G. injection G as <-.
      rewrite app_nil_r. reflexivity.
    + rewrite drop_zeros_app, Dr by congruence. rewrite (IH (List.length (w :: q)) ltac:(cbn in *; lia) (w :: q) z eq_refl G).
      rewrite app_assoc. reflexivity.
Qed.

(** Every content has a gzip file. *)
Theorem gunzip_store l : gunzip (gzip_store l) = Some l.
Proof.
  change (gzip_store l) with (x1f :: skipn 1 (gzip_store l)). rewrite gunzip_step.
  change (x1f :: skipn 1 (gzip_store l)) with (gzip_store l). unfold member. rewrite gz_magic_store.
  assert (List.length l < S (8 * List.length (gzip_store l)))%nat as F.
  { unfold gzip_store. rewrite !app_length. 
    assert (forall k l, (List.length l <= k)%nat -> (List.length l <= List.length (store_blocks k l))%nat) as K.
    { clear. induction k as [|k IH]; intros l H; cbn [store_blocks]; [destruct l; cbn in *; lia|].
      destruct (zlen l <=? 65535); [unfold store_block; cbn [List.length]; rewrite !app_length; lia|].
      rewrite app_length. assert (List.length (zdrop 65535 l) <= k)%nat as L.
      { unfold zdrop. rewrite skipn_length. assert (Z.to_nat 65535 > 0)%nat by lia. lia. }
      apply IH in L. unfold store_block. cbn [List.length]. rewrite !app_length.
      rewrite <- (firstn_skipn (Z.to_nat 65535) l) at 1. rewrite app_length. unfold ztake, zdrop in *. lia. }
    specialize (K (List.length l) l (le_n _)). lia. }
  pose proof (gz_member_stored _ l [] F) as H. rewrite app_nil_r in H. rewrite H. cbn [b_bytes drop_zeros].
  change (gunzip []) with (Some (@nil byte)). cbv iota beta. rewrite app_nil_r. reflexivity.
Qed.

(** A cut member is noticed. *)
Theorem member_cut c d p q : member c = Some (d, []) -> c = p ++ q -> q <> [] -> member p = None.
Proof.
  intros H -> Hq. destruct (member p) as [[x r]|] eqn:E; [|reflexivity].
  apply (member_app _ _ _ q) in E. rewrite E in H. injection H as _ H. destruct r; destruct q; try discriminate H. congruence.
Qed.

Theorem gunzip_cut c d p q : member c = Some (d, []) -> c = p ++ q -> q <> [] -> p <> [] -> gunzip p = None.
Proof.
  intros H E Hq Hp. destruct p as [|b p]; [congruence|]. rewrite gunzip_step, (member_cut c d (b :: p) q H E Hq). reflexivity.
Qed.

(** Padding after the last member is ignored. *)
Theorem gunzip_padding a x n : a <> [] -> gunzip a = Some x -> gunzip (a ++ repeat x00 n) = Some x.
Proof.
  intros Hne Ha. assert (drop_zeros (repeat x00 n) = []) as Dz by (induction n as [|n IH]; [reflexivity|exact IH]).
  remember (List.length a) as m eqn:Em. revert a x Em Hne Ha.
  induction m as [m IH] using lt_wf_ind. intros [|c a] x -> Hne Ha; [congruence|].
  rewrite gunzip_step in Ha. cbn [app]. rewrite gunzip_step.
  destruct (member (c :: a)) as [[d r]|] eqn:E; [|discriminate Ha].
  apply (member_app _ _ _ (repeat x00 n)) in E as E2. cbn [app] in E2. rewrite E2.
  apply member_shorter in E. pose proof (drop_zeros_len r).
  destruct (gunzip (drop_zeros r)) as [z|] eqn:G; [|discriminate Ha]. injection Ha as <-.
  destruct (drop_zeros r) as [|w q] eqn:Dr.
  - rewrite drop_zeros_nil, Dz by exact Dr. change (gunzip []) with (Some (@nil byte)) in *. injection G as <-. reflexivity.
  - rewrite drop_zeros_app, Dr by congruence. rewrite (IH (List.length (w :: q)) ltac:(cbn in *; lia) (w :: q) z eq_refl); [reflexivity|congruence|exact G].
Qed.
