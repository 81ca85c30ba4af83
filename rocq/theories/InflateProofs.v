(** * Properties of the zlib/DEFLATE model *)
From Coq Require Import List ZArith Lia Bool.
From Coq Require Import Init.Byte.
From Coq Require Import ZifyBool.
From Verif Require Import PyBase CTypes Inflate Spec BaseProofs.
Import ListNotations.
Open Scope list_scope.
Open Scope Z_scope.

(** ** Appending input does not change a successful parse *)

Definition ext (s : bst) (x : list byte) : bst := mkB (b_bits s) (b_bytes s ++ x).

Definition mono {A} (m : P A) : Prop :=
  forall s a s' x, m s = Some (a, s') -> m (ext s x) = Some (a, ext s' x).

Lemma mono_ret {A} (a : A) : mono (pret a).
Proof. intros s b s' x H. unfold pret in *. injection H as <- <-. reflexivity. Qed.
Lemma mono_fail {A} : mono (@pfail A).
Proof. intros s b s' x H. discriminate. Qed.
Lemma mono_bind {A B} (m : P A) (k : A -> P B) : mono m -> (forall a, mono (k a)) -> mono (pbind m k).
Proof.
  intros Hm Hk s b s' x H. unfold pbind in *. destruct (m s) as [[a s1]|] eqn:E; [|discriminate].
  rewrite (Hm _ _ _ x E). exact (Hk a _ _ _ x H).
Qed.
Lemma mono_getbit : mono getbit.
Proof.
  intros [bits bytes] a s' x H. unfold getbit, ext in *. cbn [b_bits b_bytes] in *.
  destruct bits as [|b r]; [|injection H as <- <-; reflexivity].
  destruct bytes as [|y ys]; [discriminate|]. cbn [app].
  destruct (bits_of_byte y); [discriminate|]. injection H as <- <-. reflexivity.
Qed.
Lemma mono_getbits n : mono (getbits n).
Proof.
  induction n as [|n IH]; cbn [getbits]; [apply mono_ret|].
  apply mono_bind; [apply mono_getbit|]. intros b. apply mono_bind; [exact IH|]. intros v. apply mono_ret.
Qed.
Lemma mono_align : mono align.
Proof. intros s a s' x H. unfold align in *. injection H as <- <-. reflexivity. Qed.
Lemma mono_getbyte : mono getbyte.
Proof.
  intros [bits bytes] a s' x H. unfold getbyte, ext in *. cbn [b_bits b_bytes] in *.
  destruct bytes as [|y ys]; [discriminate|]. injection H as <- <-. reflexivity.
Qed.
Lemma mono_decode_sym counts syms code first : mono (decode_sym counts syms code first).
Proof.
  revert syms code first. induction counts as [|c r IH]; intros syms code first; cbn [decode_sym]; [apply mono_fail|].
  apply mono_bind; [apply mono_getbit|]. intros b. destruct (_ <? _); [|apply IH].
  destruct (nth_error _ _); [apply mono_ret|apply mono_fail].
Qed.
Lemma mono_decode h : mono (decode h).
Proof. apply mono_decode_sym. Qed.
Lemma mono_with_extra bs es i : mono (with_extra bs es i).
Proof.
  unfold with_extra. destruct (nth_error bs _); [|apply mono_fail]. destruct (nth_error es _); [|apply mono_fail].
  apply mono_bind; [apply mono_getbits|]. intros. apply mono_ret.
Qed.
Lemma mono_codes_loop fuel lit dist out : mono (codes_loop fuel lit dist out).
Proof.
  revert out. induction fuel as [|k IH]; intros out; cbn [codes_loop]; [apply mono_fail|].
  apply mono_bind; [apply mono_decode|]. intros s. destruct (s <? 256); [apply IH|].
  destruct (s =? 256); [apply mono_ret|].
  apply mono_bind; [apply mono_with_extra|]. intros len.
  apply mono_bind; [apply mono_decode|]. intros ds.
  apply mono_bind; [apply mono_with_extra|]. intros d.
  destruct (copy_back _ _ _); [apply IH|apply mono_fail].
Qed.
Lemma mono_getbytes_n n out : mono (getbytes_n n out).
Proof.
  revert out. induction n as [|n IH]; intros out; cbn [getbytes_n]; [apply mono_ret|].
  apply mono_bind; [apply mono_getbyte|]. intros b. apply IH.
Qed.
Lemma mono_stored out : mono (stored out).
Proof.
  unfold stored. apply mono_bind; [apply mono_align|]. intros _.
  do 4 (apply mono_bind; [apply mono_getbyte|]; intros ?).
  destruct (_ =? _); [apply mono_getbytes_n|apply mono_fail].
Qed.
Lemma mono_getcl n : mono (getcl n).
Proof.
  induction n as [|n IH]; cbn [getcl]; [apply mono_ret|].
  apply mono_bind; [apply mono_getbits|]. intros v. apply mono_bind; [exact IH|]. intros. apply mono_ret.
Qed.
Lemma mono_getlens fuel h want acc : mono (getlens fuel h want acc).
Proof.
  revert acc. induction fuel as [|k IH]; intros acc; cbn [getlens]; [apply mono_fail|].
  destruct (want <=? zlen acc); [destruct (_ =? _); [apply mono_ret|apply mono_fail]|].
  apply mono_bind; [apply mono_decode|]. intros s. destruct (s <? 16); [apply IH|].
  destruct (s =? 16).
  { destruct acc; [apply mono_fail|]. apply mono_bind; [apply mono_getbits|]. intros v. apply IH. }
  destruct (s =? 17); (apply mono_bind; [apply mono_getbits|]; intros v; apply IH).
Qed.
Lemma mono_dynamic : mono dynamic_codes.
Proof.
  unfold dynamic_codes. do 3 (apply mono_bind; [apply mono_getbits|]; intros ?).
  destruct (_ || _); [apply mono_fail|]. apply mono_bind; [apply mono_getcl|]. intros raw.
  destruct (negb _); [apply mono_fail|]. apply mono_bind; [apply mono_getlens|]. intros lens.
  destruct (_ =? 0); [apply mono_fail|]. destruct (_ && _); [apply mono_ret|apply mono_fail].
Qed.
Lemma mono_blocks fuel sub out : mono (blocks fuel sub out).
Proof.
  revert out. induction fuel as [|k IH]; intros out; cbn [blocks]; [apply mono_fail|].
  apply mono_bind; [apply mono_getbit|]. intros final. apply mono_bind; [apply mono_getbits|]. intros ty.
  apply mono_bind.
  - destruct (ty =? 0); [apply mono_stored|]. destruct (ty =? 1); [apply mono_codes_loop|].
    destruct (ty =? 2); [|apply mono_fail]. apply mono_bind; [apply mono_dynamic|]. intros ld. apply mono_codes_loop.
  - intros out'. destruct final; [apply mono_ret|apply IH].
Qed.
Lemma mono_zstream fuel : mono (zstream fuel).
Proof.
  unfold zstream. do 2 (apply mono_bind; [apply mono_getbyte|]; intros ?).
  do 4 (destruct (_ : bool); [apply mono_fail|]).
  apply mono_bind; [apply mono_blocks|]. intros out. apply mono_bind; [apply mono_align|]. intros _.
  do 4 (apply mono_bind; [apply mono_getbyte|]; intros ?).
  destruct (_ =? _); [apply mono_ret|apply mono_fail].
Qed.

(** ** Fuel *)

Definition bsize (s : bst) : nat := List.length (b_bits s) + 8 * List.length (b_bytes s).

(** [m] never gives bits back; with [n] it consumes at least [n] bits. *)
Definition eats {A} (n : nat) (m : P A) : Prop :=
  forall s a s', m s = Some (a, s') -> (bsize s' + n <= bsize s)%nat.

Lemma eats_ret {A} (a : A) : eats 0 (pret a).
Proof. intros s b s' H. unfold pret in H. injection H as _ <-. lia. Qed.
Lemma eats_fail {A} n : eats n (@pfail A).
Proof. intros s b s' H. discriminate. Qed.
Lemma eats_weaken {A} n k (m : P A) : eats n m -> (k <= n)%nat -> eats k m.
Proof. intros H L s a s' E. specialize (H _ _ _ E). lia. Qed.
Lemma eats_bind {A B} n k (m : P A) (f : A -> P B) : eats n m -> (forall a, eats k (f a)) -> eats (n + k) (pbind m f).
Proof.
  intros Hm Hk s b s' H. unfold pbind in H. destruct (m s) as [[a s1]|] eqn:E; [|discriminate].
  apply Hm in E. apply Hk in H. lia.
Qed.
Lemma eats_bind0 {A B} (m : P A) (f : A -> P B) : eats 0 m -> (forall a, eats 0 (f a)) -> eats 0 (pbind m f).
Proof. intros. apply (eats_bind 0 0); assumption. Qed.
Lemma eats_bind1 {A B} (m : P A) (f : A -> P B) : eats 1 m -> (forall a, eats 0 (f a)) -> eats 1 (pbind m f).
Proof. intros. apply (eats_bind 1 0); assumption. Qed.

Lemma eats_getbit : eats 1 getbit.
Proof.
  intros [bits bytes] a s' H. unfold getbit, bsize in *. cbn [b_bits b_bytes] in *.
  destruct bits as [|b r]; [|injection H as _ <-; cbn [b_bits b_bytes List.length]; lia].
  destruct bytes as [|y ys]; [discriminate|].
  unfold bits_of_byte in H. cbn [map] in H. injection H as _ <-. cbn [b_bits b_bytes List.length]. lia.
Qed.
Lemma eats_getbits n : eats 0 (getbits n).
Proof.
  induction n as [|n IH]; cbn [getbits]; [apply eats_ret|].
  apply eats_bind0; [eapply eats_weaken; [apply eats_getbit|lia]|]. intros b. apply eats_bind0; [exact IH|]. intros. apply eats_ret.
Qed.
Lemma eats_align : eats 0 align.
Proof. intros s a s' H. unfold align in H. injection H as _ <-. unfold bsize. cbn [b_bits b_bytes List.length]. lia. Qed.
Lemma eats_getbyte : eats 0 getbyte.
Proof.
  intros [bits bytes] a s' H. unfold getbyte, bsize in *. cbn [b_bits b_bytes] in *.
  destruct bytes as [|y ys]; [discriminate|]. injection H as _ <-. cbn [b_bits b_bytes List.length]. lia.
Qed.
Lemma eats_decode_sym0 counts syms code first : eats 0 (decode_sym counts syms code first).
Proof.
  revert syms code first. induction counts as [|c r IH]; intros syms code first; cbn [decode_sym]; [apply eats_fail|].
  apply eats_bind0; [eapply eats_weaken; [apply eats_getbit|lia]|]. intros b. destruct (_ <? _); [|apply IH].
  destruct (nth_error _ _); [apply eats_ret|apply eats_fail].
Qed.
Lemma eats_decode h : eats 1 (decode h).
Proof.
  unfold decode. destruct (hf_counts h) as [|c r]; cbn [decode_sym]; [apply eats_fail|].
  apply eats_bind1; [apply eats_getbit|]. intros b. destruct (_ <? _); [|apply eats_decode_sym0].
  destruct (nth_error _ _); [apply eats_ret|apply eats_fail].
Qed.
Lemma eats_with_extra bs es i : eats 0 (with_extra bs es i).
Proof.
  unfold with_extra. destruct (nth_error bs _); [|apply eats_fail]. destruct (nth_error es _); [|apply eats_fail].
  apply eats_bind0; [apply eats_getbits|]. intros. apply eats_ret.
Qed.
Lemma eats_getbytes_n n out : eats 0 (getbytes_n n out).
Proof.
  revert out. induction n as [|n IH]; intros out; cbn [getbytes_n]; [apply eats_ret|].
  apply eats_bind0; [apply eats_getbyte|]. intros b. apply IH.
Qed.
Lemma eats_stored out : eats 0 (stored out).
Proof.
  unfold stored. apply eats_bind0; [apply eats_align|]. intros _.
  do 4 (apply eats_bind0; [apply eats_getbyte|]; intros ?).
  destruct (_ =? _); [apply eats_getbytes_n|apply eats_fail].
Qed.
Lemma eats_getcl n : eats 0 (getcl n).
Proof.
  induction n as [|n IH]; cbn [getcl]; [apply eats_ret|].
  apply eats_bind0; [apply eats_getbits|]. intros v. apply eats_bind0; [exact IH|]. intros. apply eats_ret.
Qed.
Lemma eats_getlens fuel h want acc : eats 0 (getlens fuel h want acc).
Proof.
  revert acc. induction fuel as [|k IH]; intros acc; cbn [getlens]; [apply eats_fail|].
  destruct (want <=? zlen acc); [destruct (_ =? _); [apply eats_ret|apply eats_fail]|].
  apply eats_bind0; [eapply eats_weaken; [apply eats_decode|lia]|]. intros s. destruct (s <? 16); [apply IH|].
  destruct (s =? 16).
  { destruct acc; [apply eats_fail|]. apply eats_bind0; [apply eats_getbits|]. intros v. apply IH. }
  destruct (s =? 17); (apply eats_bind0; [apply eats_getbits|]; intros v; apply IH).
Qed.
Lemma eats_dynamic : eats 0 dynamic_codes.
Proof.
  unfold dynamic_codes. do 3 (apply eats_bind0; [apply eats_getbits|]; intros ?).
  destruct (_ || _); [apply eats_fail|]. apply eats_bind0; [apply eats_getcl|]. intros raw.
  destruct (negb _); [apply eats_fail|]. apply eats_bind0; [apply eats_getlens|]. intros lens.
  destruct (_ =? 0); [apply eats_fail|]. destruct (_ && _); [apply eats_ret|apply eats_fail].
Qed.
Lemma eats_codes_loop fuel lit dist out : eats 0 (codes_loop fuel lit dist out).
Proof.
  revert out. induction fuel as [|k IH]; intros out; cbn [codes_loop]; [apply eats_fail|].
  apply eats_bind0; [eapply eats_weaken; [apply eats_decode|lia]|]. intros s. destruct (s <? 256); [apply IH|].
  destruct (s =? 256); [apply eats_ret|].
  apply eats_bind0; [apply eats_with_extra|]. intros len.
  apply eats_bind0; [eapply eats_weaken; [apply eats_decode|lia]|]. intros ds.
  apply eats_bind0; [apply eats_with_extra|]. intros d.
  destruct (copy_back _ _ _); [apply IH|apply eats_fail].
Qed.

(** With more fuel than bits the result does not depend on the fuel. *)
Lemma codes_loop_fuel k k' lit dist out s : (bsize s < k)%nat -> (bsize s < k')%nat ->
  codes_loop k lit dist out s = codes_loop k' lit dist out s.
Proof.
  revert k' out s. induction k as [|k IH]; intros k' out s H H'; [lia|]. destruct k' as [|k']; [lia|].
  cbn [codes_loop]. unfold pbind at 1. unfold pbind at 4.
  destruct (decode lit s) as [[sy s1]|] eqn:E; [|reflexivity]. pose proof (eats_decode lit _ _ _ E).
  destruct (sy <? 256); [apply IH; lia|]. destruct (sy =? 256); [reflexivity|].
  unfold pbind. destruct (with_extra len_base len_extra (sy - 257) s1) as [[len s2]|] eqn:E2; [|reflexivity].
  pose proof (eats_with_extra _ _ _ _ _ _ E2).
  destruct (decode dist s2) as [[ds s3]|] eqn:E3; [|reflexivity]. pose proof (eats_decode dist _ _ _ E3).
  destruct (with_extra dist_base dist_extra ds s3) as [[d s4]|] eqn:E4; [|reflexivity].
  pose proof (eats_with_extra _ _ _ _ _ _ E4).
  destruct (copy_back _ _ _); [apply IH; lia|reflexivity].
Qed.

Lemma blocks_fuel k k' sub sub' out s :
  (bsize s < k)%nat -> (bsize s < k')%nat -> (bsize s < sub)%nat -> (bsize s < sub')%nat ->
  blocks k sub out s = blocks k' sub' out s.
Proof.
  revert k' out s. induction k as [|k IH]; intros k' out s H H' Hs Hs'; [lia|]. destruct k' as [|k']; [lia|].
  cbn [blocks]. unfold pbind.
  destruct (getbit s) as [[final s1]|] eqn:E1; [|reflexivity]. pose proof (eats_getbit _ _ _ E1).
  destruct (getbits 2 s1) as [[ty s2]|] eqn:E2; [|reflexivity]. pose proof (eats_getbits _ _ _ _ E2).
  set (m := fun sub => (if ty =? 0 then stored out
            else if ty =? 1 then codes_loop sub fixed_lit fixed_dist out
            else if ty =? 2 then fun s0 => match dynamic_codes s0 with
                                 | Some (a, s'0) => codes_loop sub (fst a) (snd a) out s'0 | None => None end
            else pfail)).
  change (match m sub s2 with Some (a, s') => (if final then pret a else blocks k sub a) s' | None => None end =
          match m sub' s2 with Some (a, s') => (if final then pret a else blocks k' sub' a) s' | None => None end).
  assert (m sub s2 = m sub' s2) as ->.
  { unfold m. destruct (ty =? 0); [reflexivity|]. destruct (ty =? 1); [apply codes_loop_fuel; lia|].
    destruct (ty =? 2); [|reflexivity]. destruct (dynamic_codes s2) as [[ld s3]|] eqn:E3; [|reflexivity].
    pose proof (eats_dynamic _ _ _ E3). apply codes_loop_fuel; lia. }
  destruct (m sub' s2) as [[out' s3]|] eqn:E3; [|reflexivity].
  assert (bsize s3 <= bsize s2)%nat.
  { assert (eats 0 (m sub')) as K; [|specialize (K _ _ _ E3); lia]. unfold m.
    destruct (ty =? 0); [apply eats_stored|]. destruct (ty =? 1); [apply eats_codes_loop|].
    destruct (ty =? 2); [|apply eats_fail].
    apply (eats_bind0 dynamic_codes (fun a => codes_loop sub' (fst a) (snd a) out)); [apply eats_dynamic|].
    intros a. apply eats_codes_loop. }
  destruct final; [reflexivity|]. apply IH; lia.
Qed.

Lemma pbind_ext {A B} (m : P A) (f g : A -> P B) s :
  (forall a s', m s = Some (a, s') -> f a s' = g a s') -> pbind m f s = pbind m g s.
Proof. intros H. unfold pbind. destruct (m s) as [[a s']|] eqn:E; [apply H; reflexivity|reflexivity]. Qed.

Lemma zstream_fuel k k' s : (bsize s < k)%nat -> (bsize s < k')%nat -> zstream k s = zstream k' s.
Proof.
  intros H H'. unfold zstream.
  apply pbind_ext. intros cmf s1 E1. pose proof (eats_getbyte _ _ _ E1).
  apply pbind_ext. intros flg s2 E2. pose proof (eats_getbyte _ _ _ E2).
  do 4 (match goal with |- (if ?b then _ else _) _ = _ => destruct b; [reflexivity|] end).
  unfold pbind. rewrite (blocks_fuel k k' k k' [] s2) by lia. reflexivity.
Qed.

Lemma zstream_inflate k l : (8 * List.length l < k)%nat ->
  inflate l = match zstream k (mkB [] l) with Some (d, s) => Some (d, b_bytes s) | None => None end.
Proof.
  intros H. unfold inflate. rewrite (zstream_fuel _ k); [reflexivity| |]; unfold bsize; cbn [b_bits b_bytes List.length]; lia.
Qed.

(** The fuel in [inflate] never matters. *)
Theorem inflate_fuel_irrelevant k l : (8 * List.length l < k)%nat ->
  zstream k (mkB [] l) = zstream (S (8 * List.length l)) (mkB [] l).
Proof. intros H. apply zstream_fuel; unfold bsize; cbn [b_bits b_bytes List.length]; lia. Qed.

(** ** The contract used by the reader *)

Theorem inflate_extend l d u x : inflate l = Some (d, u) -> inflate (l ++ x) = Some (d, u ++ x).
Proof.
  intros H. set (k := S (8 * List.length (l ++ x))).
  rewrite (zstream_inflate k) in H by (unfold k; rewrite app_length; lia).
  rewrite (zstream_inflate k) by (unfold k; lia).
  destruct (zstream k (mkB [] l)) as [[d' s]|] eqn:E; [|discriminate]. injection H as -> <-.
  apply (mono_zstream k _ _ _ x) in E. unfold ext in E. cbn [b_bits b_bytes] in E. rewrite E. reflexivity.
Qed.

Theorem inflate_cut c x p q : inflate c = Some (x, []) -> c = p ++ q -> q <> [] -> inflate p = None.
Proof.
  intros H -> Hq. destruct (inflate p) as [[d u]|] eqn:E; [|reflexivity].
  apply (inflate_extend _ _ _ q) in E. rewrite E in H. injection H as _ H.
  destruct u; destruct q; try discriminate. congruence.
Qed.

Lemma inflate_nil : inflate [] = None.
Proof. reflexivity. Qed.

Theorem exact_is_stream c x : inflate c = Some (x, []) -> stream zdecompress c x.
Proof.
  intros H. split; [|split].
  - intros ->. rewrite inflate_nil in H. discriminate.
  - unfold zdecompress. rewrite H. reflexivity.
  - intros p q E Hq. unfold zdecompress. rewrite (inflate_cut c x p q H E Hq). reflexivity.
Qed.

(** ** Every payload has a stream *)

Lemma byte_of_same z : byte_of z = byte_of_Z z.
Proof. reflexivity. Qed.

Lemma getbytes_n_all l out bits rest :
  getbytes_n (List.length l) out (mkB bits (l ++ rest)) = Some (rev l ++ out, mkB bits rest).
Proof.
  revert out. induction l as [|b l IH]; intros out; [reflexivity|].
  cbn [List.length getbytes_n app]. unfold pbind, getbyte at 1. cbn [b_bytes b_bits]. rewrite IH.
  cbn [rev]. rewrite <- app_assoc. reflexivity.
Qed.

Lemma le2_value n : 0 <= n < 65536 -> bval (byte_of (n mod 256)) + 256 * bval (byte_of (n / 256)) = n.
Proof.
  intros H. rewrite !byte_of_same, !bval_byte_of_Z.
  - pose proof (Z.div_mod n 256). lia.
  - split; [apply Z.div_pos; lia|apply Z.div_lt_upper_bound; lia].
  - apply Z.mod_pos_bound. lia.
Qed.

Lemma stored_ok l out bits rest : zlen l <= 65535 ->
  stored out (mkB bits (le2 (zlen l) ++ le2 (65535 - zlen l) ++ l ++ rest)) = Some (rev l ++ out, mkB [] rest).
Proof.
  intros H. pose proof (zlen_nonneg l). unfold stored, le2. cbn [app].
  unfold pbind at 1, align. cbn [b_bytes]. do 4 (unfold pbind at 1, getbyte at 1; cbn [b_bytes b_bits]).
  rewrite !le2_value by lia. replace (zlen l =? 65535 - (65535 - zlen l)) with true by lia.
  unfold zlen. rewrite Nat2Z.id. apply getbytes_n_all.
Qed.

Lemma blocks_final fuel sub l out rest : zlen l <= 65535 ->
  blocks (S fuel) sub out (mkB [] (store_block true l ++ rest)) = Some (rev l ++ out, mkB [] rest).
Proof.
  intros H. unfold store_block. cbn [blocks app]. unfold pbind at 1, getbit at 1. cbn [b_bits b_bytes].
  change (bits_of_byte (byte_of (Z.b2z true))) with [true; false; false; false; false; false; false; false].
  unfold pbind at 1.
  change (getbits 2 (mkB [false; false; false; false; false; false; false] ((le2 (zlen l) ++ le2 (65535 - zlen l) ++ l) ++ rest)))
    with (Some (0, mkB [false; false; false; false; false] ((le2 (zlen l) ++ le2 (65535 - zlen l) ++ l) ++ rest))).
  unfold pbind. cbv beta. rewrite (Z.eqb_refl 0). rewrite <- !app_assoc. rewrite stored_ok by exact H. reflexivity.
Qed.

Lemma blocks_more fuel sub l out rest : zlen l <= 65535 ->
  blocks (S fuel) sub out (mkB [] (store_block false l ++ rest)) = blocks fuel sub (rev l ++ out) (mkB [] rest).
Proof.
  intros H. unfold store_block. cbn [blocks app]. unfold pbind at 1, getbit at 1. cbn [b_bits b_bytes].
  change (bits_of_byte (byte_of (Z.b2z false))) with [false; false; false; false; false; false; false; false].
  unfold pbind at 1.
  change (getbits 2 (mkB [false; false; false; false; false; false; false] ((le2 (zlen l) ++ le2 (65535 - zlen l) ++ l) ++ rest)))
    with (Some (0, mkB [false; false; false; false; false] ((le2 (zlen l) ++ le2 (65535 - zlen l) ++ l) ++ rest))).
  unfold pbind. cbv beta. rewrite (Z.eqb_refl 0). rewrite <- !app_assoc. rewrite stored_ok by exact H. reflexivity.
Qed.

Lemma store_blocks_ok fuel sub k l out rest : (List.length l <= k)%nat -> (k < fuel)%nat ->
  blocks fuel sub out (mkB [] (store_blocks k l ++ rest)) = Some (rev l ++ out, mkB [] rest).
Proof.
  revert fuel l out. induction k as [|k IH]; intros fuel l out H F; (destruct fuel as [|fuel]; [lia|]); cbn [store_blocks].
  - destruct l; [|cbn in H; lia]. apply (blocks_final fuel sub [] out rest). rewrite zlen_nil. lia.
  - destruct (Z.leb_spec (zlen l) 65535) as [L|L]; [apply blocks_final; exact L|].
    rewrite <- app_assoc, blocks_more by (rewrite zlen_ztake; lia).
    rewrite IH; [|unfold zdrop; rewrite skipn_length; unfold zlen in L; lia|lia].
    rewrite app_assoc, <- rev_app_distr, ztake_zdrop. reflexivity.
Qed.

Lemma adler_fold_range l s : 0 <= fst s < 65521 -> 0 <= snd s < 65521 ->
  0 <= fst (fold_left adler_step l s) < 65521 /\ 0 <= snd (fold_left adler_step l s) < 65521.
Proof.
  revert s. induction l as [|b l IH]; intros s H1 H2; cbn [fold_left]; [auto|].
  apply IH; unfold adler_step; cbn [fst snd]; apply Z.mod_pos_bound; lia.
Qed.

Lemma adler32_range l : 0 <= adler32 l < 4294967296.
Proof.
  unfold adler32. destruct (adler_fold_range l (1, 0)); cbn [fst snd]; lia.
Qed.

Lemma be4_value n : 0 <= n < 4294967296 ->
  ((bval (byte_of (n / 16777216)) * 256 + bval (byte_of (n / 65536 mod 256))) * 256 +
   bval (byte_of (n / 256 mod 256))) * 256 + bval (byte_of (n mod 256)) = n.
Proof.
  intros H. rewrite !byte_of_same, !bval_byte_of_Z by
    first [apply Z.mod_pos_bound; lia | split; [apply Z.div_pos; lia|apply Z.div_lt_upper_bound; lia]].
  replace (n / 65536) with (n / 256 / 256) by (rewrite Z.div_div by lia; reflexivity).
  replace (n / 16777216) with (n / 256 / 256 / 256) by (rewrite !Z.div_div by lia; reflexivity).
  pose proof (Z.div_mod n 256). pose proof (Z.div_mod (n / 256) 256). pose proof (Z.div_mod (n / 256 / 256) 256). lia.
Qed.

Theorem zstore_exact l : inflate (zstore l) = Some (l, []).
Proof.
  set (k := S (8 * List.length (zstore l) + List.length l)).
  rewrite (zstream_inflate k) by (unfold k; lia).
  assert (zstream k (mkB [] (zstore l)) = Some (l, mkB [] [])) as ->; [|reflexivity].
  unfold zstream, zstore. do 2 (unfold pbind at 1, getbyte at 1; cbn [app b_bytes b_bits]).
  change (negb ((bval (byte_of 120) * 256 + bval (byte_of 1)) mod 31 =? 0)) with false.
  change (negb (bval (byte_of 120) mod 16 =? 8)) with false.
  change (7 <? bval (byte_of 120) / 16) with false.
  change (negb (bval (byte_of 1) / 32 mod 2 =? 0)) with false. cbv iota.
  unfold pbind at 1. rewrite store_blocks_ok by (unfold k; lia). rewrite app_nil_r.
  unfold pbind at 1, align. cbn [b_bytes]. unfold be4.
  do 4 (unfold pbind at 1, getbyte at 1; cbn [b_bytes b_bits]).
  rewrite rev_involutive, be4_value by apply adler32_range. rewrite Z.eqb_refl. reflexivity.
Qed.

Theorem zstore_stream l : stream zdecompress (zstore l) l.
Proof. apply exact_is_stream, zstore_exact. Qed.
