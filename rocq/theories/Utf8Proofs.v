(** * The UTF-8 decoder against the encoder of Spec.v *)
From Coq Require Import List ZArith Lia Bool.
From Coq Require Import Init.Byte.
From Coq Require Import ZifyBool.
From Verif Require Import PyBase Utf8 CTypes Spec BaseProofs.
Import ListNotations.
Open Scope list_scope.
Open Scope Z_scope.

Ltac Zify.zify_post_hook ::= Z.div_mod_to_equations.

Lemma u8_step_encode c r : scalar c ->
  u8_step (utf8_char c ++ r) = U8Char c (List.length (utf8_char c)).
Proof.
  intros Hc. unfold scalar in Hc. unfold utf8_char.
  destruct (c <? 128) eqn:E1.
  - cbn [app u8_step List.length]. rewrite bval_byte_of_Z by lia. rewrite E1. reflexivity.
  - destruct (c <? 2048) eqn:E2.
    + cbn [app u8_step List.length]. unfold is_cont. rewrite !bval_byte_of_Z by lia.
      destruct (192 + c / 64 <? 128) eqn:A1; [lia|]. destruct (192 + c / 64 <? 194) eqn:A2; [lia|].
      destruct (192 + c / 64 <? 224) eqn:A3; [|lia].
      replace ((128 <=? 128 + c mod 64) && (128 + c mod 64 <? 192)) with true by lia.
      f_equal. lia.
    + destruct (c <? 65536) eqn:E3.
      * cbn [app u8_step List.length]. unfold ok2_3, is_cont. rewrite !bval_byte_of_Z by lia.
        destruct (224 + c / 4096 <? 128) eqn:A1; [lia|]. destruct (224 + c / 4096 <? 194) eqn:A2; [lia|].
        destruct (224 + c / 4096 <? 224) eqn:A3; [lia|]. destruct (224 + c / 4096 <? 240) eqn:A4; [|lia].
        replace ((128 <=? 128 + c / 64 mod 64) && (128 + c / 64 mod 64 <? 192)) with true by lia.
        replace ((128 <=? 128 + c mod 64) && (128 + c mod 64 <? 192)) with true by lia.
        cbn [andb].
        replace (if 128 + c / 64 mod 64 <? 160 then 224 + c / 4096 =? 224 else 224 + c / 4096 =? 237) with false
          by (destruct (128 + c / 64 mod 64 <? 160) eqn:A5; lia).
        cbn [negb]. f_equal. lia.
      * cbn [app u8_step List.length]. unfold ok2_4, is_cont. rewrite !bval_byte_of_Z by lia.
        destruct (240 + c / 262144 <? 128) eqn:A1; [lia|]. destruct (240 + c / 262144 <? 194) eqn:A2; [lia|].
        destruct (240 + c / 262144 <? 224) eqn:A3; [lia|]. destruct (240 + c / 262144 <? 240) eqn:A4; [lia|].
        destruct (240 + c / 262144 <? 245) eqn:A5; [|lia].
        replace ((128 <=? 128 + c / 4096 mod 64) && (128 + c / 4096 mod 64 <? 192)) with true by lia.
        replace ((128 <=? 128 + c / 64 mod 64) && (128 + c / 64 mod 64 <? 192)) with true by lia.
        replace ((128 <=? 128 + c mod 64) && (128 + c mod 64 <? 192)) with true by lia.
        cbn [andb].
        replace (if 128 + c / 4096 mod 64 <? 144 then 240 + c / 262144 =? 240 else 240 + c / 262144 =? 244) with false
          by (destruct (128 + c / 4096 mod 64 <? 144) eqn:A6; lia).
        cbn [negb]. f_equal. lia.
Qed.

Lemma byte_of_Z_eq b z : bval b = z -> byte_of_Z z = b.
Proof. intros <-. apply byte_of_Z_bval. Qed.

Lemma u8_step_decode l cp n : u8_step l = U8Char cp n ->
  scalar cp /\ exists r, l = utf8_char cp ++ r /\ n = List.length (utf8_char cp).
Proof.
  destruct l as [|c r]; cbn [u8_step]; [discriminate|]. pose proof (bval_range c) as Rc.
  destruct (bval c <? 128) eqn:E1.
  { intros H. injection H as <- <-. split; [unfold scalar; lia|]. exists r. unfold utf8_char. rewrite E1.
    cbn [app List.length]. rewrite byte_of_Z_bval. auto. }
  destruct (bval c <? 194) eqn:E2; [discriminate|].
  destruct (bval c <? 224) eqn:E3.
  { destruct r as [|c2 r]; [discriminate|]. pose proof (bval_range c2) as R2.
    destruct (is_cont c2) eqn:K2; [|discriminate]. unfold is_cont in K2.
    intros H. injection H as <- <-. split; [unfold scalar; lia|]. exists r. unfold utf8_char.
    set (cp := (bval c - 192) * 64 + (bval c2 - 128)).
    destruct (cp <? 128) eqn:F1; [lia|]. destruct (cp <? 2048) eqn:F2; [|lia].
    cbn [app List.length]. split; [|reflexivity].
    rewrite (byte_of_Z_eq c), (byte_of_Z_eq c2) by lia. reflexivity. }
  destruct (bval c <? 240) eqn:E4.
  { destruct r as [|c2 r]; [discriminate|]. pose proof (bval_range c2) as R2.
    destruct (ok2_3 c c2) eqn:K2; [|discriminate].
    destruct r as [|c3 r]; [discriminate|]. pose proof (bval_range c3) as R3.
    destruct (is_cont c3) eqn:K3; [|discriminate]. unfold ok2_3, is_cont in *.
    intros H. injection H as <- <-.
    assert (128 <= bval c2 < 192 /\ (bval c2 < 160 -> bval c <> 224) /\ (160 <= bval c2 -> bval c <> 237)) as (B1 & B2 & B3)
      by (destruct (bval c2 <? 160) eqn:G; lia).
    clear K2. set (cp := (bval c - 224) * 4096 + (bval c2 - 128) * 64 + (bval c3 - 128)).
    split; [unfold scalar; lia|]. exists r. unfold utf8_char.
    destruct (cp <? 128) eqn:F1; [lia|]. destruct (cp <? 2048) eqn:F2; [lia|]. destruct (cp <? 65536) eqn:F3; [|lia].
    cbn [app List.length]. split; [|reflexivity].
    rewrite (byte_of_Z_eq c), (byte_of_Z_eq c2), (byte_of_Z_eq c3) by lia. reflexivity. }
  destruct (bval c <? 245) eqn:E5; [|discriminate].
  destruct r as [|c2 r]; [discriminate|]. pose proof (bval_range c2) as R2.
  destruct (ok2_4 c c2) eqn:K2; [|discriminate].
  destruct r as [|c3 r]; [discriminate|]. pose proof (bval_range c3) as R3.
  destruct (is_cont c3) eqn:K3; [|discriminate].
  destruct r as [|c4 r]; [discriminate|]. pose proof (bval_range c4) as R4.
  destruct (is_cont c4) eqn:K4; [|discriminate]. unfold ok2_4, is_cont in *.
  intros H. injection H as <- <-.
  assert (128 <= bval c2 < 192 /\ (bval c2 < 144 -> bval c <> 240) /\ (144 <= bval c2 -> bval c <> 244)) as (B1 & B2 & B3)
    by (destruct (bval c2 <? 144) eqn:G; lia).
  clear K2. set (cp := (bval c - 240) * 262144 + (bval c2 - 128) * 4096 + (bval c3 - 128) * 64 + (bval c4 - 128)).
  split; [unfold scalar; lia|]. exists r. unfold utf8_char.
  destruct (cp <? 128) eqn:F1; [lia|]. destruct (cp <? 2048) eqn:F2; [lia|]. destruct (cp <? 65536) eqn:F3; [lia|].
  cbn [app List.length]. split; [|reflexivity].
  rewrite (byte_of_Z_eq c), (byte_of_Z_eq c2), (byte_of_Z_eq c3), (byte_of_Z_eq c4) by lia. reflexivity.
Qed.

Lemma utf8_char_length c : (1 <= List.length (utf8_char c) <= 4)%nat.
Proof. unfold utf8_char. repeat destruct (_ <? _); cbn [List.length]; lia. Qed.

Lemma u8_bad_pos l n : l <> [] -> u8_step l = U8Bad n -> (1 <= n <= 3)%nat /\ (n <= List.length l)%nat.
Proof.
  destruct l as [|c r]; intros Hne; [congruence|]. cbn [u8_step]. intros H.
  repeat (match type of H with
          | context [if ?b then _ else _] => destruct b
          | context [match ?r with [] => _ | _ :: _ => _ end] => destruct r
          end; try discriminate; try (injection H as <-; cbn [List.length]; lia)).
Qed.

Lemma u8_step_progress l : l <> [] ->
  exists n, (1 <= n)%nat /\ (n <= List.length l)%nat /\
            (u8_step l = U8Bad n \/ exists cp, u8_step l = U8Char cp n).
Proof.
  intros Hne. destruct (u8_step l) as [cp n|n] eqn:E.
  - exists n. destruct (u8_step_decode _ _ _ E) as (_ & r & -> & ->).
    pose proof (utf8_char_length cp). rewrite app_length. repeat split; try lia. right. eauto.
  - exists n. destruct (u8_bad_pos _ _ Hne E). repeat split; try lia. left. reflexivity.
Qed.

(** Fuel beyond the number of bytes is irrelevant. *)
Lemma decode_ignore_fuel_enough k l : (List.length l <= k)%nat -> decode_ignore_fuel k l = decode_ignore l.
Proof.
  unfold decode_ignore. remember (List.length l) as m eqn:Em.
  assert (List.length l <= m)%nat as Hm by lia. clear Em. revert l k Hm.
  induction m as [|m IH]; intros l k Hm Hk.
  - destruct l; [destruct k; reflexivity|cbn in Hm; lia].
  - destruct k as [|k]; [lia|]. destruct l as [|x l']; [reflexivity|].
    remember (x :: l') as l eqn:El. cbn [decode_ignore_fuel]. rewrite El. rewrite <- El.
    destruct (u8_step_progress l ltac:(congruence)) as (n & N1 & N2 & N3).
    assert (List.length (skipn n l) <= m)%nat by (rewrite skipn_length; lia).
    destruct N3 as [->|[cp ->]]; rewrite (IH (skipn n l) k) by lia; reflexivity.
Qed.

Lemma decode_ignore_nil : decode_ignore [] = [].
Proof. reflexivity. Qed.

Lemma decode_ignore_char l cp n : u8_step l = U8Char cp n -> decode_ignore l = cp :: decode_ignore (skipn n l).
Proof.
  intros H. destruct l as [|x l']; [discriminate|]. unfold decode_ignore at 1. cbn [List.length decode_ignore_fuel]. rewrite H.
  remember (x :: l') as l eqn:El.
  f_equal. apply decode_ignore_fuel_enough. rewrite skipn_length.
  destruct (u8_step_progress l ltac:(congruence)) as (m & N1 & N2 & [N3|[cp' N3]]); rewrite N3 in H; [discriminate|].
  injection H as -> ->. subst l. cbn [List.length] in *. lia.
Qed.

Lemma decode_ignore_bad l n : l <> [] -> u8_step l = U8Bad n -> decode_ignore l = decode_ignore (skipn n l).
Proof.
  intros Hne H. destruct l as [|x l']; [congruence|]. unfold decode_ignore at 1. cbn [List.length decode_ignore_fuel]. rewrite H.
  remember (x :: l') as l eqn:El.
  apply decode_ignore_fuel_enough. rewrite skipn_length.
  destruct (u8_bad_pos l n ltac:(congruence) H). subst l. cbn [List.length] in *. lia.
Qed.

Lemma skipn_app_exact {A} (a b : list A) : skipn (List.length a) (a ++ b) = b.
Proof. rewrite skipn_app, skipn_all, Nat.sub_diag. reflexivity. Qed.

(** Valid text is preserved, whatever follows. *)
Lemma decode_ignore_utf8_app t r : Forall scalar t -> decode_ignore (utf8 t ++ r) = t ++ decode_ignore r.
Proof.
  induction 1 as [|c t Hc _ IH]; [reflexivity|].
  unfold utf8. cbn [flat_map]. fold (utf8 t). rewrite <- app_assoc.
  rewrite (decode_ignore_char _ _ _ (u8_step_encode c (utf8 t ++ r) Hc)), skipn_app_exact, IH. reflexivity.
Qed.

Lemma decode_ignore_utf8 t : Forall scalar t -> decode_ignore (utf8 t) = t.
Proof.
  intros H. rewrite <- (app_nil_r (utf8 t)), decode_ignore_utf8_app by assumption.
  rewrite decode_ignore_nil, app_nil_r. reflexivity.
Qed.

(** Induction along the decoder's steps. *)
Lemma u8_ind (Q : list byte -> Prop) :
  Q [] -> (forall cp r, scalar cp -> Q r -> Q (utf8_char cp ++ r)) ->
  (forall l n, l <> [] -> u8_step l = U8Bad n -> Q (skipn n l) -> Q l) -> forall l, Q l.
Proof.
  intros H0 Hc Hb l. remember (List.length l) as m eqn:Em.
  assert (List.length l <= m)%nat as Hm by lia. clear Em. revert l Hm.
  induction m as [|m IH]; intros l Hm.
  - destruct l; [exact H0|cbn in Hm; lia].
  - destruct l as [|x l']; [exact H0|]. remember (x :: l') as l eqn:El.
    destruct (u8_step_progress l ltac:(congruence)) as (n & N1 & N2 & [N3|[cp N3]]).
    + apply (Hb l n); [congruence|exact N3|]. apply IH. rewrite skipn_length. lia.
    + destruct (u8_step_decode _ _ _ N3) as (S & r & -> & ->). apply Hc; [exact S|].
      apply IH. rewrite app_length in Hm. pose proof (utf8_char_length cp). lia.
Qed.

Lemma decode_ignore_scalar l : Forall scalar (decode_ignore l).
Proof.
  induction l as [|cp r S IH|l n Hne E IH] using u8_ind.
  - constructor.
  - rewrite (decode_ignore_char _ _ _ (u8_step_encode cp r S)), skipn_app_exact. constructor; assumption.
  - rewrite (decode_ignore_bad _ _ Hne E). exact IH.
Qed.

(** No byte is invented: the encoding of the result is a subsequence of the input. *)
Inductive subseq {A} : list A -> list A -> Prop :=
| ss_nil : subseq [] []
| ss_keep x a b : subseq a b -> subseq (x :: a) (x :: b)
| ss_drop x a b : subseq a b -> subseq a (x :: b).

Lemma subseq_app {A} (a b c : list A) : subseq a b -> subseq (c ++ a) (c ++ b).
Proof. intros H. induction c; cbn [app]; [exact H|constructor; assumption]. Qed.

Lemma subseq_skip {A} n (a b : list A) : subseq a (skipn n b) -> subseq a b.
Proof.
  revert b. induction n as [|n IH]; intros b H; [exact H|].
  destruct b as [|x b]; [exact H|]. apply ss_drop. apply IH. exact H.
Qed.

Lemma decode_ignore_subseq l : subseq (utf8 (decode_ignore l)) l.
Proof.
  induction l as [|cp r S IH|l n Hne E IH] using u8_ind.
  - constructor.
  - rewrite (decode_ignore_char _ _ _ (u8_step_encode cp r S)), skipn_app_exact.
    unfold utf8. cbn [flat_map]. apply subseq_app. exact IH.
  - rewrite (decode_ignore_bad _ _ Hne E). eapply subseq_skip. exact IH.
Qed.

(** A character cut short (the first bytes of its encoding, at the end of the data) is dropped. *)
Lemma utf8_char_bytes c : scalar c ->
  (c < 128 /\ utf8_char c = [byte_of_Z c]) \/
  (exists a b, utf8_char c = [a; b] /\ 194 <= bval a < 224 /\ is_cont b = true) \/
  (exists a b d, utf8_char c = [a; b; d] /\ 224 <= bval a < 240 /\ ok2_3 a b = true /\ is_cont d = true) \/
  (exists a b d e, utf8_char c = [a; b; d; e] /\ 240 <= bval a < 245 /\ ok2_4 a b = true /\ is_cont d = true /\ is_cont e = true).
Proof.
  intros Hc. pose proof (u8_step_encode c [] Hc) as H. rewrite app_nil_r in H.
  pose proof (utf8_char_length c) as L.
  destruct (utf8_char c) as [|a [|b [|d [|e [|? ?]]]]] eqn:E; cbn [List.length] in L; try lia; cbn [u8_step List.length] in H.
  - left. unfold utf8_char in E. destruct (c <? 128) eqn:E1; [split; [lia|congruence]|].
    exfalso. revert E. repeat destruct (_ <? _); discriminate.
  - right. left. exists a, b. split; [reflexivity|].
    destruct (bval a <? 128) eqn:A1; [discriminate|]. destruct (bval a <? 194) eqn:A2; [discriminate|].
    destruct (bval a <? 224) eqn:A3.
    + destruct (is_cont b); [split; [lia|reflexivity]|discriminate].
    + destruct (bval a <? 240); [destruct (ok2_3 a b); discriminate|].
      destruct (bval a <? 245); [destruct (ok2_4 a b); discriminate|discriminate].
  - right. right. left. exists a, b, d. split; [reflexivity|].
    destruct (bval a <? 128) eqn:A1; [discriminate|]. destruct (bval a <? 194) eqn:A2; [discriminate|].
    destruct (bval a <? 224) eqn:A3; [destruct (is_cont b); discriminate|].
    destruct (bval a <? 240) eqn:A4.
    + destruct (ok2_3 a b); [|discriminate]. destruct (is_cont d); [split; [lia|auto]|discriminate].
    + destruct (bval a <? 245); [|discriminate]. destruct (ok2_4 a b); [|discriminate].
      destruct (is_cont d); discriminate.
  - right. right. right. exists a, b, d, e. split; [reflexivity|].
    destruct (bval a <? 128) eqn:A1; [discriminate|]. destruct (bval a <? 194) eqn:A2; [discriminate|].
    destruct (bval a <? 224) eqn:A3; [destruct (is_cont b); discriminate|].
    destruct (bval a <? 240) eqn:A4; [destruct (ok2_3 a b); [destruct (is_cont d)|]; discriminate|].
    destruct (bval a <? 245) eqn:A5; [|discriminate].
    destruct (ok2_4 a b); [|discriminate]. destruct (is_cont d); [|discriminate].
    destruct (is_cont e); [split; [lia|auto]|discriminate].
Qed.

Lemma decode_ignore_cut t c p q :
  Forall scalar t -> scalar c -> utf8_char c = p ++ q -> q <> [] ->
  decode_ignore (utf8 t ++ p) = t.
Proof.
  intros Ht Hc E Hq. rewrite decode_ignore_utf8_app by assumption.
  rewrite <- (app_nil_r t) at 2. f_equal.
  destruct p as [|x p']; [reflexivity|]. remember (x :: p') as p eqn:Ep.
  assert (u8_step p = U8Bad (List.length p)) as Hb.
  { destruct (utf8_char_bytes c Hc) as [[_ H]|[(a & b & H & H1 & H2)|[(a & b & d & H & H1 & H2 & H3)|(a & b & d & e & H & H1 & H2 & H3 & H4)]]];
      rewrite H in E; clear H; subst p.
    - destruct p'; destruct q; try discriminate; congruence.
    - destruct p' as [|y [|? ?]]; cbn [app] in E; try discriminate.
      + injection E as <- <-. cbn [u8_step List.length].
        destruct (bval a <? 128) eqn:A1; [lia|]. destruct (bval a <? 194) eqn:A2; [lia|].
        destruct (bval a <? 224) eqn:A3; [reflexivity|lia].
      + injection E as <- <- E. destruct q; [congruence|discriminate].
    - destruct p' as [|y [|z [|? ?]]]; cbn [app] in E; try discriminate.
      + injection E as <- <-. cbn [u8_step List.length].
        destruct (bval a <? 128) eqn:A1; [lia|]. destruct (bval a <? 194) eqn:A2; [lia|].
        destruct (bval a <? 224) eqn:A3; [lia|]. destruct (bval a <? 240) eqn:A4; [reflexivity|lia].
      + injection E as <- <- <-. cbn [u8_step List.length].
        destruct (bval a <? 128) eqn:A1; [lia|]. destruct (bval a <? 194) eqn:A2; [lia|].
        destruct (bval a <? 224) eqn:A3; [lia|]. destruct (bval a <? 240) eqn:A4; [|lia]. rewrite H2. reflexivity.
      + injection E as <- <- <- E. destruct q; [congruence|discriminate].
    - destruct p' as [|y [|z [|w [|? ?]]]]; cbn [app] in E; try discriminate.
      + injection E as <- <-. cbn [u8_step List.length].
        destruct (bval a <? 128) eqn:A1; [lia|]. destruct (bval a <? 194) eqn:A2; [lia|].
        destruct (bval a <? 224) eqn:A3; [lia|]. destruct (bval a <? 240) eqn:A4; [lia|].
        destruct (bval a <? 245) eqn:A5; [reflexivity|lia].
      + injection E as <- <- <-. cbn [u8_step List.length].
        destruct (bval a <? 128) eqn:A1; [lia|]. destruct (bval a <? 194) eqn:A2; [lia|].
        destruct (bval a <? 224) eqn:A3; [lia|]. destruct (bval a <? 240) eqn:A4; [lia|].
        destruct (bval a <? 245) eqn:A5; [|lia]. rewrite H2. reflexivity.
      + injection E as <- <- <- <-. cbn [u8_step List.length].
        destruct (bval a <? 128) eqn:A1; [lia|]. destruct (bval a <? 194) eqn:A2; [lia|].
        destruct (bval a <? 224) eqn:A3; [lia|]. destruct (bval a <? 240) eqn:A4; [lia|].
        destruct (bval a <? 245) eqn:A5; [|lia]. rewrite H2, H3. reflexivity.
      + injection E as <- <- <- <- E. destruct q; [congruence|discriminate]. }
  rewrite (decode_ignore_bad p _ ltac:(congruence) Hb), skipn_all. reflexivity.
Qed.

(** ** Strict decoding *)

Lemma decode_strict_fuel_enough k l : (List.length l <= k)%nat -> decode_strict_fuel k l = decode_strict l.
Proof.
  unfold decode_strict. remember (List.length l) as m eqn:Em.
  assert (List.length l <= m)%nat as Hm by lia. clear Em. revert l k Hm.
  induction m as [|m IH]; intros l k Hm Hk.
  - destruct l; [destruct k; reflexivity|cbn in Hm; lia].
  - destruct k as [|k]; [lia|]. destruct l as [|x l']; [reflexivity|].
    remember (x :: l') as l eqn:El. cbn [decode_strict_fuel]. rewrite El. rewrite <- El.
    destruct (u8_step_progress l ltac:(congruence)) as (n & N1 & N2 & N3).
    assert (List.length (skipn n l) <= m)%nat by (rewrite skipn_length; lia).
    destruct N3 as [->|[cp ->]]; [reflexivity|]. rewrite (IH (skipn n l) k) by lia; reflexivity.
Qed.

Lemma decode_strict_char l cp n : u8_step l = U8Char cp n ->
  decode_strict l = (let? r := decode_strict (skipn n l) in Ok (cp :: r)).
Proof.
  intros H. destruct l as [|x l']; [discriminate|]. unfold decode_strict at 1. cbn [List.length decode_strict_fuel]. rewrite H.
  remember (x :: l') as l eqn:El.
  f_equal. apply decode_strict_fuel_enough. rewrite skipn_length.
  destruct (u8_step_progress l ltac:(congruence)) as (m & N1 & N2 & [N3|[cp' N3]]); rewrite N3 in H; [discriminate|].
  injection H as -> ->. subst l. cbn [List.length] in *. lia.
Qed.

Lemma decode_strict_bad l n : l <> [] -> u8_step l = U8Bad n -> decode_strict l = Raise UnicodeDecodeError.
Proof.
  intros Hne H. destruct l as [|x l']; [congruence|]. unfold decode_strict. cbn [List.length decode_strict_fuel].
  rewrite H. reflexivity.
Qed.

Theorem decode_strict_spec b t : decode_strict b = Ok t <-> Forall scalar t /\ utf8 t = b.
Proof.
  split.
  - revert t. induction b as [|cp r S IH|l n Hne E IH] using u8_ind; intros t H.
    + injection H as <-. split; [constructor|reflexivity].
    + rewrite (decode_strict_char _ _ _ (u8_step_encode cp r S)), skipn_app_exact in H.
      destruct (decode_strict r) as [u|e]; [|discriminate]. cbn [rbind] in H. injection H as <-.
      destruct (IH u eq_refl) as [H1 <-]. split; [constructor; assumption|reflexivity].
    + rewrite (decode_strict_bad _ _ Hne E) in H. discriminate.
  - intros [H <-]. induction H as [|c t Hc _ IH]; [reflexivity|].
    unfold utf8. cbn [flat_map]. fold (utf8 t).
    rewrite (decode_strict_char _ _ _ (u8_step_encode c (utf8 t) Hc)), skipn_app_exact, IH. reflexivity.
Qed.

Lemma decode_strict_total b : (exists t, decode_strict b = Ok t) \/ decode_strict b = Raise UnicodeDecodeError.
Proof.
  induction b as [|cp r S IH|l n Hne E IH] using u8_ind.
  - left. exists []. reflexivity.
  - rewrite (decode_strict_char _ _ _ (u8_step_encode cp r S)), skipn_app_exact.
    destruct IH as [[t ->]| ->]; [left; eexists; reflexivity|right; reflexivity].
  - right. exact (decode_strict_bad _ _ Hne E).
Qed.

(** ** The byte-wise reading of the lenient decoder *)

Lemma cont_skipped x r : is_cont x = true -> decode_ignore (x :: r) = decode_ignore r.
Proof.
  intros H. unfold is_cont in H. rewrite (decode_ignore_bad (x :: r) 1); [reflexivity|discriminate|].
  cbn [u8_step]. destruct (Z.ltb_spec (bval x) 128); [lia|]. destruct (Z.ltb_spec (bval x) 194); [reflexivity|lia].
Qed.

Lemma bad_skipped x r n : u8_step (x :: r) = U8Bad n -> decode_ignore (x :: r) = decode_ignore r.
Proof.
  intros H. rewrite (decode_ignore_bad (x :: r) n) by (discriminate || exact H). cbn [u8_step] in H.
  destruct (bval x <? 128); [discriminate H|].
  destruct (bval x <? 194); [injection H as <-; reflexivity|].
  destruct (bval x <? 224).
  { destruct r as [|c2 r]; [injection H as <-; reflexivity|].
    destruct (is_cont c2); [discriminate H|injection H as <-; reflexivity]. }
  destruct (bval x <? 240).
  { destruct r as [|c2 r]; [injection H as <-; reflexivity|].
    destruct (ok2_3 x c2) eqn:O; [|injection H as <-; reflexivity].
    unfold ok2_3 in O. apply andb_prop in O as [O _].
    destruct r as [|c3 r]; [injection H as <-; symmetry; apply cont_skipped, O|].
    destruct (is_cont c3); [discriminate H|injection H as <-; symmetry; apply cont_skipped, O]. }
  destruct (bval x <? 245); [|injection H as <-; reflexivity].
  destruct r as [|c2 r]; [injection H as <-; reflexivity|].
  destruct (ok2_4 x c2) eqn:O; [|injection H as <-; reflexivity].
  unfold ok2_4 in O. apply andb_prop in O as [O _].
  destruct r as [|c3 r]; [injection H as <-; symmetry; apply cont_skipped, O|].
  destruct (is_cont c3) eqn:C3; [|injection H as <-; symmetry; apply cont_skipped, O].
  destruct r as [|c4 r].
  - injection H as <-. cbn [skipn]. rewrite (cont_skipped c2) by exact O. rewrite (cont_skipped c3) by exact C3. reflexivity.
  - destruct (is_cont c4); [discriminate H|]. injection H as <-. cbn [skipn].
    rewrite (cont_skipped c2) by exact O. rewrite (cont_skipped c3) by exact C3. reflexivity.
Qed.

Lemma lenient_is_decode l t : lenient_text l t -> t = decode_ignore l.
Proof.
  induction 1 as [|c r t Hc _ IH|x r t Hn _ IH]; [reflexivity| |].
  - rewrite (decode_ignore_char _ _ _ (u8_step_encode c r Hc)), skipn_app_exact, IH. reflexivity.
  - destruct (u8_step (x :: r)) as [cp n|n] eqn:E.
    + exfalso. destruct (u8_step_decode _ _ _ E) as (S & r' & K & _). exact (Hn cp r' S K).
    + rewrite (bad_skipped _ _ _ E). exact IH.
Qed.

Lemma decode_is_lenient l : lenient_text l (decode_ignore l).
Proof.
  remember (List.length l) as m eqn:Em. assert (List.length l <= m)%nat as Hm by lia. clear Em. revert l Hm.
  induction m as [|m IH]; intros l Hm.
  - destruct l; [constructor|cbn in Hm; lia].
  - destruct l as [|x r]; [constructor|]. destruct (u8_step (x :: r)) as [cp n|n] eqn:E.
    + rewrite (decode_ignore_char _ _ _ E). destruct (u8_step_decode _ _ _ E) as (S & r' & K & ->).
      rewrite K, skipn_app_exact. apply lt_char; [exact S|]. apply IH.
      assert (List.length (x :: r) = List.length (utf8_char cp) + List.length r')%nat as L by (rewrite K, app_length; reflexivity).
      pose proof (utf8_char_length cp). cbn [List.length] in *. lia.
    + rewrite (bad_skipped _ _ _ E). apply lt_skip; [|apply IH; cbn in Hm; lia].
      intros c r' S K. rewrite K in E. rewrite (u8_step_encode c r' S) in E. discriminate E.
Qed.

Theorem lenient_text_spec l t : lenient_text l t <-> t = decode_ignore l.
Proof. split; [apply lenient_is_decode|intros ->; apply decode_is_lenient]. Qed.
