(** * C61: damaged blocks are detected *)
From Coq Require Import List ZArith Lia Bool String.
From Coq Require Import Znumtheory.
From Coq Require Import Init.Byte.
From Coq Require Import ZifyBool.
From Verif Require Import PyBase Utf8 CTypes S_shared S_2_12 Model Inflate Spec SpecLog SpecDeflate SpecDamage
  BaseProofs LayoutProofs RepProofs TableProofs HeaderProofs GenProofs RunProofs InflateProofs DeflateProofs DeflateProofs3
  LogBuild PropHeader PropLog PropDeflate.
Import ListNotations.
Open Scope list_scope.
Open Scope Z_scope.

(** ** A block that the decompressor rejects *)

Section Dec.
Variable dec : list byte -> option (list byte).

Lemma read_sample_damaged vs c hb s z z' s' rest : In (vs, c) table -> is_version vs hb -> sizes_match vs hb ->
  wf_sample dec vs s -> block_replaced s z z' s' -> zlen z' = zlen z -> z' <> z -> dec z' = None ->
  exists more, read_sample dec (mkHdr c hb) (gate_of vs) (plain (sample_bytes s' ++ rest)) = (Raise ZlibError, plain (more ++ rest)).
Proof.
  intros Hc Hv Hsz (W1 & W2 & W3 & W4 & W5 & W6 & W7 & W8 & W9) B L N X. destruct Hsz as (_ & _ & _ & Z4 & Z5).
  assert (0 < zlen (ls_cs s)) as Hcs.
  { destruct W7 as (Nn & _). destruct (ls_cs s); [congruence|rewrite zlen_cons; pose proof (zlen_nonneg l); lia]. }
  assert (Htt : tstat_loop (hc_tstat c) (vs_tstat vs) (List.concat (ls_tstats s)) (List.length (ls_tstats s)) 0 =
            Ok (map (fun b => mkObj (hc_tstat c) b) (ls_tstats s))).
  { rewrite (tstat_loop_ok0 (hc_tstat c) (vs_tstat vs) (ls_tstats s) (tstat_size vs c Hc) W6). reflexivity. }
  destruct B as [rb ss ts gs cs ct cc ci z'|rb ss ts gs cs ct cc ci z'|rb ss ts gs cs ct cc ci z'|rb ss ts gs cs ct cc ci z'];
    unfold read_sample, sample_bytes; cbn [ls_record ls_sstat ls_tstats ls_groups ls_cs ls_ct ls_cc ls_ci] in *;
    rewrite <- !app_assoc;
    (erewrite mbind_ok by (apply (get_record_app vs c hb Hc); exact W1));
    rewrite (rec_int vs c Hc _ _ _ _ (in_rec_scomplen vs)); cbn [num_at]; rewrite mbind_lift, W2;
    replace (zlen cs <=? 0) with false by lia.
  - exists (ct ++ cc ++ ci). erewrite mbind_raise; [reflexivity|].
    rewrite (get_sstat_spec dec vs c hb Hc), W2, <- L, ztake_exact, zdrop_exact by reflexivity. rewrite X, <- !app_assoc. reflexivity.
  - exists (cc ++ ci). erewrite mbind_ok; cycle 1.
    { rewrite (get_sstat_spec dec vs c hb Hc), W2, ztake_exact, zdrop_exact by reflexivity. rewrite (stream_dec dec _ _ W7), W5.
      replace (vs_sstat vs <? vs_sstat vs) with false by lia. reflexivity. }
    erewrite mbind_raise; [reflexivity|].
    rewrite (get_tstat_spec dec vs c hb Hc Hv), W3, <- L, ztake_exact, zdrop_exact by reflexivity. rewrite X, <- !app_assoc. reflexivity.
  - destruct (table_sizes vs c Hc) as (_ & _ & _ & _ & _ & S5). unfold gate_of. destruct (vs_cstat vs) as [size|] eqn:Ec.
    2:{ destruct W9 as (_ & -> & _). exfalso. apply N, zlen_zero, L. }
    destruct S5 as (ctp & Ect & S). destruct W9 as (G1 & G2 & G3 & G4 & G5 & G6).
    exists ci. erewrite mbind_ok; cycle 1.
    { rewrite (get_sstat_spec dec vs c hb Hc), W2, ztake_exact, zdrop_exact by reflexivity. rewrite (stream_dec dec _ _ W7), W5.
      replace (vs_sstat vs <? vs_sstat vs) with false by lia. reflexivity. }
    erewrite mbind_ok; cycle 1.
    { rewrite (get_tstat_spec dec vs c hb Hc Hv), W3, ztake_exact, zdrop_exact by reflexivity. rewrite (stream_dec dec _ _ W8), Z4, W4.
      unfold zlen at 1. rewrite Nat2Z.id. rewrite Htt. reflexivity. }
    erewrite mbind_raise; [reflexivity|]. rewrite (get_cstat_spec dec vs c hb Hc _ _ ctp Ect), G2, <- L.
    rewrite ztake_exact, zdrop_exact by reflexivity. rewrite X. reflexivity.
  - destruct (table_sizes vs c Hc) as (_ & _ & _ & _ & _ & S5). unfold gate_of. destruct (vs_cstat vs) as [size|] eqn:Ec.
    2:{ destruct W9 as (_ & _ & ->). exfalso. apply N, zlen_zero, L. }
    destruct S5 as (ctp & Ect & S). destruct W9 as (G1 & G2 & G3 & G4 & G5 & G6).
    exists []. erewrite mbind_ok; cycle 1.
    { rewrite (get_sstat_spec dec vs c hb Hc), W2, ztake_exact, zdrop_exact by reflexivity. rewrite (stream_dec dec _ _ W7), W5.
      replace (vs_sstat vs <? vs_sstat vs) with false by lia. reflexivity. }
    erewrite mbind_ok; cycle 1.
    { rewrite (get_tstat_spec dec vs c hb Hc Hv), W3, ztake_exact, zdrop_exact by reflexivity. rewrite (stream_dec dec _ _ W8), Z4, W4.
      unfold zlen at 1. rewrite Nat2Z.id. rewrite Htt. reflexivity. }
    erewrite mbind_raise; [reflexivity|]. rewrite (get_cstat_spec dec vs c hb Hc _ _ ctp Ect), G2, G3.
    rewrite ztake_exact, zdrop_exact by reflexivity. rewrite (stream_dec dec _ _ G5), <- L.
    rewrite ztake_exact, zdrop_exact by reflexivity. rewrite X. reflexivity.
Qed.

(** The samples before the damaged one are yielded; then comes zlib.error, or in lenient mode
    the end; nothing of a later sample is yielded, or even read. *)
Theorem C61_damaged_block vs hb ss s more z z' s' strict max_samples :
  wf_log dec vs hb (ss ++ s :: more) -> block_replaced s z z' s' -> zlen z' = zlen z -> z' <> z -> dec z' = None ->
  zlen ss < max_samples ->
  exists c ys f, class_for vs c /\ Forall2 (holds_sample c) ss ys /\
    run dec None strict max_samples (plain (log_bytes hb (ss ++ s' :: more))) =
      (ys, Some (if strict then Some ZlibError else None), f) /\
    suffix_of (samples_bytes more) (f_rem f).
Proof.
  intros (Hvs & Ha & Hw) B L N X Hm. destruct (table_spec _ Hvs) as (c & Hc).
  apply Forall_app in Hw as [Hw1 Hw2]. apply Forall_cons_iff in Hw2 as [Hs _].
  pose proof Ha as (_ & _ & Hv & Hsz).
  destruct (read_sample_damaged vs c hb s z z' s' (samples_bytes more) Hc Hv Hsz Hs B L N X) as (mo & R).
  exists c, (map (view c) ss), (plain (mo ++ samples_bytes more)). split; [apply table_class_for, Hc|].
  split; [apply (views_hold dec vs c ss Hc Hw1)|]. split; [|exists mo; reflexivity].
  unfold log_bytes. rewrite (run_log dec vs c) by assumption.
  assert (samples_bytes (ss ++ s' :: more) = samples_bytes ss ++ sample_bytes s' ++ samples_bytes more) as ->.
  { unfold samples_bytes. rewrite map_app, concat_app. reflexivity. }
  rewrite (D_samples dec vs c hb Hc Hv Hsz) by (assumption || lia).
  rewrite D_pos by lia. rewrite R. unfold exn_end. rewrite app_nil_r. destruct strict; reflexivity.
Qed.

End Dec.

(** ** What follows the compressed data does not matter to it *)

Lemma block_rest out w out' rest : block out w out' rest ->
  exists x, w = x ++ rest /\ forall rest', zlen rest' mod 8 = zlen rest mod 8 -> block out (x ++ rest') out' rest'.
Proof.
  intros [o pad n c m r Lp Lr Ln Lc C Lm|o w' o' r T|o h ll dl w' o' r H T].
  - exists ([false; false] ++ pad ++ data_bits (n ++ c ++ m)). rewrite <- !app_assoc. split; [reflexivity|].
    intros r' E. rewrite <- !app_assoc. apply bl_stored; congruence.
  - exists ([true; false] ++ w'). rewrite <- !app_assoc. split; [reflexivity|]. intros r' E. rewrite <- !app_assoc. apply bl_fixed, T.
  - exists ([false; true] ++ h ++ w'). rewrite <- !app_assoc. split; [reflexivity|]. intros r' E. rewrite <- !app_assoc. eapply bl_dynamic; eassumption.
Qed.

Lemma deflated_rest out w out' rest : deflated out w out' rest ->
  exists x, w = x ++ rest /\ forall rest', zlen rest' mod 8 = zlen rest mod 8 -> deflated out (x ++ rest') out' rest'.
Proof.
  induction 1 as [out w out' rest B|out w out1 rest1 out' rest B D (x & -> & IH)];
    destruct (block_rest _ _ _ _ B) as (y & -> & K).
  - exists (true :: y). split; [reflexivity|]. intros r' E. cbn [app]. apply df_last, K, E.
  - exists (false :: y ++ x). split; [cbn [app]; rewrite <- app_assoc; reflexivity|]. intros r' E.
    cbn [app]. rewrite <- app_assoc. eapply df_more; [|apply IH, E]. apply K.
    rewrite !zlen_app, (Zplus_mod _ (zlen r')), (Zplus_mod _ (zlen rest)), E. reflexivity.
Qed.

Lemma deflated_det body d d' pad pad' l l' : zlen pad < 8 -> zlen pad' < 8 ->
  deflated [] (data_bits body) d (pad ++ data_bits l) -> deflated [] (data_bits body) d' (pad' ++ data_bits l') ->
  d = d' /\ pad = pad' /\ l = l'.
Proof.
  intros Lp Lp' D D'. set (n := (8 * List.length body)%nat).
  assert (wfb (mkB [] body)) as W0 by (unfold wfb; cbn; lia).
  assert (List.length (sb (mkB [] body)) <= n)%nat as L0 by (unfold sb; cbn [b_bits b_bytes app]; rewrite data_bits_len; lia).
  destruct (blocks_rd n n n [] (le_n n) (le_n n) (mkB [] body) W0 L0) as [_ B2].
  change (sb (mkB [] body)) with (data_bits body) in *.
  destruct (deflated_suffix _ _ _ _ D) as (w & Ew). destruct (deflated_suffix _ _ _ _ D') as (w' & Ew').
  rewrite Ew in D. rewrite Ew' in D'.
  destruct (B2 (rev d) w _ Ew (ex_intro _ d (conj eq_refl D))) as ([b1 y1] & E1 & W1 & S1).
  destruct (B2 (rev d') w' _ Ew' (ex_intro _ d' (conj eq_refl D'))) as ([b2 y2] & E2 & W2 & S2).
  rewrite E1 in E2. injection E2 as E3 <- <-. apply (f_equal (@rev byte)) in E3. rewrite !rev_involutive in E3.
  unfold wfb, sb in *. cbn [b_bits b_bytes] in *.
  destruct (sb_tail _ _ _ _ W1 Lp S1) as [-> ->]. destruct (sb_tail _ _ _ _ W1 Lp' S2) as [-> ->]. auto.
Qed.

Lemma data_bits_tail body x l : data_bits body = x ++ data_bits l -> exists b0, body = b0 ++ l.
Proof.
  intros E. assert (List.length l <= List.length body)%nat as L.
  { apply (f_equal (@List.length bool)) in E. rewrite app_length, !data_bits_len in E. lia. }
  set (k := (List.length body - List.length l)%nat).
  exists (firstn k body). rewrite <- (firstn_skipn k body) at 1. f_equal. apply data_bits_inj.
  rewrite <- (firstn_skipn k body), data_bits_app in E. apply app_inj_len in E; [apply E|].
  apply (f_equal (@List.length bool)) in E. rewrite !app_length, !data_bits_len in E.
  rewrite skipn_length in E. rewrite data_bits_len. lia.
Qed.

Definition be32 (t : list byte) : Z :=
  match t with [a3; a2; a1; a0] => bval a3 * 2 ^ 24 + bval a2 * 2 ^ 16 + bval a1 * 2 ^ 8 + bval a0 | _ => 0 end.

Lemma be32_inj t t' : zlen t = 4 -> zlen t' = 4 -> be32 t = be32 t' -> t = t'.
Proof.
  unfold zlen. intros L L'.
  destruct t as [|a [|b [|c [|d [|]]]]]; cbn [List.length] in L; try lia.
  destruct t' as [|a' [|b' [|c' [|d' [|]]]]]; cbn [List.length] in L'; try lia.
  unfold be32. change (2 ^ 24) with 16777216. change (2 ^ 16) with 65536. change (2 ^ 8) with 256.
  pose proof (bval_range a). pose proof (bval_range b). pose proof (bval_range c). pose proof (bval_range d).
  pose proof (bval_range a'). pose proof (bval_range b'). pose proof (bval_range c'). pose proof (bval_range d').
  intros E. f_equal; [apply bval_inj; lia|]. f_equal; [apply bval_inj; lia|]. f_equal; [apply bval_inj; lia|]. f_equal. apply bval_inj; lia.
Qed.

(** The pieces of a stream whose last four bytes are [t]. *)
Lemma stream_pieces b t d : zlib_stream (b ++ t) d [] -> zlen t = 4 ->
  be32 t = adler d /\ exists cmf flg b0 x pad, b = cmf :: flg :: b0 /\ zlen pad < 8 /\
    data_bits (b0 ++ t) = x ++ pad ++ data_bits t /\
    deflated [] (data_bits (b0 ++ t)) d (pad ++ data_bits t).
Proof.
  intros (cmf & flg & body & pad & a3 & a2 & a1 & a0 & E & _ & _ & _ & _ & Lp & D & A) Lt.
  destruct (deflated_suffix _ _ _ _ D) as (x & Ex). rewrite app_assoc in Ex.
  destruct (data_bits_tail _ _ _ Ex) as (b0 & Eb). rewrite Eb in E. rewrite <- app_assoc in Ex.
  assert (b = cmf :: flg :: b0 /\ t = [a3; a2; a1; a0]) as [-> ->].
  { change (cmf :: flg :: b0 ++ [a3; a2; a1; a0]) with ((cmf :: flg :: b0) ++ [a3; a2; a1; a0]) in E.
    apply app_inj_len in E; [exact E|]. apply (f_equal (@List.length byte)) in E. rewrite !app_length in E.
    unfold zlen in Lt. cbn [List.length] in *. lia. }
  split; [exact A|]. exists cmf, flg, b0, x, pad. rewrite <- Eb. auto.
Qed.

(** ** The checksum itself damaged: any other four bytes are noticed *)

Theorem C61_checksum_changed b t t' d :
  zlib_stream (b ++ t) d [] -> zlen t = 4 -> zlen t' = 4 -> t' <> t -> zdecompress (b ++ t') = None.
Proof.
  intros S L L' N. destruct (zdecompress (b ++ t')) as [d'|] eqn:E; [|reflexivity]. exfalso. apply N.
  apply C41_decompress_exact in E as (u & S').
  destruct (stream_pieces b t d S L) as (A & cmf & flg & b0 & x & pad & -> & Lp & Ex & D).
  destruct S' as (cmf' & flg' & body & pad' & a3 & a2 & a1 & a0 & E & _ & _ & _ & _ & Lp' & D' & A').
  cbn [app] in E. injection E as <- <- <-.
  destruct (deflated_rest _ _ _ _ D) as (y & Ey & K).
  assert (data_bits (b0 ++ t') = y ++ pad ++ data_bits t') as Ey'.
  { rewrite data_bits_app in Ey |- *. rewrite !app_assoc in Ey |- *. apply app_inv_tail in Ey. rewrite Ey. reflexivity. }
  specialize (K (pad ++ data_bits t')). rewrite <- Ey' in K.
  assert (deflated [] (data_bits (b0 ++ t')) d (pad ++ data_bits t')) as D2.
  { apply K. rewrite !zlen_app. unfold zlen. rewrite !data_bits_len. unfold zlen in L, L'. do 2 f_equal. lia. }
  destruct (deflated_det _ _ _ _ _ _ _ Lp Lp' D2 D') as (<- & <- & Et).
  assert (u = []) as -> by (rewrite Et, !zlen_cons in L'; apply zlen_zero; lia).
  apply be32_inj; [assumption..|]. rewrite A, Et. exact A'.
Qed.

(** ** The data changed in one or two bytes: the old checksum no longer fits *)

Lemma byte_sum_app l r : byte_sum (l ++ r) = byte_sum l + byte_sum r.
Proof. unfold byte_sum. induction l as [|x l IH]; cbn [app fold_right]; [lia|]. rewrite IH. lia. Qed.
Lemma sums_shift l : forall a k, sums (a + k) l = sums a l + k * zlen l.
Proof.
  induction l as [|x l IH]; intros a k; cbn [sums]; [change (zlen (@nil byte)) with 0; lia|]. rewrite zlen_cons.
  replace (a + k + bval x) with (a + bval x + k) by lia. rewrite IH. lia.
Qed.
Lemma sums_app l r : forall a, sums a (l ++ r) = sums a l + sums (a + byte_sum l) r.
Proof.
  induction l as [|x l IH]; intros a; cbn [sums app]; [change (byte_sum []) with 0; rewrite !Z.add_0_r; lia|]. rewrite IH. unfold byte_sum. cbn [fold_right].
  replace (a + bval x + fold_right (fun b s => bval b + s) 0 l) with (a + (bval x + fold_right (fun b s => bval b + s) 0 l)) by lia. lia.
Qed.

Lemma coprime_small k : 0 < Z.abs k < 256 -> Z.gcd 65521 k = 1.
Proof.
  intros H. rewrite <- Z.gcd_abs_r. generalize (Z.abs k) H. clear k H. intros k H.
  assert (forallb (fun k => Z.gcd 65521 (Z.of_nat k) =? 1) (seq 1 255) = true) as T by (vm_compute; reflexivity).
  rewrite forallb_forall in T. specialize (T (Z.to_nat k)). rewrite Z2Nat.id in T by lia.
  apply Z.eqb_eq, T, in_seq. lia.
Qed.

Lemma adler_parts d d' : adler d = adler d' -> (65521 | byte_sum d' - byte_sum d) /\ (65521 | sums 1 d' - sums 1 d).
Proof.
  unfold adler. intros E.
  pose proof (Z.mod_pos_bound (1 + byte_sum d) 65521 ltac:(lia)). pose proof (Z.mod_pos_bound (1 + byte_sum d') 65521 ltac:(lia)).
  assert ((1 + byte_sum d') mod 65521 = (1 + byte_sum d) mod 65521 /\ sums 1 d' mod 65521 = sums 1 d mod 65521) as [E1 E2] by lia.
  split; apply Z.mod_divide; try lia.
  - replace (byte_sum d' - byte_sum d) with ((1 + byte_sum d') - (1 + byte_sum d)) by lia. rewrite Zminus_mod, E1, Z.sub_diag. reflexivity.
  - rewrite Zminus_mod, E2, Z.sub_diag. reflexivity.
Qed.

Lemma bval_neq a b : a <> b -> bval a <> bval b.
Proof. intros N E. apply N, bval_inj, E. Qed.

Lemma divide_small n k : (n | k) -> Z.abs k < n -> k = 0.
Proof. intros [q ->] H. destruct (Z.eq_dec q 0) as [->|]; [lia|]. exfalso. nia. Qed.

Lemma adler_changed d d' : slightly_changed d d' -> adler d <> adler d'.
Proof.
  intros [p a a' q N|p a a' m b b' q N N' L] E; apply adler_parts in E as [E1 E2];
    rewrite !byte_sum_app in E1; unfold byte_sum in E1; cbn [fold_right] in E1; fold (byte_sum q) in E1.
  - apply bval_neq in N. pose proof (bval_range a). pose proof (bval_range a').
    apply divide_small in E1; lia.
  - apply bval_neq in N, N'. pose proof (bval_range a). pose proof (bval_range a'). pose proof (bval_range b). pose proof (bval_range b').
    change (fold_right (fun b s => bval b + s) 0 (m ++ b' :: q)) with (byte_sum (m ++ b' :: q)) in E1.
    change (fold_right (fun b s => bval b + s) 0 (m ++ b :: q)) with (byte_sum (m ++ b :: q)) in E1.
    rewrite !byte_sum_app in E1. unfold byte_sum in E1. cbn [fold_right] in E1.
    apply divide_small in E1; [|lia].
    set (k := bval a' - bval a) in *. assert (bval b' - bval b = - k) as Eb by lia.
    rewrite !sums_app in E2. cbn [sums] in E2. rewrite !sums_app in E2. cbn [sums] in E2.
    set (A := 1 + byte_sum p + bval a) in *.
    replace (1 + byte_sum p + bval a') with (A + k) in E2 by (unfold A, k; lia).
    rewrite sums_shift in E2. set (B := A + byte_sum m + bval b) in *.
    replace (A + k + byte_sum m + bval b') with B in E2 by (unfold B; lia).
    pose proof (zlen_nonneg m).
    match type of E2 with (_ | ?e) => replace e with (k * (zlen m + 1)) in E2 by (unfold B; lia) end.
    apply Z.gauss in E2; [|apply coprime_small; unfold k; lia].
    apply divide_small in E2; lia.
Qed.

(** A stream is damaged before its checksum [t], and its blocks now stand for data that differ
    by so little: whatever its first two bytes, it is rejected. *)
Theorem C61_few_bytes_changed b t d cmf flg body d' :
  zlib_stream (b ++ t) d [] -> zlen t = 4 -> compressed body d' t -> slightly_changed d d' ->
  zdecompress ((cmf :: flg :: body) ++ t) = None.
Proof.
  intros S L (pad & Lp & D) H. destruct (zdecompress _) as [x|] eqn:E; [|reflexivity]. exfalso.
  apply C41_decompress_exact in E as (u & S').
  destruct S' as (cmf' & flg' & body' & pad' & a3 & a2 & a1 & a0 & E & _ & _ & _ & _ & Lp' & D' & A').
  cbn [app] in E. injection E as <- <- <-.
  destruct (deflated_det _ _ _ _ _ _ _ Lp Lp' D D') as (<- & <- & Et).
  assert (u = []) as -> by (rewrite Et, !zlen_cons in L; apply zlen_zero; lia).
  apply (adler_changed d d' H). rewrite <- A', <- (proj1 (stream_pieces _ _ _ S L)), Et. reflexivity.
Qed.

(** Two streams with the same last four bytes never carry data that differ so little. *)
Theorem C61_same_checksum b b' t d d' :
  zlib_stream (b ++ t) d [] -> zlib_stream (b' ++ t) d' [] -> zlen t = 4 -> ~ slightly_changed d d'.
Proof.
  intros S S' L H. apply (adler_changed d d' H).
  rewrite <- (proj1 (stream_pieces _ _ _ S L)), <- (proj1 (stream_pieces _ _ _ S' L)). reflexivity.
Qed.

(** ** The same inside a log *)

(** A block of a well-formed log is exactly one zlib stream: nothing follows the checksum. *)
Theorem C61_blocks_are_streams c x : stream zdecompress c x <-> zlib_stream c x [].
Proof.
  split; [|apply C41_conforming_streams_usable]. intros (_ & H & P). apply C41_decompress_exact in H as (u & S).
  destruct u as [|y u]; [exact S|]. exfalso.
  destruct S as (cmf & flg & body & pad & a3 & a2 & a1 & a0 & E & H1 & H2 & H3 & H4 & Lp & D & A).
  destruct (deflated_rest _ _ _ _ D) as (w & Ew & K).
  assert (exists b0, body = b0 ++ y :: u /\ data_bits b0 = w ++ pad ++ data_bits [a3; a2; a1; a0]) as (b0 & Eb & Eb0).
  { change (a3 :: a2 :: a1 :: a0 :: y :: u) with ([a3; a2; a1; a0] ++ y :: u) in Ew. rewrite data_bits_app in Ew.
    rewrite !app_assoc in Ew. destruct (data_bits_tail _ _ _ Ew) as (b0 & Eb). exists b0. split; [exact Eb|].
    rewrite Eb, data_bits_app in Ew. apply app_inv_tail in Ew. rewrite Ew, <- !app_assoc. reflexivity. }
  assert (zlib_stream (cmf :: flg :: b0) x []) as S.
  { exists cmf, flg, b0, pad, a3, a2, a1, a0. do 6 (split; [assumption || reflexivity|]). split; [|exact A].
    rewrite Eb0. apply K. rewrite !zlen_app. unfold zlen. rewrite !data_bits_len. cbn [List.length].
    replace (Z.of_nat (List.length pad) + Z.of_nat (8 * S (S (S (S (S (List.length u)))))))
      with (Z.of_nat (List.length pad) + Z.of_nat (8 * 4) + Z.of_nat (S (List.length u)) * 8) by lia.
    rewrite Z_mod_plus_full. reflexivity. }
  assert (zdecompress (cmf :: flg :: b0) = None) as Q.
  { apply (P _ (y :: u)); [rewrite E, Eb; reflexivity|discriminate]. }
  assert (zdecompress (cmf :: flg :: b0) = Some x) as Q2 by (apply C41_decompress_exact; eauto).
  congruence.
Qed.

Lemma replaced_block vs s z z' s' : wf_sample zdecompress vs s -> block_replaced s z z' s' -> z = [] \/ exists d, zlib_stream z d [].
Proof.
  intros (_ & _ & _ & _ & _ & _ & W7 & W8 & W9) B.
  destruct B; cbn [ls_cs ls_ct ls_cc ls_ci ls_sstat ls_tstats ls_groups] in *.
  - right. eexists. apply C61_blocks_are_streams, W7.
  - right. eexists. apply C61_blocks_are_streams, W8.
  - destruct (vs_cstat vs); [right|left; apply W9]. eexists. apply C61_blocks_are_streams. apply W9.
  - destruct (vs_cstat vs); [right|left; apply W9]. eexists. apply C61_blocks_are_streams. apply W9.
Qed.

Theorem C61_checksum_damaged_log vs hb ss s more b t t' s' strict max_samples :
  wf_log zdecompress vs hb (ss ++ s :: more) -> block_replaced s (b ++ t) (b ++ t') s' ->
  zlen t = 4 -> zlen t' = 4 -> t' <> t -> zlen ss < max_samples ->
  exists c ys f, class_for vs c /\ Forall2 (holds_sample c) ss ys /\
    run zdecompress None strict max_samples (plain (log_bytes hb (ss ++ s' :: more))) =
      (ys, Some (if strict then Some ZlibError else None), f) /\
    suffix_of (samples_bytes more) (f_rem f).
Proof.
  intros W B L L' N M. apply (C61_damaged_block zdecompress vs hb ss s more _ _ s' strict max_samples W B); [rewrite !zlen_app; lia| | |exact M].
  - intros E. apply N. exact (app_inv_head b t' t E).
  - destruct W as (_ & _ & W). apply Forall_app in W as [_ W]. apply Forall_cons_iff in W as [W _].
    destruct (replaced_block vs s _ _ s' W B) as [E|(d & S)].
    + apply (f_equal zlen) in E. rewrite zlen_app in E. change (zlen (@nil byte)) with 0 in E. pose proof (zlen_nonneg b). lia.
    + eapply C61_checksum_changed; eassumption.
Qed.

(** Any damage to the compressed bytes of a block, its checksum untouched, that changes one or
    two bytes of the block's data is reported. *)
Theorem C61_small_damage_log vs hb ss s more b t cmf flg body s' d d' strict max_samples :
  wf_log zdecompress vs hb (ss ++ s :: more) -> block_replaced s (b ++ t) ((cmf :: flg :: body) ++ t) s' ->
  zdecompress (b ++ t) = Some d -> zlen t = 4 -> zlen (cmf :: flg :: body) = zlen b ->
  compressed body d' t -> slightly_changed d d' -> zlen ss < max_samples ->
  exists c ys f, class_for vs c /\ Forall2 (holds_sample c) ss ys /\
    run zdecompress None strict max_samples (plain (log_bytes hb (ss ++ s' :: more))) =
      (ys, Some (if strict then Some ZlibError else None), f) /\
    suffix_of (samples_bytes more) (f_rem f).
Proof.
  intros W B Q L Lb C H M.
  assert (zlib_stream (b ++ t) d []) as S.
  { pose proof W as (_ & _ & Ws). apply Forall_app in Ws as [_ Ws]. apply Forall_cons_iff in Ws as [Ws _].
    destruct (replaced_block vs s _ _ s' Ws B) as [E|(d0 & S)].
    - apply (f_equal zlen) in E. rewrite zlen_app in E. change (zlen (@nil byte)) with 0 in E. pose proof (zlen_nonneg b). lia.
    - assert (zdecompress (b ++ t) = Some d0) as Q2 by (apply C41_decompress_exact; eauto). congruence. }
  pose proof (C61_few_bytes_changed b t d cmf flg body d' S L C H) as X.
  apply (C61_damaged_block zdecompress vs hb ss s more _ _ s' strict max_samples W B); [rewrite !zlen_app; lia| |exact X|exact M].
  intros E. rewrite E, Q in X. discriminate X.
Qed.

(** ** Examples *)

Lemma last_four (z : list byte) : 4 <= zlen z -> exists b t, z = b ++ t /\ zlen t = 4.
Proof.
  intros H. exists (ztake (zlen z - 4) z), (zdrop (zlen z - 4) z). split; [symmetry; apply ztake_zdrop|].
  rewrite zlen_zdrop; lia.
Qed.

(** Any well-formed sample has a version with the checksum of its system block damaged. *)
Example C61_hypotheses_met vs hb ss s more : wf_log zdecompress vs hb (ss ++ s :: more) ->
  exists b t t' s', block_replaced s (b ++ t) (b ++ t') s' /\ zlen t = 4 /\ zlen t' = 4 /\ t' <> t /\ s' <> s.
Proof.
  intros (_ & _ & W). apply Forall_app in W as [_ W]. apply Forall_cons_iff in W as [W _].
  destruct W as (_ & _ & _ & _ & _ & _ & W7 & _). apply C61_blocks_are_streams in W7.
  destruct (last_four (ls_cs s)) as (b & t & E & L).
  { destruct W7 as (cmf & flg & body & pad & a3 & a2 & a1 & a0 & E & _ & _ & _ & _ & _ & D & _).
    destruct (deflated_suffix _ _ _ _ D) as (w & Ew). rewrite app_assoc in Ew.
    destruct (data_bits_tail _ _ _ Ew) as (b0 & ->). rewrite E, !zlen_cons, zlen_app, !zlen_cons. change (zlen (@nil byte)) with 0. pose proof (zlen_nonneg b0). lia. }
  assert (exists t' : list byte, zlen t' = 4 /\ t' <> t) as (t' & L' & N).
  { destruct t as [|x t]; [discriminate L|]. destruct (Byte.byte_eq_dec x x00) as [->|Nx].
    - exists (x01 :: t). split; [exact L|discriminate].
    - exists (x00 :: t). split; [exact L|]. intros E'. injection E' as E'. congruence. }
  destruct s as [rb sst ts gs cs ct cc ci]. cbn [ls_cs] in E. subst cs.
  exists b, t, t', (mkLS rb sst ts gs (b ++ t') ct cc ci). split; [apply br_system|]. do 3 (split; [assumption|]).
  intros E. injection E as E. apply N. exact (app_inv_head b t' t E).
Qed.

Example C61_example_log vs n strict : In vs spec_versions -> (2 <= n)%nat ->
  exists s', let damaged := match example_log vs n with s1 :: s2 :: r => s1 :: s' :: r | l => l end in
    damaged <> example_log vs n /\
    exists y f, run zdecompress None strict 86400 (plain (log_bytes (make_header vs) damaged)) =
      ([y], Some (if strict then Some ZlibError else None), f).
Proof.
  intros Hvs Hn. pose proof (example_log_wf vs n Hvs) as W.
  destruct n as [|[|n]]; [lia|lia|]. destruct (example_log vs (S (S n))) as [|s1 [|s2 r]] eqn:E; [discriminate E|discriminate E|].
  change (s1 :: s2 :: r) with ([s1] ++ s2 :: r) in W.
  destruct (C61_hypotheses_met _ _ _ _ _ W) as (b & t & t' & s' & B & L & L' & N & Ns). exists s'. cbv zeta. split.
  { intros K. injection K as K. congruence. }
  destruct (C61_checksum_damaged_log vs _ [s1] s2 r b t t' s' strict 86400 W B L L' N) as (c & ys & f & _ & F & R & _).
  { change (zlen [s1]) with 1. lia. }
  inversion F as [|? y ? ? ? F2]; subst. inversion F2; subst. exists y, f. exact R.
Qed.

Example C61_example_change : slightly_changed [x01; x02; x03] [x02; x01; x03] /\ adler [x01; x02; x03] <> adler [x02; x01; x03].
Proof. split; [|apply adler_changed]; apply (two_bytes [] x01 x02 [] x02 x01 [x03]); (discriminate || reflexivity). Qed.

(** The stream of "abc" (stored), its "b" turned into "B". *)
Example C61_example_stored :
  let head := [x01; x03; x00; xfc; xff] in let t := [x02; x4d; x01; x27] in
  zlib_stream (([x78; x01] ++ head ++ [x61; x62; x63]) ++ t) [x61; x62; x63] [] /\
  compressed (head ++ [x61; x42; x63]) [x61; x42; x63] t /\
  slightly_changed [x61; x62; x63] [x61; x42; x63].
Proof.
  cbv zeta. split; [apply C41_decompressor_exact; vm_compute; reflexivity|]. split.
  - exists []. split; [reflexivity|].
    change (data_bits (([x01; x03; x00; xfc; xff] ++ [x61; x42; x63]) ++ [x02; x4d; x01; x27])) with
      (true :: [false; false] ++ [false; false; false; false; false] ++ data_bits ([x03; x00] ++ [xfc; xff] ++ [x61; x42; x63]) ++ data_bits [x02; x4d; x01; x27]).
    cbn [app]. apply df_last. apply (bl_stored [] [false; false; false; false; false] [x03; x00] [xfc; xff] [x61; x42; x63] (data_bits [x02; x4d; x01; x27])); reflexivity.
  - apply (one_byte [x61] x62 x42 [x63]). discriminate.
Qed.
