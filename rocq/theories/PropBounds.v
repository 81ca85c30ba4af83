(** * C54: memory and number of samples are bounded by the size of the file *)
From Coq Require Import List ZArith Lia Bool String.
From Coq Require Import Init.Byte.
From Coq Require Import ZifyBool.
From Verif Require Import PyBase BaseProofs CTypes S_shared S_2_12 Model Spec SpecLog SpecBounds TableProofs HeaderProofs
  GenProofs RunProofs SizedProofs Inflate InflateProofs SpecDeflate DeflateProofs DeflateProofs2 DeflateProofs3 Gzip SpecGzip GzipExact
  LogBuild PropHeader PropLog PropDeflate PropGzip.
Import ListNotations.
Local Open Scope list_scope.
Local Open Scope Z_scope.

(** ** The best possible compression is 1032 : 1 *)

Lemma length_code_max sym e base x : length_code sym e base -> zlen x = e -> base + lsb_value x <= 258.
Proof.
  intros H. destruct H as [s Hs|e r He Hr|]; intros L; pose proof (lsb_range x) as R; rewrite L in R.
  - change (2 ^ 0) with 1 in R. lia.
  - assert (2 ^ e <= 32) by (change 32 with (2 ^ 5); apply Z.pow_le_mono_r; lia).
    pose proof (Z.pow_pos_nonneg 2 e ltac:(lia) ltac:(lia)). nia.
  - change (2 ^ 0) with 1 in R. lia.
Qed.

Lemma tokens_size ll dl out w out' : tokens ll dl out w out' -> zlen out' <= zlen out + 129 * zlen w.
Proof.
  induction 1 as [out w (_ & P & L & _)|out b w more out' (_ & P & L & _) _ IH|
    out w sym e base x w' dsym e' base' y out1 more out' (_ & P & L & _) LC Lx (_ & P' & L' & _) DC Ly (m & -> & Lm & _) _ IH].
  - lia.
  - rewrite !zlen_app in *. change (zlen [b]) with 1 in IH. lia.
  - pose proof (length_code_max _ _ _ _ LC Lx). rewrite !zlen_app in *. pose proof (zlen_nonneg x). pose proof (zlen_nonneg y). lia.
Qed.

Lemma zlen_byte_bits b : zlen (byte_bits b) = 8.
Proof. reflexivity. Qed.
Lemma zlen_data_bits l : zlen (data_bits l) = 8 * zlen l.
Proof.
  unfold data_bits. induction l as [|b l IH]; [reflexivity|]. cbn [flat_map]. rewrite zlen_app, IH, zlen_byte_bits, zlen_cons. lia.
Qed.

Lemma block_size out w out' rest : block out w out' rest -> zlen out' + 129 * zlen rest <= zlen out + 129 * zlen w.
Proof.
  intros H. inversion H as [o pad n c m r Hp Hr Hn Hc Hl Hm|o w1 o' r T|o h ll dl w1 o' r Hd T]; subst.
  - rewrite !zlen_app, !zlen_data_bits, !zlen_app. pose proof (zlen_nonneg pad). pose proof (zlen_nonneg m). change (zlen [false; false]) with 2. lia.
  - apply tokens_size in T. rewrite !zlen_app. change (zlen [true; false]) with 2. lia.
  - apply tokens_size in T. rewrite !zlen_app. change (zlen [false; true]) with 2. pose proof (zlen_nonneg h). lia.
Qed.

Lemma deflated_size out w out' rest : deflated out w out' rest -> zlen out' + 129 * zlen rest <= zlen out + 129 * zlen w.
Proof.
  induction 1 as [out w out' rest B|out w out1 rest1 out' rest B _ IH]; apply block_size in B; rewrite zlen_cons; lia.
Qed.

(** zlib: a stream of n bytes never gives more than 1032 (n - 6) bytes. *)
Theorem C54_decompressed_size s d : zdecompress s = Some d -> 6 <= zlen s /\ zlen d <= 1032 * (zlen s - 6).
Proof.
  intros H. apply C41_decompress_exact in H as (u & cmf & flg & body & pad & a3 & a2 & a1 & a0 & -> & _ & _ & _ & _ & _ & Df & _).
  apply deflated_size in Df. rewrite zlen_app, !zlen_data_bits, !zlen_cons, zlen_nil in Df. rewrite !zlen_cons.
  pose proof (zlen_nonneg u). pose proof (zlen_nonneg pad). pose proof (zlen_nonneg d). lia.
Qed.

(** gzip: a stored file of n bytes never holds more than 1032 n bytes. *)
Theorem C54_gunzip_size l d : gzip_data l d -> zlen d <= 1032 * zlen l.
Proof.
  induction 1 as [|l d k l' d' M _ IH]; [rewrite !zlen_nil; lia|].
  destruct M as (flags & fixed & extra & name & comment & hcrc & body & pad & c & n & -> & _ & _ & _ & _ & _ & _ & _ & _ & Df & _).
  apply deflated_size in Df. rewrite !zlen_app, !zlen_data_bits, !zlen_app, zlen_nil in Df. rewrite !zlen_app.
  pose proof (zlen_nonneg pad). pose proof (zlen_nonneg c). pose proof (zlen_nonneg n).
  pose proof (zlen_nonneg fixed). pose proof (zlen_nonneg extra). pose proof (zlen_nonneg name).
  pose proof (zlen_nonneg comment). pose proof (zlen_nonneg hcrc). pose proof (zlen_nonneg (repeat x00 k)).
  change (zlen [x1f; x8b; x08; flags]) with 4. lia.
Qed.

(** ** Sums *)

Ltac no_sums := unfold memory; cbn [map sum fold_right]; unfold zlen in *; cbn [List.length Z.of_nat] in *; lia.

Lemma sum_app a b : sum (a ++ b) = sum a + sum b.
Proof. unfold sum. induction a as [|x a IH]; cbn; [reflexivity|]. lia. Qed.
Lemma sum_cons x l : sum (x :: l) = x + sum l.
Proof. reflexivity. Qed.
Lemma sum_sized t l : Forall (sized t) l -> sum (map object_memory l) = sizeof t * zlen l.
Proof.
  induction 1 as [|o l [_ H] _ IH]; [symmetry; apply Z.mul_0_r|]. cbn [map]. rewrite sum_cons, IH, zlen_cons. unfold object_memory. rewrite H. lia.
Qed.

(** ** Tasks *)

Lemma tstat_loop_memory t len d n l : 0 < sizeof t -> 0 <= len -> tstat_loop t len d n 0 = Ok l ->
  sizeof t * zlen l <= zlen d.
Proof.
  intros P Hl E. pose proof (tstat_loop_spec t len d n 0 ltac:(lia) Hl P) as S.
  destruct ((Z.of_nat n =? 0) || _) eqn:B in S; [|congruence].
  rewrite S in E. injection E as <-. rewrite zlen_map. unfold zlen at 1. rewrite seq_length.
  pose proof (zlen_nonneg d). destruct (Z.eqb_spec (Z.of_nat n) 0) as [Z|Z]; [lia|]. cbn [orb] in B. nia.
Qed.

(** ** Cgroups *)

Lemma cstat_loop_memory ct cl dc dp n : 0 <= sizeof ct -> forall cs ps l, 0 <= ps ->
  cstat_loop ct cl dc dp n cs ps = Ok l ->
  sum (map group_memory l) <= sizeof ct * zlen l + Z.max 0 (zlen dp - ps).
Proof.
  intros P. induction n as [|n IH]; intros cs ps l Hp E; cbn [cstat_loop] in E; [injection E as <-; no_sums|].
  destruct (from_buffer_copy ct _) as [cst|] eqn:F1; [|discriminate E]. cbn [rbind] in E.
  destruct (getobj cst "gen") as [g|]; [|discriminate E]. cbn [rbind] in E.
  destruct (getint g "structlen") as [sl|]; [|discriminate E]. cbn [rbind] in E.
  destruct (getint g "nprocs") as [np|]; [|discriminate E]. cbn [rbind] in E.
  destruct (Z.ltb_spec np 0) as [N|N]; [discriminate E|].
  assert (sizeof (TArr sh_pid_t np) = 4 * np) as Sz by reflexivity.
  destruct (from_buffer_copy (TArr sh_pid_t np) _) as [pl|] eqn:F2; [|discriminate E]. cbn [rbind] in E.
  destruct (cstat_loop ct cl dc dp n _ _) as [r|] eqn:E2; [|discriminate E]. cbn [rbind] in E. injection E as <-.
  rewrite Sz in E2. specialize (fun H => IH _ (ps + 4 * np) _ H E2). specialize (IH ltac:(lia)).
  pose proof (from_buffer_copy_sized _ _ _ P F1) as [[_ L1] _].
  assert (0 <= sizeof (TArr sh_pid_t np)) as P2 by (rewrite Sz; lia).
  pose proof (from_buffer_copy_sized _ _ _ P2 F2) as [[_ L2] _].
  unfold from_buffer_copy in F2. rewrite Sz in F2, L2. rewrite pyslice_pos in F2 by lia.
  destruct (Z.ltb_spec (zlen (ztake (ps + 4 * np - ps) (zdrop ps dp))) (4 * np)) as [K|K]; [discriminate F2|].
  rewrite zlen_ztake, zlen_zdrop in K.
  cbn [map]. rewrite sum_cons, zlen_cons. unfold group_memory at 1, object_memory. cbn [cg_cstat cg_proclist]. rewrite L1, L2. nia.
Qed.

(** ** One sample *)

Lemma fread_used n f b f' : 0 <= n -> fread n f = (Ok b, f') -> zlen (f_rem f) = zlen b + zlen (f_rem f').
Proof.
  intros Hn H. apply fread_ok in H as (-> & -> & _). rewrite zlen_ztake, zlen_zdrop. pose proof (zlen_nonneg (f_rem f)). lia.
Qed.

Lemma class_size_pos vs c : In (vs, c) table -> 0 < vs_tstat vs /\ 0 < vs_sstat vs /\ 0 < vs_rec vs /\ 0 <= cstat_size vs <= 432.
Proof.
  intros H. apply (fun x => proj1 (table_class vs c x)) in H. unfold cstat_size.
  repeat (destruct H as [<- | H]; [cbn; lia|]). destruct H.
Qed.

Lemma no_field t b n : field_at t n = None -> getint (mkObj t b) n = Raise (AttributeError n).
Proof. intros H. unfold getint, getattr. cbn [o_type]. rewrite H. reflexivity. Qed.

Lemma task_length_nonneg_b :
  forallb (fun p => match field_at (hc_header (snd p)) "tstatlen" with None | Some (_, TInt false 4) => true | _ => false end &&
                    match field_at (hc_header (snd p)) "pstatlen" with None | Some (_, TInt false 4) => true | _ => false end) table = true.
Proof. vm_compute. reflexivity. Qed.

Lemma le_uint_nonneg l : 0 <= le_uint l.
Proof. induction l as [|b l IH]; cbn [le_uint]; [lia|]. pose proof (bval_range b). lia. Qed.

Lemma unsigned_field t b n v :
  match field_at t n with None | Some (_, TInt false 4) => true | _ => false end = true ->
  getint (mkObj t b) n = Ok v -> 0 <= v.
Proof.
  unfold getint, getattr. cbn [o_type]. destruct (field_at t n) as [[off ft]|]; [|intros _ X; discriminate X].
  destruct ft as [[] sz| | | |]; try (intros X; discriminate X). intros _. cbn [rbind fetch]. unfold int_value. intros E. injection E as <-. apply le_uint_nonneg.
Qed.

Lemma task_length_nonneg vs c hb (v23 : bool) v : In (vs, c) table ->
  (if v23 then getint (h_obj (mkHdr c hb)) "tstatlen" else getint (h_obj (mkHdr c hb)) "pstatlen") = Ok v -> 0 <= v.
Proof.
  intros Hc. pose proof task_length_nonneg_b as T. rewrite forallb_forall in T. specialize (T _ Hc). cbn [snd] in T.
  apply andb_true_iff in T as [T1 T2]. rewrite h_obj_mk. destruct v23; intros H; [exact (unsigned_field _ _ _ _ T1 H)|exact (unsigned_field _ _ _ _ T2 H)].
Qed.

Lemma read_sample_memory vs c hb gate f s f' : In (vs, c) table ->
  read_sample zdecompress (mkHdr c hb) gate f = (Ok (Some s), f') ->
  zlen (f_rem f') + vs_rec vs + (vs_sstat vs + 1031) / 1032 + 12 <= zlen (f_rem f) /\
  sample_memory s <= 1032 * (zlen (f_rem f) - zlen (f_rem f')) + 65535 * cstat_size vs.
Proof.
  intros Hc H. pose proof (table_class vs c Hc) as [Hvs Hcv].
  pose proof (read_sample_sized zdecompress (mkHdr c hb) gate f s f' Hcv H) as (Z1 & Z2 & Z3 & Z4). cbn [h_class] in *.
  destruct (table_sizes vs c Hc) as (_ & S1 & S2 & S3 & S4 & S5). destruct (class_size_pos vs c Hc) as (P1 & P2 & P3 & P4).
  unfold read_sample in H. apply mbind_inv in H as (r & f1 & H1 & H).
  unfold get_record in H1. apply mbind_inv in H1 as (rb & f2 & H2 & H1).
  apply freadinto_ok in H2 as (_ & R1 & _). unfold mret in H1. injection H1 as <- <-.
  cbn [h_class] in *. rewrite (rec_size vs c Hc) in R1.
  rewrite (rec_int vs c Hc rb _ _ _ (in_rec_scomplen vs)) in H. cbn [num_at] in H. rewrite mbind_lift in H.
  pose proof (u32_range rb 16) as V16. pose proof (u32_range rb 20) as V20. pose proof (u32_range rb 72) as V72.
  pose proof (u32_range rb 84) as V84. pose proof (u16_range rb 10) as V10.
  destruct (Z.leb_spec (u32_at rb 16) 0) as [L|L]; [discriminate H|].
  apply mbind_inv in H as (ssv & f3 & H1 & H).
  unfold get_sstat in H1. rewrite (rec_int vs c Hc rb _ _ _ (in_rec_scomplen vs)) in H1. cbn [num_at] in H1. rewrite mbind_lift in H1.
  apply mbind_inv in H1 as (buf & f4 & H2 & H1). apply fread_used in H2 as U1; [|lia].
  apply mbind_inv in H1 as (d & f5 & H3 & H1). unfold mlift in H3, H1. injection H3 as Ed <-. injection H1 as Ess <-.
  unfold zlib_decompress in Ed. destruct (zdecompress buf) as [d0|] eqn:Ed0; [|discriminate Ed]. injection Ed as ->.
  apply C54_decompressed_size in Ed0 as [B1 B2].
  unfold from_buffer_copy in Ess. cbn [h_class] in Ess. rewrite S3 in Ess.
  destruct (Z.ltb_spec (zlen d) (vs_sstat vs)) as [K|K]; [discriminate Ess|].
  apply mbind_inv in H as (tsv & f6 & H1 & H).
  unfold get_tstat in H1. rewrite (rec_int vs c Hc rb _ _ _ (in_rec_pcomplen vs)) in H1. cbn [num_at] in H1. rewrite mbind_lift in H1.
  apply mbind_inv in H1 as (buf2 & f7 & H3 & H1). apply fread_used in H3 as U2; [|lia].
  apply mbind_inv in H1 as (d2 & f8 & H4 & H1). unfold mlift in H4. injection H4 as Ed2 <-.
  unfold zlib_decompress in Ed2. destruct (zdecompress buf2) as [d0|] eqn:Ed0; [|discriminate Ed2]. injection Ed2 as ->.
  apply C54_decompressed_size in Ed0 as [B3 B4].
  apply mbind_inv in H1 as (rc & f9 & H4 & H1). unfold mlift in H4. injection H4 as _ <-.
  apply mbind_inv in H1 as (b2 & f10 & H4 & H1). unfold mlift in H4. injection H4 as _ <-.
  apply mbind_inv in H1 as (tl & f11 & H4 & H1). unfold mlift in H4, H1. injection H4 as Etl <-. injection H1 as Ets <-.
  apply (task_length_nonneg vs c hb b2 tl Hc) in Etl.
  apply tstat_loop_memory in Ets as Mt; [|cbn [h_class]; lia|exact Etl]. cbn [h_class] in Mt.
  apply mbind_inv in H as (cg & f12 & H1 & H). unfold mret in H. injection H as <- <-.
  assert (zlen (f_rem f2) + vs_rec vs = zlen (f_rem f)) as R0.
  { pose proof (zlen_nonneg (f_rem f4)). rewrite R1, zlen_zdrop in U1 |- *. pose proof (zlen_nonneg (f_rem f)). lia. }
  cbn [s_record s_sstat s_tstats s_cgroups] in *. unfold sample_memory. cbn [s_record s_sstat s_tstats s_cgroups].
  rewrite (sum_sized _ _ Z3). destruct Z1 as [_ Z1], Z2 as [_ Z2]. unfold object_memory at 1 2. rewrite Z1, Z2, S2, S3.
  assert (zlen (f_rem f12) <= zlen (f_rem f7) /\
          sum (map group_memory cg) <= 1032 * (zlen (f_rem f7) - zlen (f_rem f12)) + 65535 * cstat_size vs) as [M1 M2].
  { destruct gate; [|unfold mret in H1; injection H1 as <- <-; cbn [map sum fold_right]; lia].
    unfold get_cstat in H1. apply mbind_inv in H1 as (nc & g0 & H4 & H1). unfold mlift in H4. injection H4 as Enc <-.
    unfold cstat_size in *. destruct (vs_cstat vs) as [size|] eqn:Ec.
    - destruct S5 as (ct & Ect & Sct). destruct (in_rec_cg vs size Hvs Ec) as (Q1 & Q2 & Q3).
      rewrite (rec_int vs c Hc rb _ _ _ Q2) in Enc. cbn [num_at] in Enc. injection Enc as <-.
      apply mbind_inv in H1 as (b3 & f13 & H4 & H1). apply fread_used in H4 as U3; [|lia].
      apply mbind_inv in H1 as (d3 & f14 & H5 & H1). unfold mlift in H5. injection H5 as _ <-.
      rewrite (rec_int vs c Hc rb _ _ _ Q3) in H1. cbn [num_at] in H1. rewrite mbind_lift in H1.
      apply mbind_inv in H1 as (b4 & f15 & H5 & H1). apply fread_used in H5 as U4; [|lia].
      apply mbind_inv in H1 as (d4 & f16 & H6 & H1). unfold mlift in H6. injection H6 as Ed4 <-.
      unfold zlib_decompress in Ed4. destruct (zdecompress b4) as [d0|] eqn:Ed0; [|discriminate Ed4]. injection Ed4 as ->.
      apply C54_decompressed_size in Ed0 as [B5 B6].
      apply mbind_inv in H1 as (cl & f17 & H6 & H1). unfold mlift in H6. injection H6 as _ <-.
      rewrite (rec_int vs c Hc rb _ _ _ Q1) in H1. cbn [num_at] in H1. rewrite mbind_lift in H1.
      unfold mlift in H1. injection H1 as Ecg <-. cbn [h_class] in Ecg. rewrite Ect in Ecg.
      pose proof (cstat_loop_sized c ct _ _ _ _ _ _ _ Hcv Ect Ecg) as [Ncg _].
      apply cstat_loop_memory in Ecg; [|lia|lia]. rewrite Sct in Ecg.
      pose proof (zlen_nonneg b3). pose proof (zlen_nonneg d4). pose proof (zlen_nonneg cg).
      assert (zlen cg <= 65535) as Nc by lia. split; [lia|]. nia.
    - rewrite S5 in *. apply mbind_inv in H1 as (b3 & f13 & H4 & H1).
      assert (0 <= nc \/ nc < 0) as [Hn|Hn] by lia.
      + apply (fread_used _ _ _ _ Hn) in H4 as U3.
        apply mbind_inv in H1 as (d3 & f14 & H5 & H1). unfold mlift in H5. injection H5 as _ <-.
        apply mbind_inv in H1 as (ni & f15 & H5 & H1). unfold mlift in H5. injection H5 as _ <-.
        apply mbind_inv in H1 as (b4 & f16 & H5 & H1). apply fread_ok in H5 as (_ & R5 & _).
        apply mbind_inv in H1 as (d4 & f17 & H6 & H1). unfold mlift in H6. injection H6 as _ <-.
        apply mbind_inv in H1 as (cl & f18 & H6 & H1). unfold mlift in H6. injection H6 as _ <-.
        apply mbind_inv in H1 as (ng & f19 & H6 & H1). unfold mlift in H6. injection H6 as _ <-.
        unfold mlift in H1. injection H1 as Ecg <-. cbn [h_class] in Ecg. rewrite S5 in Ecg.
        destruct (0 <? ng); [discriminate Ecg|]. injection Ecg as <-. cbn [map sum fold_right].
        rewrite R5, zlen_zdrop. pose proof (zlen_nonneg b3). pose proof (zlen_nonneg (f_rem f13)). lia.
      + apply fread_ok in H4 as (_ & R4 & _).
        apply mbind_inv in H1 as (d3 & f14 & H5 & H1). unfold mlift in H5. injection H5 as _ <-.
        apply mbind_inv in H1 as (ni & f15 & H5 & H1). unfold mlift in H5. injection H5 as _ <-.
        apply mbind_inv in H1 as (b4 & f16 & H5 & H1). apply fread_ok in H5 as (_ & R5 & _).
        apply mbind_inv in H1 as (d4 & f17 & H6 & H1). unfold mlift in H6. injection H6 as _ <-.
        apply mbind_inv in H1 as (cl & f18 & H6 & H1). unfold mlift in H6. injection H6 as _ <-.
        apply mbind_inv in H1 as (ng & f19 & H6 & H1). unfold mlift in H6. injection H6 as _ <-.
        unfold mlift in H1. injection H1 as Ecg <-. cbn [h_class] in Ecg. rewrite S5 in Ecg.
        destruct (0 <? ng); [discriminate Ecg|]. injection Ecg as <-. cbn [map sum fold_right].
        rewrite R5, zlen_zdrop, R4, zlen_zdrop. pose proof (zlen_nonneg (f_rem f7)). lia. }
  rewrite S4 in *. split.
  - assert ((vs_sstat vs + 1031) / 1032 < zlen buf - 5) by (apply Z.div_lt_upper_bound; lia). lia.
  - lia.
Qed.

Lemma D_memory vs c hb gate strict todo f ss e f' : In (vs, c) table ->
  D zdecompress (mkHdr c hb) gate strict todo f = (ss, e, f') ->
  zlen ss * (vs_rec vs + (vs_sstat vs + 1031) / 1032 + 12) + zlen (f_rem f') <= zlen (f_rem f) /\
  memory ss <= 1032 * (zlen (f_rem f) - zlen (f_rem f')) + zlen ss * (65535 * cstat_size vs).
Proof.
  intros Hc. revert f ss e f'. induction todo as [n Hn|n Hn IH] using todo_ind; intros f ss e f' H.
  - rewrite D_zero in H by lia. injection H as <- _ <-. unfold memory. no_sums.
  - rewrite D_pos in H by lia.
    assert (zlen (f_rem (snd (read_sample zdecompress (mkHdr c hb) gate f))) <= zlen (f_rem f)) as Hs.
    { destruct (forward_read_sample zdecompress (mkHdr c hb) gate f) as (pre & Hp). rewrite Hp, zlen_app. pose proof (zlen_nonneg pre). lia. }
    destruct (read_sample zdecompress (mkHdr c hb) gate f) as [[[s|]|x] f1] eqn:E; cbn [snd] in Hs;
      [|injection H as <- _ <-; no_sums|injection H as <- _ <-; no_sums].
    destruct (D zdecompress (mkHdr c hb) gate strict (n - 1) f1) as [[ss1 e1] f2] eqn:E1. injection H as <- _ <-.
    destruct (read_sample_memory vs c hb gate f s f1 Hc E) as [A B]. destruct (IH _ _ _ _ E1) as [A1 B1].
    rewrite zlen_cons. unfold memory in *. cbn [map]. rewrite sum_cons. split; lia.
Qed.

(** ** C54 *)

(** The number of samples and the memory of everything yielded, from any file: each sample takes
    up its record, a thousandth of its system statistics and two smallest streams. *)
Theorem C54_samples_bounded vs c hb strict max_samples f ss e f' :
  class_for vs c -> run zdecompress (Some (mkHdr c hb)) strict max_samples f = (ss, e, f') ->
  zlen ss * (vs_rec vs + (vs_sstat vs + 1031) / 1032 + 12) <= zlen (f_rem f).
Proof.
  intros C. rewrite run_some. destruct (cgroup_gate (mkHdr c hb)) as [gate|x].
  - intros H. apply (D_memory vs c hb gate strict max_samples f ss e f' (class_for_table _ _ C)) in H as [A _].
    pose proof (zlen_nonneg (f_rem f')). lia.
  - intros H. injection H as <- _ _. pose proof (zlen_nonneg (f_rem f)). no_sums.
Qed.

Theorem C54_memory_bounded vs c hb strict max_samples f ss e f' :
  class_for vs c -> run zdecompress (Some (mkHdr c hb)) strict max_samples f = (ss, e, f') ->
  memory ss <= 1032 * (zlen (f_rem f) - zlen (f_rem f')) + zlen ss * (65535 * cstat_size vs).
Proof.
  intros C. rewrite run_some. destruct (cgroup_gate (mkHdr c hb)) as [gate|x].
  - intros H. exact (proj2 (D_memory vs c hb gate strict max_samples f ss e f' (class_for_table _ _ C) H)).
  - intros H. injection H as <- _ <-. unfold memory. no_sums.
Qed.

(** Versions without cgroups: 1032 times the file. *)
Theorem C54_memory_without_cgroups vs c hb strict max_samples f ss e f' :
  class_for vs c -> vs_cstat vs = None -> run zdecompress (Some (mkHdr c hb)) strict max_samples f = (ss, e, f') ->
  memory ss <= 1032 * zlen (f_rem f).
Proof.
  intros C N H. pose proof (C54_memory_bounded _ _ _ _ _ _ _ _ _ C H) as B. unfold cstat_size in B. rewrite N in B.
  pose proof (zlen_nonneg (f_rem f')). lia.
Qed.

(** The tasks returned by get_tstat. *)
Theorem C54_tasks_bounded vs c hb rb f l f' :
  class_for vs c -> get_tstat zdecompress (mkHdr c hb) (mkObj (hc_record c) rb) f = (Ok l, f') ->
  sum (map object_memory l) <= 1032 * (zlen (f_rem f) - zlen (f_rem f')).
Proof.
  intros C H. pose proof (class_for_table _ _ C) as Hc. destruct (table_sizes vs c Hc) as (_ & _ & _ & _ & S4 & _).
  destruct (class_size_pos vs c Hc) as (P1 & _). pose proof (u32_range rb 20) as V20.
  unfold get_tstat in H. rewrite (rec_int vs c Hc rb _ _ _ (in_rec_pcomplen vs)) in H. cbn [num_at] in H. rewrite mbind_lift in H.
  apply mbind_inv in H as (buf2 & f7 & H3 & H1). apply fread_used in H3 as U2; [|lia].
  apply mbind_inv in H1 as (d2 & f8 & H4 & H1). unfold mlift in H4. injection H4 as Ed2 <-.
  unfold zlib_decompress in Ed2. destruct (zdecompress buf2) as [d0|] eqn:Ed0; [|discriminate Ed2]. injection Ed2 as ->.
  apply C54_decompressed_size in Ed0 as [B3 B4].
  apply mbind_inv in H1 as (rc & f9 & H4 & H1). unfold mlift in H4. injection H4 as _ <-.
  apply mbind_inv in H1 as (b2 & f10 & H4 & H1). unfold mlift in H4. injection H4 as _ <-.
  apply mbind_inv in H1 as (tl & f11 & H4 & H1). unfold mlift in H4, H1. injection H4 as Etl <-. injection H1 as Ets <-.
  apply (task_length_nonneg vs c hb b2 tl Hc) in Etl. cbn [h_class] in Ets.
  assert (0 <= sizeof (hc_tstat c)) as P by lia.
  rewrite (sum_sized _ _ (tstat_loop_sized _ _ _ _ _ _ P Ets)).
  apply tstat_loop_memory in Ets; [|lia|exact Etl]. lia.
Qed.

(** ** Cgroups: the same struct can be counted 65535 times *)

Definition one_group : list byte := zeros 432.
Definition greedy_record : list byte :=
  make_record latest 0 1 0 0 65535 (zlen (zstore one_group)) (zlen (zstore [])).
Definition greedy_file : list byte := zstore one_group ++ zstore [].
Definition cstat_2_12 : ctype := match hc_cstat a2_12_class with Some ct => ct | None => TChar end.

Lemma greedy_step k : cstat_loop cstat_2_12 432 one_group [] (S k) 0 0 =
  let? r := cstat_loop cstat_2_12 432 one_group [] k 0 0 in
  Ok (mkChain (mkObj cstat_2_12 one_group) (mkObj (TArr sh_pid_t 0) []) :: r).
Proof.
  cbn [cstat_loop].
  replace (from_buffer_copy cstat_2_12 (pyslice 0 (0 + 432) one_group)) with (Ok (mkObj cstat_2_12 one_group)) by (vm_compute; reflexivity).
  cbn [rbind].
  replace (getobj (mkObj cstat_2_12 one_group) "gen") with
    (match getobj (mkObj cstat_2_12 one_group) "gen" with Ok g => Ok g | Raise e => @Raise cobj e end)
    by (destruct (getobj _ _); reflexivity).
  destruct (getobj (mkObj cstat_2_12 one_group) "gen") as [g|] eqn:G; [|vm_compute in G; discriminate G].
  cbn [rbind].
  assert (getint g "structlen" = Ok 0 /\ getint g "nprocs" = Ok 0) as [-> ->].
  { vm_compute in G. injection G as <-. split; vm_compute; reflexivity. }
  cbn [rbind]. change (0 <? 0) with false. cbv iota zeta.
  replace (from_buffer_copy (TArr sh_pid_t 0) (pyslice 0 (0 + sizeof (TArr sh_pid_t 0)) []))
    with (Ok (mkObj (TArr sh_pid_t 0) [])) by reflexivity.
  cbn [rbind]. reflexivity.
Qed.

Lemma greedy_loop k : exists l, cstat_loop cstat_2_12 432 one_group [] k 0 0 = Ok l /\ sum (map group_memory l) = 432 * Z.of_nat k.
Proof.
  induction k as [|k (l & E & M)]; [exists []; split; reflexivity|]. rewrite greedy_step, E. cbn [rbind]. eexists. split; [reflexivity|].
  cbn [map]. rewrite sum_cons, M. change (group_memory (mkChain (mkObj cstat_2_12 one_group) (mkObj (TArr sh_pid_t 0) []))) with 432. lia.
Qed.

(** The bound of the tasks does not hold for get_cstat: 454 bytes give 28 megabytes. *)
Theorem C54_cgroups_bounded_refuted :
  exists vs c hb rb f l f', class_for vs c /\ atop_header vs hb /\ zlen rb = vs_rec vs /\
    get_cstat zdecompress (mkHdr c hb) (mkObj (hc_record c) rb) f = (Ok l, f') /\
    sum (map group_memory l) = 28311120 /\ zlen (f_rem f) = 454.
Proof.
  destruct (greedy_loop (Z.to_nat 65535)) as (l & E & M).
  exists latest, a2_12_class, (make_header latest), greedy_record, (plain greedy_file), l, (plain []).
  assert (In latest spec_versions) as Hl by exact (proj1 (table_class _ _ latest_in)).
  split; [apply table_class_for, latest_in|]. pose proof (make_header_ok latest Hl) as Ha.
  split; [exact Ha|]. split; [vm_compute; reflexivity|]. destruct Ha as (_ & _ & Hv & Hz).
  split; [|split; [rewrite M; lia|vm_compute; reflexivity]].
  rewrite (get_cstat_spec zdecompress latest a2_12_class (make_header latest) latest_in greedy_record greedy_file cstat_2_12 eq_refl).
  assert (u32_at greedy_record 72 = zlen (zstore one_group)) as -> by (vm_compute; reflexivity).
  assert (u32_at greedy_record 84 = zlen (zstore [])) as -> by (vm_compute; reflexivity).
  assert (u16_at greedy_record 10 = 65535) as -> by (vm_compute; reflexivity).
  unfold greedy_file. rewrite ztake_exact, zdrop_exact by reflexivity.
  rewrite (stream_dec _ _ _ (zstore_stream one_group)). rewrite ztake_all, zdrop_all by lia.
  rewrite (stream_dec _ _ _ (zstore_stream [])).
  destruct Hz as (_ & _ & _ & _ & Z5). cbn [vs_cstat latest] in Z5. rewrite Z5, E. reflexivity.
Qed.

(** C54: runs of n samples, for every version. *)
Example C54_example vs n strict : In vs spec_versions ->
  exists c hb f ys f', class_for vs c /\ zlen ys = Z.of_nat n /\
    run zdecompress (Some (mkHdr c hb)) strict (Z.of_nat n) f = (ys, Some None, f') /\
    memory ys <= 1032 * zlen (f_rem f) + Z.of_nat n * (65535 * cstat_size vs).
Proof.
  intros H. destruct (C20_example vs n strict H) as (c & hb & f & ys & f' & C & _ & L & R & _).
  exists c, hb, f, ys, f'. split; [exact C|]. split; [exact L|]. split; [exact R|].
  pose proof (C54_memory_bounded _ _ _ _ _ _ _ _ _ C R) as B. rewrite L in B. pose proof (zlen_nonneg (f_rem f')). lia.
Qed.

(** The bound on compression is nearly reached: 1000 bytes from 17, by one literal and matches of
    258 bytes (zlib.compress(bytes(1000))). *)
Definition zeros_stream : list byte :=
  [x78; x9c; x63; x60; x18; x05; xa3; x60; x14; x0c; x77; x00; x00; x03; xe8; x00; x01].
Example C54_example_stream : zdecompress zeros_stream = Some (zeros 1000) /\ zlen zeros_stream = 17.
Proof. split; vm_compute; reflexivity. Qed.
