(** * A writer of logs (not in /repo): every content has a well-formed log

    Used only to show that the hypotheses of the theorems about logs are met. *)
From Coq Require Import List ZArith Lia Bool String.
From Coq Require Import Init.Byte.
From Coq Require Import ZifyBool.
From Verif Require Import PyBase Utf8 CTypes S_shared Model Spec SpecLog BaseProofs LayoutProofs RepProofs
  TableProofs HeaderProofs GenProofs Inflate InflateProofs.
Import ListNotations.
Open Scope list_scope.
Open Scope Z_scope.

Definition le16 (z : Z) : list byte := [byte_of_Z (z mod 256); byte_of_Z (z / 256 mod 256)].

(** A header of version [vs]. *)
Definition make_header (vs : vspec) : list byte :=
  le32 magic_number ++ le16 (32768 + 256 * vs_major vs + vs_minor vs) ++ zeros 4 ++
  le16 header_size ++ le16 (vs_rec vs) ++ le16 100 ++ zeros 12 ++ le32 (vs_sstat vs) ++ le32 (vs_tstat vs) ++
  [x4c; x69; x6e; x75; x78] ++ zeros 395 ++ le32 4096 ++ zeros 16 ++
  le32 (match vs_cstat vs with Some n => n | None => 0 end) ++ zeros 20.

Lemma make_header_ok vs : In vs spec_versions -> atop_header vs (make_header vs).
Proof.
  assert (forallb (fun vs => (zlen (make_header vs) =? header_size) && (magic_of (make_header vs) =? magic_number) &&
     (major_of (make_header vs) =? vs_major vs) && (minor_of (make_header vs) =? vs_minor vs) &&
     sizes_match_b vs (make_header vs)) spec_versions = true) as T by (vm_compute; reflexivity).
  intros H. rewrite forallb_forall in T. specialize (T _ H). rewrite !andb_true_iff, !Z.eqb_eq, sizes_match_b_spec in T.
  unfold atop_header, is_version. tauto.
Qed.

(** A record with the given time, compressed lengths and counts. *)
Definition make_record (vs : vspec) (time ncs nct ntasks ngroups ncc nci : Z) : list byte :=
  le32 time ++ zeros 6 ++ le16 ngroups ++ zeros 4 ++ le32 ncs ++ le32 nct ++ le32 10 ++ le32 ntasks ++ zeros 40 ++
  match vs_cstat vs with
  | Some _ => le32 ncc ++ zeros 8 ++ le32 nci ++ zeros (vs_rec vs - 88)
  | None => zeros (vs_rec vs - 72)
  end.

(** A sample with the given contents. *)
Definition make_sample (comp : list byte -> list byte) (vs : vspec) (time : Z) (sstat : list byte)
           (tstats : list (list byte)) (groups : list lgroup) : lsample :=
  let gs := match vs_cstat vs with Some _ => groups | None => [] end in
  let cs := comp sstat in
  let ct := comp (List.concat tstats) in
  let cc := match vs_cstat vs with Some _ => comp (groups_data gs) | None => [] end in
  let ci := match vs_cstat vs with Some _ => comp (groups_pids gs) | None => [] end in
  mkLS (make_record vs time (zlen cs) (zlen ct) (zlen tstats) (zlen gs) (zlen cc) (zlen ci))
       sstat tstats gs cs ct cc ci.


Lemma le16_len z : zlen (le16 z) = 2.
Proof. reflexivity. Qed.

Lemma u16_at_mid a z b off : zlen a = off -> 0 <= z < 65536 -> u16_at (a ++ le16 z ++ b) off = z.
Proof.
  intros Ha Hz. rewrite <- le_uint_sub_2 by (pose proof (zlen_nonneg a); lia).
  rewrite (sub_bytes_mid off 2 a (le16 z) b Ha eq_refl). unfold le16, le_uint.
  rewrite !bval_byte_of_Z by (apply Z.mod_pos_bound; lia).
  rewrite (Z.mod_small (z / 256)) by (split; [apply Z.div_pos; lia|apply Z.div_lt_upper_bound; lia]).
  pose proof (Z.div_mod z 256). lia.
Qed.

Lemma u32_at_mid a z b off : zlen a = off -> 0 <= z < 4294967296 -> u32_at (a ++ le32 z ++ b) off = z.
Proof.
  intros Ha Hz. rewrite <- le_uint_sub_4 by (pose proof (zlen_nonneg a); lia).
  rewrite (sub_bytes_mid off 4 a (le32 z) b Ha eq_refl). unfold le32, le_uint.
  rewrite !bval_byte_of_Z by (apply Z.mod_pos_bound; lia).
  replace (z / 65536) with (z / 256 / 256) by (rewrite Z.div_div by lia; reflexivity).
  replace (z / 16777216) with (z / 256 / 256 / 256) by (rewrite !Z.div_div by lia; reflexivity).
  rewrite (Z.mod_small (z / 256 / 256 / 256)).
  - pose proof (Z.div_mod z 256). pose proof (Z.div_mod (z / 256) 256). pose proof (Z.div_mod (z / 256 / 256) 256). lia.
  - rewrite !Z.div_div by lia. split; [apply Z.div_pos; lia|apply Z.div_lt_upper_bound; lia].
Qed.

Section Writer.
Variable dec : list byte -> option (list byte).
Variable comp : list byte -> list byte.
Hypothesis Hcomp : forall x, stream dec (comp x) x.

Definition fits (x : list byte) : Prop := zlen (comp x) < 4294967296.

Theorem make_sample_wf vs time sstat tstats groups :
  In vs spec_versions -> 0 <= time < 4294967296 ->
  zlen sstat = vs_sstat vs -> Forall (fun t => zlen t = vs_tstat vs) tstats ->
  zlen tstats < 4294967296 -> zlen groups < 65536 ->
  (forall n, vs_cstat vs = Some n -> Forall (wf_group n) groups) ->
  fits sstat -> fits (List.concat tstats) -> fits (groups_data groups) -> fits (groups_pids groups) ->
  wf_sample dec vs (make_sample comp vs time sstat tstats groups).
Proof.
  intros Hvs Htime Hs Ht Hn Hg Hwg F1 F2 F3 F4. unfold fits in *.
  destruct (table_spec _ Hvs) as (c & Hc). destruct (spec_sizes vs c Hc) as (Z1 & Z2 & _).
  pose proof (zlen_nonneg (comp sstat)). pose proof (zlen_nonneg (comp (List.concat tstats))).
  pose proof (zlen_nonneg tstats). pose proof (zlen_nonneg groups).
  pose proof (zlen_nonneg (comp (groups_data groups))). pose proof (zlen_nonneg (comp (groups_pids groups))).
  unfold wf_sample, make_sample. unfold gate_of in Z2.
  set (cs := comp sstat) in *. set (ct := comp (List.concat tstats)) in *.
  set (cc := comp (groups_data groups)) in *. set (ci := comp (groups_pids groups)) in *.
  cbn [ls_record ls_cs ls_ct ls_cc ls_ci ls_tstats ls_sstat ls_groups].
  assert (stream dec cs sstat) as S1 by apply Hcomp.
  assert (stream dec ct (List.concat tstats)) as S2 by apply Hcomp.
  assert (stream dec cc (groups_data groups)) as S3 by apply Hcomp.
  assert (stream dec ci (groups_pids groups)) as S4 by apply Hcomp.
  unfold make_record. destruct (vs_cstat vs) as [n|] eqn:Ec.
  - specialize (Z2 eq_refl). set (tail := zeros (vs_rec vs - 88)).
    assert (zlen tail = vs_rec vs - 88) as Lt by (unfold tail; rewrite zlen_zeros; lia).
    fold cc ci. repeat match goal with |- _ /\ _ => split end; auto.
    + rewrite !zlen_app, Lt, !le32_len, le16_len, !zlen_zeros. lia.
    + replace (le32 time ++ zeros 6 ++ le16 (zlen groups) ++ zeros 4 ++ le32 (zlen cs) ++
         le32 (zlen ct) ++ le32 10 ++ le32 (zlen tstats) ++ zeros 40 ++ le32 (zlen cc) ++ zeros 8 ++ le32 (zlen ci) ++ tail)
        with ((le32 time ++ zeros 6 ++ le16 (zlen groups) ++ zeros 4) ++ le32 (zlen cs) ++
         le32 (zlen ct) ++ le32 10 ++ le32 (zlen tstats) ++ zeros 40 ++ le32 (zlen cc) ++ zeros 8 ++ le32 (zlen ci) ++ tail)
        by (rewrite <- !app_assoc; reflexivity). apply u32_at_mid; [reflexivity|lia].
    + replace (le32 time ++ zeros 6 ++ le16 (zlen groups) ++ zeros 4 ++ le32 (zlen cs) ++
         le32 (zlen ct) ++ le32 10 ++ le32 (zlen tstats) ++ zeros 40 ++ le32 (zlen cc) ++ zeros 8 ++ le32 (zlen ci) ++ tail)
        with ((le32 time ++ zeros 6 ++ le16 (zlen groups) ++ zeros 4 ++ le32 (zlen cs)) ++
         le32 (zlen ct) ++ le32 10 ++ le32 (zlen tstats) ++ zeros 40 ++ le32 (zlen cc) ++ zeros 8 ++ le32 (zlen ci) ++ tail)
        by (rewrite <- !app_assoc; reflexivity). apply u32_at_mid; [reflexivity|lia].
    + replace (le32 time ++ zeros 6 ++ le16 (zlen groups) ++ zeros 4 ++ le32 (zlen cs) ++
         le32 (zlen ct) ++ le32 10 ++ le32 (zlen tstats) ++ zeros 40 ++ le32 (zlen cc) ++ zeros 8 ++ le32 (zlen ci) ++ tail)
        with ((le32 time ++ zeros 6 ++ le16 (zlen groups) ++ zeros 4 ++ le32 (zlen cs) ++
         le32 (zlen ct) ++ le32 10) ++ le32 (zlen tstats) ++ zeros 40 ++ le32 (zlen cc) ++ zeros 8 ++ le32 (zlen ci) ++ tail)
        by (rewrite <- !app_assoc; reflexivity). apply u32_at_mid; [reflexivity|lia].
    + replace (le32 time ++ zeros 6 ++ le16 (zlen groups) ++ zeros 4 ++ le32 (zlen cs) ++
         le32 (zlen ct) ++ le32 10 ++ le32 (zlen tstats) ++ zeros 40 ++ le32 (zlen cc) ++ zeros 8 ++ le32 (zlen ci) ++ tail)
        with ((le32 time ++ zeros 6) ++ le16 (zlen groups) ++ zeros 4 ++ le32 (zlen cs) ++
         le32 (zlen ct) ++ le32 10 ++ le32 (zlen tstats) ++ zeros 40 ++ le32 (zlen cc) ++ zeros 8 ++ le32 (zlen ci) ++ tail)
        by (rewrite <- !app_assoc; reflexivity). apply u16_at_mid; [reflexivity|lia].
    + replace (le32 time ++ zeros 6 ++ le16 (zlen groups) ++ zeros 4 ++ le32 (zlen cs) ++
         le32 (zlen ct) ++ le32 10 ++ le32 (zlen tstats) ++ zeros 40 ++ le32 (zlen cc) ++ zeros 8 ++ le32 (zlen ci) ++ tail)
        with ((le32 time ++ zeros 6 ++ le16 (zlen groups) ++ zeros 4 ++ le32 (zlen cs) ++
         le32 (zlen ct) ++ le32 10 ++ le32 (zlen tstats) ++ zeros 40) ++ le32 (zlen cc) ++ zeros 8 ++ le32 (zlen ci) ++ tail)
        by (rewrite <- !app_assoc; reflexivity). apply u32_at_mid; [reflexivity|lia].
    + replace (le32 time ++ zeros 6 ++ le16 (zlen groups) ++ zeros 4 ++ le32 (zlen cs) ++
         le32 (zlen ct) ++ le32 10 ++ le32 (zlen tstats) ++ zeros 40 ++ le32 (zlen cc) ++ zeros 8 ++ le32 (zlen ci) ++ tail)
        with ((le32 time ++ zeros 6 ++ le16 (zlen groups) ++ zeros 4 ++ le32 (zlen cs) ++
         le32 (zlen ct) ++ le32 10 ++ le32 (zlen tstats) ++ zeros 40 ++ le32 (zlen cc) ++ zeros 8) ++ le32 (zlen ci) ++ tail)
        by (rewrite <- !app_assoc; reflexivity). apply u32_at_mid; [reflexivity|lia].
  - set (tail := zeros (vs_rec vs - 72)).
    assert (zlen tail = vs_rec vs - 72) as Lt by (unfold tail; rewrite zlen_zeros; lia).
    change (zlen (@nil lgroup)) with 0. change (zlen (@nil byte)) with 0. repeat match goal with |- _ /\ _ => split end; auto.
    + rewrite !zlen_app, Lt, !le32_len, le16_len, !zlen_zeros. lia.
    + replace (le32 time ++ zeros 6 ++ le16 0 ++ zeros 4 ++ le32 (zlen cs) ++
         le32 (zlen ct) ++ le32 10 ++ le32 (zlen tstats) ++ zeros 40 ++ tail)
        with ((le32 time ++ zeros 6 ++ le16 0 ++ zeros 4) ++ le32 (zlen cs) ++
         le32 (zlen ct) ++ le32 10 ++ le32 (zlen tstats) ++ zeros 40 ++ tail)
        by (rewrite <- !app_assoc; reflexivity). apply u32_at_mid; [reflexivity|lia].
    + replace (le32 time ++ zeros 6 ++ le16 0 ++ zeros 4 ++ le32 (zlen cs) ++
         le32 (zlen ct) ++ le32 10 ++ le32 (zlen tstats) ++ zeros 40 ++ tail)
        with ((le32 time ++ zeros 6 ++ le16 0 ++ zeros 4 ++ le32 (zlen cs)) ++
         le32 (zlen ct) ++ le32 10 ++ le32 (zlen tstats) ++ zeros 40 ++ tail)
        by (rewrite <- !app_assoc; reflexivity). apply u32_at_mid; [reflexivity|lia].
    + replace (le32 time ++ zeros 6 ++ le16 0 ++ zeros 4 ++ le32 (zlen cs) ++
         le32 (zlen ct) ++ le32 10 ++ le32 (zlen tstats) ++ zeros 40 ++ tail)
        with ((le32 time ++ zeros 6 ++ le16 0 ++ zeros 4 ++ le32 (zlen cs) ++
         le32 (zlen ct) ++ le32 10) ++ le32 (zlen tstats) ++ zeros 40 ++ tail)
        by (rewrite <- !app_assoc; reflexivity). apply u32_at_mid; [reflexivity|lia].
Qed.

End Writer.

(** ** Concrete logs, with the real decompressor *)

Lemma zlen_store_blocks k l : (List.length l <= k)%nat -> zlen (store_blocks k l) <= 5 + zlen l + 5 * (zlen l / 65535) .
Proof.
  revert l. induction k as [|k IH]; intros l H; cbn [store_blocks].
  - destruct l; [|cbn in H; lia]. vm_compute. discriminate.
  - pose proof (zlen_nonneg l). destruct (Z.leb_spec (zlen l) 65535) as [L|L].
    + assert (zlen (store_block true l) = 5 + zlen l) as ->.
      { unfold store_block. rewrite zlen_cons, !zlen_app. change (zlen (le2 (zlen l))) with 2.
        change (zlen (le2 (65535 - zlen l))) with 2. lia. }
      pose proof (Z.div_pos (zlen l) 65535). lia.
    + rewrite zlen_app. assert (zlen (store_block false (ztake 65535 l)) = 65540) as ->.
      { unfold store_block. rewrite zlen_cons, !zlen_app. 
        assert (forall z, zlen (le2 z) = 2) as K by reflexivity. rewrite !K, zlen_ztake. lia. }
      specialize (IH (zdrop 65535 l)). rewrite zlen_zdrop in IH.
      replace (Z.max 0 (zlen l - Z.max 0 65535)) with (zlen l - 65535) in IH by lia.
      assert ((zlen l - 65535) / 65535 = zlen l / 65535 - 1) as E.
      { replace (zlen l - 65535) with (zlen l + (-1) * 65535) by lia. rewrite Z.div_add by lia. lia. }
      rewrite E in IH.
      assert (zlen (store_blocks k (zdrop 65535 l)) <= 5 + (zlen l - 65535) + 5 * (zlen l / 65535 - 1)); [|lia].
      apply IH. unfold zdrop. rewrite skipn_length. unfold zlen in L. lia.
Qed.

Lemma zstore_fits l : zlen l < 4000000000 -> fits zstore l.
Proof.
  intros H. pose proof (zlen_nonneg l). unfold fits, zstore. rewrite !zlen_app. change (zlen (be4 (adler32 l))) with 4.
  change (zlen [byte_of 120; byte_of 1]) with 2. pose proof (zlen_store_blocks (List.length l) l (le_n _)).
  assert (zlen l / 65535 <= zlen l / 100) by (apply Z.div_le_compat_l; lia).
  assert (100 * (zlen l / 100) <= zlen l) by (apply Z.mul_div_le; lia).
  lia.
Qed.

(** For every version and number [n], a log of [n] samples, each with two tasks and (for 2.11+)
    two cgroups with names of different lengths and 2 and 0 pids. *)
Definition example_task (vs : vspec) : list byte := le32 4711 ++ zeros (vs_tstat vs - 4).
Definition example_group (n : Z) (name : list byte) (pids : list Z) : lgroup :=
  mkLG (le32 (n + zlen name) ++ zeros 12 ++ le32 (zlen pids) ++ zeros (n - 20)) name pids.
Definition example_sample (vs : vspec) (time : Z) : lsample :=
  make_sample zstore vs time (le32 77 ++ zeros (vs_sstat vs - 4)) [example_task vs; example_task vs]
    [example_group 432 [x61; x62; x00] [1; -5]; example_group 432 [x63; x00] []].
Definition example_log (vs : vspec) (n : nat) : list lsample :=
  map (fun i => example_sample vs (Z.of_nat i mod 4294967296)) (seq 0 n).

Lemma example_group_wf name pids : zlen name < 1000 -> zlen pids < 1000 ->
  Forall (fun p => -2147483648 <= p < 2147483648) pids -> wf_group 432 (example_group 432 name pids).
Proof.
  intros H1 H2 H3. pose proof (zlen_nonneg name). pose proof (zlen_nonneg pids).
  unfold wf_group, example_group. cbn [lg_cstat lg_name lg_pids]. split; [reflexivity|]. split; [|split; [|exact H3]].
  - unfold i32_at. rewrite <- (app_nil_l (le32 _ ++ _)). rewrite (u32_at_mid []) by (reflexivity || lia).
    replace (432 + zlen name <? 2147483648) with true by lia. reflexivity.
  - unfold i32_at. replace (le32 (432 + zlen name) ++ zeros 12 ++ le32 (zlen pids) ++ zeros (432 - 20))
      with ((le32 (432 + zlen name) ++ zeros 12) ++ le32 (zlen pids) ++ zeros (432 - 20)) by (rewrite <- app_assoc; reflexivity).
    rewrite u32_at_mid by (reflexivity || lia). replace (zlen pids <? 2147483648) with true by lia. reflexivity.
Qed.

Theorem example_log_wf vs n : In vs spec_versions -> wf_log zdecompress vs (make_header vs) (example_log vs n).
Proof.
  intros Hvs. split; [exact Hvs|]. split; [apply make_header_ok, Hvs|].
  assert (4 <= vs_sstat vs < 2000000 /\ 4 <= vs_tstat vs < 2000 /\ forall n, vs_cstat vs = Some n -> n = 432) as (B1 & B2 & B3).
  { clear - Hvs. repeat (destruct Hvs as [<- | Hvs]; [cbn; repeat split; try lia; intros n X; try discriminate X; injection X as <-; reflexivity|]).
    destruct Hvs. }
  unfold example_log. apply Forall_forall. intros s Hs. apply in_map_iff in Hs. destruct Hs as (i & <- & _).
  assert (zlen (example_task vs) = vs_tstat vs) as Et.
  { unfold example_task. rewrite zlen_app, zlen_zeros. change (zlen (le32 4711)) with 4. lia. }
  assert (zlen (le32 77 ++ zeros (vs_sstat vs - 4)) = vs_sstat vs) as Es.
  { rewrite zlen_app, zlen_zeros. change (zlen (le32 77)) with 4. lia. }
  apply make_sample_wf.
  - exact zstore_stream.
  - exact Hvs.
  - apply Z.mod_pos_bound. lia.
  - exact Es.
  - repeat constructor; exact Et.
  - reflexivity.
  - reflexivity.
  - intros m Em. rewrite (B3 _ Em).
    constructor; [|constructor; [|constructor]]; apply example_group_wf; try reflexivity; [|constructor].
    constructor; [lia|]. constructor; [lia|constructor].
  - apply zstore_fits. rewrite Es. lia.
  - apply zstore_fits. cbn [List.concat]. rewrite !zlen_app, Et, zlen_nil. lia.
  - apply zstore_fits. reflexivity.
  - apply zstore_fits. reflexivity.
Qed.

Lemma example_log_len vs n : zlen (example_log vs n) = Z.of_nat n.
Proof. unfold example_log. rewrite zlen_map. unfold zlen. rewrite seq_length. reflexivity. Qed.
