(** * Parseable rows of Atop 1.26 logs (C31-C35)

    [hb], [rb], [sb], [tb] are the bytes of the header, the record, the system statistics and
    a process entry; every sample read from a 1.26 log consists of such structs of full size
    (C21_no_partial_structs and [rows_apply] below). *)
From Coq Require Import List ZArith Lia Bool String.
From Coq Require Import Init.Byte.
From Verif Require Import PyBase Utf8 CTypes S_shared S_1_26 Model Parsers.
From Verif Require Import Spec SpecLog SpecRows BaseProofs LayoutProofs RepProofs Utf8Proofs ParserProofs SizedProofs.
Import ListNotations.
Local Open Scope string_scope.
Local Open Scope Z_scope.

Definition h126 (hb : list byte) : hobj := mkHdr a1_26_class hb.
Definition r126 (rb : list byte) : cobj := mkObj a1_26_Record rb.
Definition s126 (sb : list byte) : cobj := mkObj a1_26_SStat sb.
Definition t126 (tb : list byte) : cobj := mkObj a1_26_PStat tb.

(** Whatever is read with a 1.26 header has this form. *)
Theorem rows_apply dec h f0 f0' check strict max_samples f ss e f' :
  get_header check f0 = (Ok h, f0') -> h_class h = a1_26_class ->
  run dec (Some h) strict max_samples f = (ss, e, f') ->
  (exists hb, zlen hb = 480 /\ h = h126 hb) /\
  Forall (fun s => exists rb sb tbs,
    zlen rb = 80 /\ zlen sb = 88368 /\ Forall (fun t => zlen t = 616) tbs /\
    s_record s = r126 rb /\ s_sstat s = s126 sb /\ s_tstats s = map t126 tbs) ss.
Proof.
  intros Hh Hc R. destruct (get_header_class _ _ _ _ Hh) as [Hv Lh]. split.
  - exists (h_buf h). split; [exact Lh|]. destruct h as [c b]. cbn in Hc. subst c. reflexivity.
  - pose proof (run_sized dec h strict max_samples f ss e f' Hv R) as S. eapply Forall_impl; [|exact S].
    rewrite Hc. clear. intros [r s ts cg] ([R1 R2] & [S1 S2] & T & _). cbn [s_record s_sstat s_tstats] in *.
    exists (o_buf r), (o_buf s), (map o_buf ts).
    split; [exact R2|]. split; [exact S2|].
    assert (Forall (fun t => zlen t = 616) (map o_buf ts) /\ ts = map t126 (map o_buf ts)) as [T1 T2].
    { clear -T. induction T as [|t ts [T1 T2] _ [IH1 IH2]]; [split; [constructor|reflexivity]|].
      split; [constructor; [exact T2|exact IH1]|]. cbn [map]. rewrite <- IH2. f_equal.
      destruct t as [ty b]. cbn in T1. subst ty. reflexivity. }
    split; [exact T1|]. destruct r as [rt rb'], s as [st sb']. cbn in R1, S1. subst. repeat split. exact T2.
Qed.

Ltac start :=
  unfold h126, r126, s126, t126;
  repeat match goal with
  | |- context [h_obj (mkHdr a1_26_class ?hb)] =>
      change (h_obj (mkHdr a1_26_class hb)) with (mkObj a1_26_Header hb)
  end.

(** ** C34: the parseables with one row *)

Section Single.
Variables (hb rb sb : list byte) (ts : list cobj).

Theorem C34_CPL : parse_CPL (h126 hb) (r126 rb) (s126 sb) ts = ([load_row rb sb], None).
Proof. unfold parse_CPL. start. repeat jstep. reflexivity. Qed.

Theorem C34_CPU : parse_CPU (h126 hb) (r126 rb) (s126 sb) ts = ([cpu_row hb rb sb], None).
Proof. unfold parse_CPU. start. repeat jstep. reflexivity. Qed.

Theorem C34_MEM : parse_MEM (h126 hb) (r126 rb) (s126 sb) ts = ([mem_row hb rb sb], None).
Proof. unfold parse_MEM. start. repeat jstep. reflexivity. Qed.

Theorem C34_SWP : parse_SWP (h126 hb) (r126 rb) (s126 sb) ts = ([swap_row hb rb sb], None).
Proof. unfold parse_SWP. start. repeat jstep. reflexivity. Qed.

Theorem C34_PAG : parse_PAG (h126 hb) (r126 rb) (s126 sb) ts = ([paging_row hb rb sb], None).
Proof. unfold parse_PAG. start. repeat jstep. reflexivity. Qed.

Theorem C34_NETU : parse_NETU (h126 hb) (r126 rb) (s126 sb) ts = ([net_row rb sb], None).
Proof. unfold parse_NETU. start. repeat jstep. reflexivity. Qed.

(** ** C31 *)

Definition core_rows : list row :=
  map (fun i => core_row hb rb (nth i (core_slots sb) []) (Z.of_nat i))
      (seq 0 (Z.to_nat (Z.min (cores sb) 64))).

Lemma cpu_loop body l : forall i,
  (forall j x, In x l -> body (j, mkObj a1_26_PerCPU x) =
     if cores sb <=? j then Ok None else Ok (Some (core_row hb rb x j))) ->
  gen_loop body (enumerate_from (Z.of_nat i) (map (mkObj a1_26_PerCPU) l)) =
  (map (fun k => core_row hb rb (nth (k - i) l []) (Z.of_nat k))
       (seq i (Z.to_nat (Z.min (cores sb - Z.of_nat i) (zlen l)))), None).
Proof.
  induction l as [|x l IH]; intros i H; cbn [map enumerate_from gen_loop].
  - change (zlen (@nil (list byte))) with 0.
    replace (Z.to_nat (Z.min (cores sb - Z.of_nat i) 0)) with O by lia. reflexivity.
  - rewrite H by (left; reflexivity). rewrite zlen_cons. pose proof (zlen_nonneg l).
    destruct (Z.leb_spec (cores sb) (Z.of_nat i)) as [L|L].
    + replace (Z.to_nat _) with O by lia. reflexivity.
    + replace (Z.of_nat i + 1) with (Z.of_nat (S i)) by lia.
      rewrite IH by (intros; apply H; right; assumption).
      replace (Z.to_nat (Z.min (cores sb - Z.of_nat i) (1 + zlen l)))
        with (S (Z.to_nat (Z.min (cores sb - Z.of_nat (S i)) (zlen l)))) by lia.
      cbn [seq map]. rewrite Nat.sub_diag. cbn [nth].
      f_equal. f_equal. apply map_ext_in. intros k Hk. apply in_seq in Hk.
      replace (k - i)%nat with (S (k - S i)) by lia. reflexivity.
Qed.

Theorem C31_core_rows :
  parse_cpu (h126 hb) (r126 rb) (s126 sb) ts = (core_rows, None).
Proof.
  unfold parse_cpu. start.
  rewrite (struct_items_at a1_26_SStat sb ["cpu"; "cpu"] 192 _ _ _ 64) by (lia || (vm_compute; reflexivity) || (vm_compute; discriminate)).
  cbn [rbind gen_for].
  change (sizeof _) with 112. fold (core_slots sb).
  change 0 with (Z.of_nat 0) at 1.
  rewrite cpu_loop.
  - unfold core_rows. rewrite Z.sub_0_r. f_equal.
    assert (zlen (core_slots sb) = 64) as -> by reflexivity.
    apply map_ext. intros k. rewrite Nat.sub_0_r. reflexivity.
  - intros j x _. cbn beta iota. repeat jstep. cbn [rbind]. unfold cores.
    destruct (i64_at sb 0 <=? j); reflexivity.
Qed.

(** How many rows, and which. *)
Theorem C31_count_and_order rows e :
  parse_cpu (h126 hb) (r126 rb) (s126 sb) ts = (rows, e) ->
  e = None /\ zlen rows = Z.max 0 (Z.min (i64_at sb 0) 64) /\
  forall i, 0 <= i < zlen rows ->
    nth_error rows (Z.to_nat i) = Some (core_row hb rb (piece sb (192 + 112 * i) 112) i).
Proof.
  rewrite C31_core_rows. intros E. assert (rows = core_rows) as -> by congruence. assert (e = None) as -> by congruence.
  split; [reflexivity|].
  assert (@zlen row core_rows = Z.max 0 (Z.min (i64_at sb 0) 64)) as L.
  { unfold core_rows, zlen, cores. rewrite map_length, seq_length. lia. }
  split; [exact L|]. rewrite L. intros i Hi.
  unfold core_rows. rewrite nth_error_map, (nth_error_nth' _ O) by (rewrite seq_length; unfold cores; lia).
  rewrite seq_nth by (unfold cores; lia). cbn [option_map Nat.add]. rewrite Z2Nat.id by lia.
  f_equal. f_equal. unfold core_slots, slots.
  rewrite (nth_indep _ [] (piece sb (192 + 112 * Z.of_nat 0) 112)) by (rewrite map_length, seq_length; lia).
  rewrite (map_nth (fun i => piece sb (192 + 112 * Z.of_nat i) 112)).
  rewrite seq_nth by lia. cbn [Nat.add]. rewrite Z2Nat.id by lia. reflexivity.
Qed.
End Single.

(** ** C32: devices *)

Section Devices.
Variables (hb rb sb : list byte) (ts : list cobj).

Lemma disk_body slot :
  (unused slot /\ disk_row (r126 rb) (mkObj a1_26_PerDSK slot) = Ok None) \/
  (device_bad 32 slot /\ disk_row (r126 rb) (mkObj a1_26_PerDSK slot) = Raise UnicodeDecodeError) \/
  (exists v, device_ok 32 (disk_spec rb) slot v /\ disk_row (r126 rb) (mkObj a1_26_PerDSK slot) = Ok (Some v)).
Proof.
  unfold disk_row. start. unfold jdecode. repeat jstep. cbn [rbind].
  pose proof (name_empty slot 32 ltac:(lia)) as N.
  destruct (until_nul (piece slot 0 32)) as [|c q] eqn:Eu.
  - left. split; [apply N; reflexivity|reflexivity].
  - right. assert (~ unused slot) as Hu by (intros U; apply N in U; discriminate U).
    destruct (decode_field (piece slot 0 32)) as [(t & Ht & E)|[Hno E]]; rewrite Eu in E; rewrite E.
    + right. exists (disk_spec rb slot t). split; [split; [exact Hu|exists t; auto]|reflexivity].
    + left. split; [split; [exact Hu|exact Hno]|reflexivity].
Qed.

(** The rows of an array of disks. *)
Definition disk_rows (l : list (list byte)) := rows_spec unused (device_ok 32 (disk_spec rb)) (device_bad 32) l.

Theorem C32_DSK : disk_rows (disk_slots sb) (parse_DSK (h126 hb) (r126 rb) (s126 sb) ts).
Proof.
  unfold parse_DSK, s126.
  rewrite (struct_items_at a1_26_SStat sb ["dsk"; "dsk"] 16656 _ _ _ 256) by (lia || (vm_compute; reflexivity) || (vm_compute; discriminate)).
  cbn [gen_for]. change (sizeof _) with 112. apply gen_loop_spec. intros x _. apply disk_body.
Qed.

Theorem C32_LVM : disk_rows (lvm_slots sb) (parse_LVM (h126 hb) (r126 rb) (s126 sb) ts).
Proof.
  unfold parse_LVM, s126.
  rewrite (struct_items_at a1_26_SStat sb ["dsk"; "lvm"] 59664 _ _ _ 256) by (lia || (vm_compute; reflexivity) || (vm_compute; discriminate)).
  cbn [gen_for]. change (sizeof _) with 112. apply gen_loop_spec. intros x _. apply disk_body.
Qed.

Theorem C32_MDD : disk_rows (mdd_slots sb) (parse_MDD (h126 hb) (r126 rb) (s126 sb) ts).
Proof.
  unfold parse_MDD, s126.
  rewrite (struct_items_at a1_26_SStat sb ["dsk"; "mdd"] 45328 _ _ _ 128) by (lia || (vm_compute; reflexivity) || (vm_compute; discriminate)).
  cbn [gen_for]. change (sizeof _) with 112. apply gen_loop_spec. intros x _. apply disk_body.
Qed.

Definition intf_rows (l : list (list byte)) := rows_spec unused (device_ok 16 (intf_spec rb)) (device_bad 16) l.

Theorem C32_NETL : zlen sb = 88368 -> intf_rows (intf_slots sb) (parse_NETL (h126 hb) (r126 rb) (s126 sb) ts).
Proof.
  intros L. unfold parse_NETL, s126.
  rewrite (struct_items_at a1_26_SStat sb ["intf"; "intf"] 8448 _ _ _ 32) by (lia || (vm_compute; reflexivity) || (vm_compute; discriminate)).
  cbn [gen_for]. change (sizeof _) with 256. fold (intf_slots sb). apply gen_loop_spec. intros slot Hin.
  apply slots_len in Hin; [|lia|lia|lia].
  fold a1_26_PerIntf. start. unfold jdecode. repeat jstep. cbn [rbind].
  pose proof (name_empty slot 16 ltac:(lia)) as N.
  destruct (until_nul (piece slot 0 16)) as [|c q] eqn:Eu.
  - left. split; [apply N; reflexivity|reflexivity].
  - right. assert (~ unused slot) as Hu by (intros U; apply N in U; discriminate U).
    destruct (decode_field (piece slot 0 16)) as [(t & Ht & E)|[Hno E]]; rewrite Eu in E; rewrite E.
    + right. exists (intf_spec rb slot t). split; [split; [exact Hu|exists t; auto]|].
      destruct (piece1 slot 216 ltac:(lia)) as (d & Ed & Vd). rewrite Ed.
      assert (be_uint [d] = at8 slot 216) as -> by (unfold be_uint; cbn [fold_left]; lia). reflexivity.
    + left. split; [split; [exact Hu|exact Hno]|reflexivity].
Qed.
End Devices.

(** ** C33: processes *)

Section Tasks.
Variables (hb rb sb : list byte).

Lemma jflag_at n mask : mask = 2 ^ n -> 0 <= n ->
  jflag (h126 hb) mask = Ok (flag_of hb n).
Proof.
  intros -> Hn. unfold jflag. start.
  rewrite (getint_field _ _ _ 440 true 4) by (vm_compute; reflexivity).
  rewrite int_at_i32 by lia. cbn [rbind]. unfold flag_of. f_equal.
  assert (Z.land (i32_at hb 440) (2 ^ n) =? 0 = negb (Z.testbit (i32_at hb 440) n)) as ->.
  { destruct (Z.testbit (i32_at hb 440) n) eqn:E; cbn [negb].
    - apply Z.eqb_neq. intros H. apply (f_equal (fun x => Z.testbit x n)) in H.
      rewrite Z.land_spec, E, Z.pow2_bits_true, Z.bits_0 in H by lia. discriminate H.
    - apply Z.eqb_eq. apply Z.bits_inj'. intros m Hm. rewrite Z.land_spec, Z.bits_0.
      destruct (Z.eqb_spec n m) as [->|Hne]; [rewrite E; reflexivity|].
      rewrite Z.pow2_bits_false by lia. apply andb_false_r. }
  destruct (Z.testbit (i32_at hb 440) n); reflexivity.
Qed.

Ltac task_rows :=
  apply gen_loop_spec; intros tb Hin;
  repeat (rewrite (jflag_at 1 a1_26_PATCHSTAT eq_refl) by lia);
  repeat (rewrite (jflag_at 2 a1_26_IOSTAT eq_refl) by lia);
  start; unfold jdecode;
  repeat jstep; cbn [rbind];
  match goal with H : Forall _ _ |- _ => rewrite Forall_forall in H; specialize (H _ Hin) end;
  right;
  destruct (decode_field (piece tb 44 16)) as [(name & Hname & E)|[Hno E]]; rewrite E;
  [|left; split; [unfold task_cmd_bad, task_bad; tauto|reflexivity]];
  destruct (decode_state tb 60 ltac:(lia)) as [[Hst E2]|[Hst E2]]; rewrite E2;
  [|left; split; [unfold task_cmd_bad, task_bad; tauto|reflexivity]].

Definition task_rows_are spec l := rows_spec never (task_ok spec) task_bad l.

Theorem C33_PRC tbs : Forall (fun t => zlen t = 616) tbs ->
  task_rows_are (prc_spec hb rb) tbs (parse_PRC (h126 hb) (r126 rb) (s126 sb) (map t126 tbs)).
Proof.
  intros L. unfold parse_PRC, gen_tasks, gen_for. task_rows.
  right. exists (prc_spec hb rb tb name). split; [split; [exact Hst|exists name; auto]|reflexivity].
Qed.

Theorem C33_PRD tbs : Forall (fun t => zlen t = 616) tbs ->
  task_rows_are (prd_spec hb rb) tbs (parse_PRD (h126 hb) (r126 rb) (s126 sb) (map t126 tbs)).
Proof.
  intros L. unfold parse_PRD, gen_tasks, gen_for. task_rows.
  right. exists (prd_spec hb rb tb name). split; [split; [exact Hst|exists name; auto]|reflexivity].
Qed.

Theorem C33_PRM tbs : Forall (fun t => zlen t = 616) tbs ->
  task_rows_are (prm_spec hb rb) tbs (parse_PRM (h126 hb) (r126 rb) (s126 sb) (map t126 tbs)).
Proof.
  intros L. unfold parse_PRM, gen_tasks, gen_for. task_rows.
  right. exists (prm_spec hb rb tb name). split; [split; [exact Hst|exists name; auto]|reflexivity].
Qed.

Theorem C33_PRN tbs : Forall (fun t => zlen t = 616) tbs ->
  task_rows_are (prn_spec hb rb) tbs (parse_PRN (h126 hb) (r126 rb) (s126 sb) (map t126 tbs)).
Proof.
  intros L. unfold parse_PRN, gen_tasks, gen_for. task_rows.
  right. exists (prn_spec hb rb tb name). split; [split; [exact Hst|exists name; auto]|reflexivity].
Qed.

Theorem C33_PRG tbs : Forall (fun t => zlen t = 616) tbs ->
  rows_spec never (task_cmd_ok (prg_spec hb rb)) task_cmd_bad tbs
    (parse_PRG (h126 hb) (r126 rb) (s126 sb) (map t126 tbs)).
Proof.
  intros L. unfold parse_PRG, gen_tasks, gen_for. task_rows.
  destruct (decode_field (piece tb 88 151)) as [(cmd & Hcmd & E3)|[Hno E3]]; rewrite E3.
  - right. exists (prg_spec hb rb tb name cmd).
    split; [split; [exact Hst|exists name, cmd; auto]|reflexivity].
  - left. split; [unfold task_cmd_bad; tauto|reflexivity].
Qed.
End Tasks.

(** ** The specification determines the output, and C35 *)

Lemma c_string_unique a b f : c_string a f -> c_string b f -> a = b.
Proof. intros Ha Hb. rewrite <- (c_string_until_nul _ _ Ha). exact (c_string_until_nul _ _ Hb). Qed.

Lemma holds_text_unique a b f : holds_text a f -> holds_text b f -> a = b.
Proof.
  intros [A1 A2] [B1 B2]. pose proof (c_string_unique _ _ _ A2 B2) as E.
  assert (decode_strict (utf8 a) = Ok a) as Da by (apply decode_strict_spec; auto).
  assert (decode_strict (utf8 b) = Ok b) as Db by (apply decode_strict_spec; auto).
  rewrite E in Da. congruence.
Qed.

Lemma rows_spec_unique {A} (stop : A -> Prop) (ok : A -> list (string * json) -> Prop) (bad : A -> Prop) :
  (forall x v w, ok x v -> ok x w -> v = w) ->
  (forall x v, ok x v -> ~ stop x /\ ~ bad x) -> (forall x, stop x -> ~ bad x) ->
  forall l o o', rows_spec stop ok bad l o -> rows_spec stop ok bad l o' -> o = o'.
Proof.
  intros Hf Ho Hs l. induction l as [|x l IH]; intros o o' H H'; inversion H; inversion H'; subst; try reflexivity;
    try (match goal with K : ok x ?v |- _ => destruct (Ho _ _ K); contradiction end);
    try (exfalso; eapply Hs; eassumption).
  match goal with K : ok x ?v, K' : ok x ?w |- _ => rewrite (Hf _ _ _ K K') end.
  match goal with K : rows_spec _ _ _ l (?a, ?b), K' : rows_spec _ _ _ l (?c, ?d) |- _ =>
    pose proof (IH _ _ K K') as E; injection E as -> -> end.
  reflexivity.
Qed.

Theorem C32_spec_determines_rows n spec l o o' :
  rows_spec unused (device_ok n spec) (device_bad n) l o ->
  rows_spec unused (device_ok n spec) (device_bad n) l o' -> o = o'.
Proof.
  apply rows_spec_unique.
  - intros x v w (_ & a & Ha & ->) (_ & b & Hb & ->). rewrite (holds_text_unique _ _ _ Ha Hb). reflexivity.
  - intros x v (U & a & Ha & _). split; [exact U|]. intros [_ N]. exact (N a Ha).
  - intros x U [N _]. contradiction.
Qed.

Theorem C33_spec_determines_rows spec l o o' :
  rows_spec never (task_ok spec) task_bad l o -> rows_spec never (task_ok spec) task_bad l o' -> o = o'.
Proof.
  apply rows_spec_unique.
  - intros x v w (_ & a & Ha & ->) (_ & b & Hb & ->). rewrite (holds_text_unique _ _ _ Ha Hb). reflexivity.
  - intros x v (U & a & Ha & _). split; [exact id|]. intros [N|N]; [lia|exact (N a Ha)].
  - intros x [].
Qed.

Theorem C33_spec_determines_cmd_rows spec l o o' :
  rows_spec never (task_cmd_ok spec) task_cmd_bad l o -> rows_spec never (task_cmd_ok spec) task_cmd_bad l o' ->
  o = o'.
Proof.
  apply rows_spec_unique.
  - intros x v w (_ & a & a' & Ha & Ha' & ->) (_ & b & b' & Hb & Hb' & ->).
    rewrite (holds_text_unique _ _ _ Ha Hb), (holds_text_unique _ _ _ Ha' Hb'). reflexivity.
  - intros x v (U & a & a' & Ha & Ha' & _). split; [exact id|].
    intros [[N|N]|N]; [lia|exact (N a Ha)|exact (N a' Ha')].
  - intros x [].
Qed.

Lemma Forall2_weaken {A B} (P Q : A -> B -> Prop) l m :
  (forall x y, P x y -> Q x y) -> Forall2 P l m -> Forall2 Q l m.
Proof. intros H F. induction F; constructor; auto. Qed.

(** One row per process when nothing is invalid, and in any case the rows before the first
    invalid one. *)
Lemma rows_spec_all {A} (ok : A -> list (string * json) -> Prop) bad l rows e :
  rows_spec never ok bad l (rows, e) ->
  exists done rest, l = (done ++ rest)%list /\ Forall2 ok done rows /\
    ((e = None /\ rest = []) \/ (e = Some UnicodeDecodeError /\ exists x r, rest = x :: r /\ bad x)).
Proof.
  intros H. remember (rows, e) as o eqn:Eo. revert rows e Eo.
  induction H as [|x l []|x l Hb|x v l vs e' Hok H IH]; intros rows e Eo; injection Eo as <- <-.
  - exists [], []. split; [reflexivity|]. split; [constructor|left; auto].
  - exists [], (x :: l). split; [reflexivity|]. split; [constructor|]. right. split; [reflexivity|]. eauto.
  - destruct (IH _ _ eq_refl) as (d & r & -> & F & C). exists (x :: d), r.
    split; [reflexivity|]. split; [constructor; assumption|exact C].
Qed.

Section C33.
Variables (hb rb sb : list byte) (tbs : list (list byte)).
Hypothesis L : Forall (fun t => zlen t = 616) tbs.

(** Four of the process parseables: function and row. *)
Definition task_parsers :=
  [(parse_PRC, prc_spec hb rb); (parse_PRD, prd_spec hb rb); (parse_PRM, prm_spec hb rb);
   (parse_PRN, prn_spec hb rb)].

Lemma task_parsers_spec f spec : In (f, spec) task_parsers ->
  task_rows_are spec tbs (f (h126 hb) (r126 rb) (s126 sb) (map t126 tbs)).
Proof.
  intros [E|[E|[E|[E|[]]]]]; injection E as <- <-;
    [apply C33_PRC|apply C33_PRD|apply C33_PRM|apply C33_PRN]; exact L.
Qed.

Theorem C33_one_row_per_process f spec : In (f, spec) task_parsers ->
  Forall (fun t => at8 t 60 < 128 /\ exists name, holds_text name (piece t 44 16)) tbs ->
  exists rows, f (h126 hb) (r126 rb) (s126 sb) (map t126 tbs) = (rows, None) /\
    Forall2 (fun t v => exists name, holds_text name (piece t 44 16) /\ v = spec t name) tbs rows.
Proof.
  intros Hin Hv. pose proof (task_parsers_spec f spec Hin) as H.
  destruct (f (h126 hb) (r126 rb) (s126 sb) (map t126 tbs)) as [rows e].
  apply rows_spec_all in H as (d & rest & E & F & [[-> ->]|(-> & x & r & -> & Hb)]).
  - rewrite app_nil_r in E. subst d. exists rows. split; [reflexivity|].
    eapply Forall2_weaken; [|exact F]. intros t v [_ K]. exact K.
  - exfalso. rewrite E in Hv. apply Forall_app in Hv as [_ Hv]. inversion Hv as [|? ? [H1 (nm & H2)] _]; subst.
    destruct Hb as [N|N]; [lia|exact (N _ H2)].
Qed.

Theorem C33_PRG_one_row_per_process :
  Forall (fun t => at8 t 60 < 128 /\ (exists name, holds_text name (piece t 44 16)) /\
                   exists cmd, holds_text cmd (piece t 88 151)) tbs ->
  exists rows, parse_PRG (h126 hb) (r126 rb) (s126 sb) (map t126 tbs) = (rows, None) /\
    Forall2 (fun t v => exists name cmd, holds_text name (piece t 44 16) /\ holds_text cmd (piece t 88 151) /\
                                         v = prg_spec hb rb t name cmd) tbs rows.
Proof.
  intros Hv. pose proof (C33_PRG hb rb sb tbs L) as H.
  destruct (parse_PRG (h126 hb) (r126 rb) (s126 sb) (map t126 tbs)) as [rows e].
  apply rows_spec_all in H as (d & rest & E & F & [[-> ->]|(-> & x & r & -> & Hb)]).
  - rewrite app_nil_r in E. subst d. exists rows. split; [reflexivity|].
    eapply Forall2_weaken; [|exact F]. intros t v [_ K]. exact K.
  - exfalso. rewrite E in Hv. apply Forall_app in Hv as [_ Hv].
    inversion Hv as [|? ? (H1 & (nm & H2) & (cm & H3)) _]; subst.
    destruct Hb as [[N|N]|N]; [lia|exact (N _ H2)|exact (N _ H3)].
Qed.

(** ** C35: failure iff a decoded text is invalid, and the rows before it are produced *)

Theorem C35_process_rows_fail_exactly f spec rows e : In (f, spec) task_parsers ->
  f (h126 hb) (r126 rb) (s126 sb) (map t126 tbs) = (rows, e) ->
  (e = None <-> Forall (fun t => ~ task_bad t) tbs) /\
  (e = None \/ e = Some UnicodeDecodeError) /\
  Forall2 (task_ok spec) (firstn (List.length rows) tbs) rows.
Proof.
  intros Hin E0. pose proof (task_parsers_spec f spec Hin) as H. rewrite E0 in H.
  apply rows_spec_all in H as (d & rest & E & F & C).
  assert (List.length rows = List.length d) as Ld by (clear -F; induction F; cbn; congruence).
  assert (Forall (fun t => ~ task_bad t) d) as Fd.
  { clear -F. induction F as [|t v d rows [K1 (nm & K2 & _)] _ IH]; constructor; [|exact IH].
    intros [N|N]; [lia|exact (N _ K2)]. }
  rewrite Ld, E, firstn_app, Nat.sub_diag, firstn_all, firstn_O, app_nil_r.
  split; [|split; [|exact F]].
  - destruct C as [[-> ->]|(-> & x & r & -> & Hb)]; split; intros K.
    + rewrite app_nil_r. exact Fd.
    + reflexivity.
    + discriminate K.
    + exfalso. apply Forall_app in K as [_ K]. inversion K; subst. contradiction.
  - destruct C as [[-> _]|(-> & _)]; auto.
Qed.
End C33.

(** Devices: rows for the leading slots in use; the visit ends at the first unused slot, or at
    the end of the array, or with the error at the first slot in use whose name is invalid. *)
Theorem C35_device_rows_exact n spec l rows e :
  rows_spec unused (device_ok n spec) (device_bad n) l (rows, e) ->
  exists done rest, l = (done ++ rest)%list /\
    Forall2 (fun slot v => ~ unused slot /\ exists name, holds_text name (piece slot 0 n) /\ v = spec slot name)
            done rows /\
    ((e = None /\ rest = []) \/ (e = None /\ exists x r, rest = x :: r /\ unused x) \/
     (e = Some UnicodeDecodeError /\ exists x r, rest = x :: r /\ ~ unused x /\ no_text (piece x 0 n))).
Proof.
  intros H. remember (rows, e) as o eqn:Eo. revert rows e Eo.
  induction H as [|x l Hs|x l Hb|x v l vs e' Hok H IH]; intros rows e Eo; injection Eo as <- <-.
  - exists [], []. split; [reflexivity|]. split; [constructor|left; auto].
  - exists [], (x :: l). split; [reflexivity|]. split; [constructor|]. right. left. split; [reflexivity|]. eauto.
  - exists [], (x :: l). split; [reflexivity|]. split; [constructor|]. right. right. split; [reflexivity|].
    exists x, l. split; [reflexivity|exact Hb].
  - destruct (IH _ _ eq_refl) as (d & r & -> & F & C). exists (x :: d), r.
    split; [reflexivity|]. split; [constructor; assumption|exact C].
Qed.

(** ** Non-vacuity, and C35 refuted *)


(** A process entry with the given name bytes and state "S". *)
Definition example_task (name : list byte) : list byte :=
  (zeros 44 ++ name ++ zeros (16 - zlen name) ++ ["S"%byte] ++ zeros 555)%list.

(** A disk array whose first slot is "sda" and whose other slots are unused. *)
Definition example_sstat : list byte :=
  (zeros 16656 ++ ["s"; "d"; "a"]%byte ++ zeros (88368 - 16659))%list.

Example C33_example : zlen (example_task ["i"; "n"; "i"; "t"]%byte) = 616 /\
  exists rows, fst (parse_PRC (h126 (zeros 480)) (r126 (zeros 80)) (s126 (zeros 88368))
    [t126 (example_task ["i"; "n"; "i"; "t"]%byte)]) = rows /\ List.length rows = 1%nat.
Proof. split; [vm_compute; reflexivity|]. eexists. split; [reflexivity|]. vm_compute. reflexivity. Qed.

Example C32_example : exists v,
  parse_DSK (h126 (zeros 480)) (r126 (zeros 80)) (s126 example_sstat) [] = ([v], None) /\
  assoc "name" v = Some (JStr [115; 100; 97]).
Proof. eexists. split; [vm_compute; reflexivity|vm_compute; reflexivity]. Qed.

(** A name of 15 bytes that Atop cut in the middle of a two-byte character ("é" is C3 A9):
    fourteen letters and the lone byte C3. *)
Theorem C35_parseables_never_fail_refuted :
  ~ (forall f hb rb sb tbs, In f [parse_PRC; parse_PRD; parse_PRG; parse_PRM; parse_PRN] ->
       zlen hb = 480 -> zlen rb = 80 -> zlen sb = 88368 -> Forall (fun t => zlen t = 616) tbs ->
       snd (f (h126 hb) (r126 rb) (s126 sb) (map t126 tbs)) = None).
Proof.
  intros H.
  specialize (H parse_PRC (zeros 480) (zeros 80) (zeros 88368)
                [example_task (repeat "a"%byte 14 ++ [xc3])%list] ltac:(left; reflexivity)).
  assert (None = Some UnicodeDecodeError) as X; [|discriminate X].
  rewrite <- H at 1; try (vm_compute; reflexivity).
  constructor; [vm_compute; reflexivity|constructor].
Qed.

(** C31: three cores in use: three rows, the last for core 2 with its own counters. *)
Example C31_example :
  let sb := ([x03] ++ zeros 423 ++ [x07] ++ zeros 87943)%list in
  zlen sb = 88368 /\
  exists a b c, parse_cpu (h126 (zeros 480)) (r126 (zeros 80)) (s126 sb) [] = ([a; b; c], None) /\
    assoc "proc" c = Some (JInt 2) /\ assoc "system" c = Some (JInt 7) /\ assoc "system" b = Some (JInt 0).
Proof. cbv zeta. split; [vm_compute; reflexivity|]. do 3 eexists. split; [vm_compute; reflexivity|]. repeat apply conj; vm_compute; reflexivity. Qed.

(** C34: time, interval, clock ticks and the first counter of the CPU row. *)
Example C34_example : exists v,
  parse_CPU (h126 (zeros 14 ++ [x64] ++ zeros 465)%list) (r126 ([x05] ++ zeros 23 ++ [x0a] ++ zeros 55)%list)
    (s126 (zeros 88 ++ [xff; xff; xff; xff; xff; xff; xff; xff] ++ zeros 88272)%list) [] = ([v], None) /\
  assoc "timestamp" v = Some (JInt 5) /\ assoc "interval" v = Some (JInt 10) /\ assoc "ticks" v = Some (JInt 100) /\
  assoc "system" v = Some (JInt (-1)).
Proof. eexists. split; [vm_compute; reflexivity|]. repeat apply conj; vm_compute; reflexivity. Qed.

(** C35: a good process, then one with a name that is not UTF-8: one row, then the exception. *)
Example C35_example : exists v,
  parse_PRC (h126 (zeros 480)) (r126 (zeros 80)) (s126 (zeros 88368))
    (map t126 [example_task ["i"; "n"; "i"; "t"]%byte; example_task ["a"%byte; xc3]; example_task ["b"]%byte]) =
  ([v], Some UnicodeDecodeError).
Proof. eexists. vm_compute. reflexivity. Qed.
