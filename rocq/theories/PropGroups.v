(** * C19, exactly, for any data *)
From Coq Require Import List ZArith Lia Bool String.
From Coq Require Import Init.Byte.
From Verif Require Import PyBase Utf8 CTypes S_shared Model Spec SpecDict SpecLog SpecGroups
  BaseProofs LayoutProofs RepProofs DictProofs TableProofs HeaderProofs GenProofs RunProofs SizedProofs FormatProofs PropHeader PropLog.
Import ListNotations.
Open Scope list_scope.
Open Scope Z_scope.

Lemma position_norm len i : 0 <= len -> position len i (norm_index len i).
Proof.
  intros L. unfold norm_index. destruct (Z.ltb_spec i 0).
  - destruct (Z.le_gt_cases 0 (len + i)).
    + replace (Z.max 0 (i + len)) with (len + i) by lia. now constructor.
    + replace (Z.max 0 (i + len)) with 0 by lia. now constructor.
  - destruct (Z.le_gt_cases i len).
    + replace (Z.min i len) with i by lia. now constructor.
    + replace (Z.min i len) with len by lia. constructor; lia.
Qed.
Lemma position_fun len i p : 0 <= len -> position len i p -> p = norm_index len i.
Proof. intros L P. destruct P as [i I|i I|i I J|i I J]; unfold norm_index; destruct (Z.ltb_spec i 0); lia. Qed.
Lemma norm_range len i : 0 <= len -> 0 <= norm_index len i <= len.
Proof. intros L. unfold norm_index. destruct (Z.ltb_spec i 0); lia. Qed.

Lemma pid_items n b : 0 <= n -> zlen b = 4 * n ->
  zlen (array_items (mkObj (TArr sh_pid_t n) b)) = n /\
  forall i, 0 <= i < n -> nth_error (array_items (mkObj (TArr sh_pid_t n) b)) (Z.to_nat i) = Some (PInt (i32_at b (4 * i))).
Proof.
  intros N L. unfold array_items. cbn [o_type o_buf]. change (sizeof sh_pid_t) with 4. split.
  - rewrite zlen_map, zlen_chunks. lia.
  - intros i I. rewrite nth_error_map, chunks_nth by lia. cbn [option_map]. f_equal.
    rewrite Z2Nat.id by lia. unfold sh_pid_t. cbn [fetch]. f_equal.
    rewrite (Z.mul_comm 4 i). apply int_at_i32. lia.
Qed.

Lemma cstat_loop_exact c ct len dc dp : In c versions -> hc_cstat c = Some ct -> 0 < sizeof ct ->
  forall n a b, 0 <= b <= zlen dp ->
  match cstat_loop ct len dc dp n a b with
  | Ok ks => exists gs, groups_at (sizeof ct) len dc dp a b gs /\ List.length gs = n /\ Forall2 (shows_group ct) gs ks
  | Raise _ => forall gs, groups_at (sizeof ct) len dc dp a b gs -> List.length gs <> n
  end.
Proof.
  intros Hc He Hs. induction n as [|n IH]; intros a b B; cbn [cstat_loop].
  { exists []. split; [constructor|]. split; [reflexivity|constructor]. }
  pose proof (zlen_nonneg dc) as Lc. pose proof (zlen_nonneg dp) as Lp.
  set (pa := norm_index (zlen dc) a). set (pz := norm_index (zlen dc) (a + len)).
  pose proof (norm_range (zlen dc) a Lc) as Ra. pose proof (norm_range (zlen dc) (a + len) Lc) as Rz. fold pa in Ra. fold pz in Rz.
  assert (Sl : zlen (pyslice a (a + len) dc) = Z.max 0 (pz - pa)).
  { unfold pyslice. fold pa pz. rewrite zlen_ztake, zlen_zdrop. lia. }
  unfold from_buffer_copy at 1. rewrite Sl. destruct (Z.ltb_spec (Z.max 0 (pz - pa)) (sizeof ct)) as [Sm|Sm]; cbn [rbind].
  { intros gs G E. destruct G as [|a b pa' pz' rest P1 P2 S]; [discriminate E|].
    apply position_fun in P1; [|lia]. apply position_fun in P2; [|lia]. subst. fold pa pz in S. lia. }
  assert (S1 : sizeof ct <= pz - pa) by lia.
  set (st := sub_bytes pa (sizeof ct) dc).
  assert (Est : ztake (sizeof ct) (pyslice a (a + len) dc) = st).
  { unfold pyslice, st, sub_bytes. fold pa pz. rewrite ztake_ztake. f_equal. lia. }
  rewrite Est.
  destruct (cstat_gen c ct st Hc He) as (g & -> & G1 & G2). cbn [rbind]. rewrite G1, G2. cbn [rbind].
  assert (Pa : position (zlen dc) a pa) by now apply position_norm.
  assert (Pz : position (zlen dc) (a + len) pz) by now apply position_norm.
  destruct (Z.ltb_spec (i32_at st 16) 0) as [Ng|Np].
  { intros gs G E. destruct G as [|a b pa' pz' rest P1 P2 S struct nprocs N]; [discriminate E|].
    apply position_fun in P1, P2; try lia. subst pa' pz'. fold pa in struct. unfold nprocs, struct in N. fold st in N. lia. }
  set (np := i32_at st 16) in *. change (sizeof (TArr sh_pid_t np)) with (4 * np).
  rewrite pyslice_pos by lia. replace (b + 4 * np - b) with (4 * np) by lia.
  unfold from_buffer_copy. change (sizeof (TArr sh_pid_t np)) with (4 * np).
  rewrite zlen_ztake, zlen_zdrop.
  destruct (Z.ltb_spec (Z.max 0 (Z.min (4 * np) (Z.max 0 (zlen dp - Z.max 0 b)))) (4 * np)) as [Sp|Sp]; cbn [rbind].
  { intros gs G E. destruct G as [|a b pa' pz' rest P1 P2 S struct nprocs N M]; [discriminate E|].
    apply position_fun in P1, P2; try lia. subst pa' pz'. fold pa in struct.
    change struct with st in nprocs. change nprocs with np in M. lia. }
  rewrite ztake_ztake, Z.min_id.
  fold (sub_bytes b (4 * np) dp).
  destruct (pid_items np (sub_bytes b (4 * np) dp)) as (I1 & I2);
    [lia|unfold sub_bytes; rewrite zlen_ztake, zlen_zdrop; lia|].
  specialize (IH (a + i32_at st 0) (b + 4 * np) ltac:(lia)).
  destruct (cstat_loop ct len dc dp n (a + i32_at st 0) (b + 4 * np)) as [ks|e]; cbn [rbind].
  - destruct IH as (gs & Gs & L & F). exists ((st, sub_bytes b (4 * np) dp) :: gs). split.
    + apply (ga_more (sizeof ct) len dc dp a b pa pz gs); try assumption; fold st; fold np; lia.
    + split; [cbn; now rewrite L|]. constructor; [|exact F]. split; [reflexivity|]. cbn [fst snd cg_proclist].
      split; [reflexivity|]. split; [exact I1|exact I2].
  - intros gs G E. destruct G as [|a b pa' pz' rest P1 P2 S struct nprocs N M Gr]; [discriminate E|].
    apply position_fun in P1, P2; try lia. subst pa' pz'. fold pa in struct.
    change struct with st in nprocs, Gr. change nprocs with np in Gr. apply (IH rest Gr). cbn in E. lia.
Qed.

Lemma groups_fun size len dc dp : forall gs a b gs', groups_at size len dc dp a b gs -> groups_at size len dc dp a b gs' ->
  List.length gs = List.length gs' -> gs = gs'.
Proof.
  intros gs a b gs' G. revert gs'. induction G as [|a b pa pz rest P1 P2 S struct nprocs N M G IH]; intros gs' G' E.
  - destruct gs'; [reflexivity|discriminate E].
  - destruct G' as [|a b pa' pz' rest' P1' P2' S' struct' nprocs' N' M' G']; [discriminate E|].
    pose proof (zlen_nonneg dc). apply position_fun in P1, P1'; try lia.
    assert (Ep : pa' = pa) by congruence. subst nprocs' struct'. subst nprocs struct. cbv zeta in *. rewrite Ep in *.
    f_equal. apply IH; [exact G'|cbn in E; lia].
Qed.

Lemma shows_fun ct gs ks : Forall2 (shows_group ct) gs ks -> forall ks', Forall2 (shows_group ct) gs ks' -> ks = ks'.
Proof.
  induction 1 as [|g k gs ks (A & B & _) _ IH]; intros ks' F; inversion F as [|? k' ? ? (A' & B' & _) F']; [reflexivity|].
  subst. f_equal; [|now apply IH]. destruct k, k'. cbn in *. congruence.
Qed.

(** Exactly what get_cstat returns, whatever the record, the compressed data and the length of
    the structs in the header: it returns cgroups just when the two streams decompress and hold
    as many cgroups as the record says, and it returns those. *)
Theorem C19_cgroups_exact_any_data dec vs c hb rb b n :
  class_for vs c -> is_version vs hb -> vs_cstat vs = Some n ->
  exists ct, hc_cstat c = Some ct /\ sizeof ct = n /\
  forall ks, fst (get_cstat dec (mkHdr c hb) (mkObj (hc_record c) rb) (plain b)) = Ok ks <->
    exists dc dp gs, dec (ztake (u32_at rb 72) b) = Some dc /\
      dec (ztake (u32_at rb 84) (zdrop (u32_at rb 72) b)) = Some dp /\
      groups_at n (i32_at hb 456) dc dp 0 0 gs /\ zlen gs = u16_at rb 10 /\ Forall2 (shows_group ct) gs ks.
Proof.
  intros Hcf Hv Hn. pose proof (class_for_table _ _ Hcf) as Hc.
  destruct (table_sizes _ _ Hc) as (_ & _ & _ & _ & _ & S5). rewrite Hn in S5. destruct S5 as (ct & Ect & Hsz).
  exists ct. split; [exact Ect|]. split; [exact Hsz|]. intros ks.
  assert (Hin : In c versions) by apply Hcf.
  assert (Hs : 0 < sizeof ct).
  { rewrite Hsz. destruct (table_class _ _ Hc) as [Hi _]. clear - Hi Hn.
    repeat (destruct Hi as [<- | Hi]; [cbn in Hn; first [discriminate Hn|injection Hn as <-; lia]|]). destruct Hi. }
  rewrite (get_cstat_spec dec vs c hb Hc rb b ct Ect). rewrite <- Hsz.
  destruct (dec (ztake (u32_at rb 72) b)) as [dc|]; cbn [fst].
  2: { split; [intros X; discriminate X|intros (dc & dp & gs & X & _); discriminate X]. }
  destruct (dec (ztake (u32_at rb 84) (zdrop (u32_at rb 72) b))) as [dp|].
  2: { split; [intros X; discriminate X|intros (dc' & dp & gs & _ & X & _); discriminate X]. }
  pose proof (cstat_loop_exact c ct (i32_at hb 456) dc dp Hin Ect Hs (Z.to_nat (u16_at rb 10)) 0 0) as X.
  pose proof (zlen_nonneg dp). specialize (X ltac:(lia)). pose proof (u16_range rb 10) as U.
  destruct (cstat_loop ct (i32_at hb 456) dc dp (Z.to_nat (u16_at rb 10)) 0 0) as [ks0|e].
  - destruct X as (gs & G & L & F). split.
    + intros E. injection E as ->. exists dc, dp, gs. repeat (split; [reflexivity|]). split; [exact G|].
      split; [unfold zlen; lia|exact F].
    + intros (dc' & dp' & gs' & E1 & E2 & G' & L' & F'). injection E1 as <-. injection E2 as <-.
      assert (gs' = gs) as -> by (eapply groups_fun; [exact G'|exact G|unfold zlen in L'; lia]).
      f_equal. eapply shows_fun; eassumption.
  - split; [intros E; discriminate E|]. intros (dc' & dp' & gs' & E1 & E2 & G' & L' & F').
    injection E1 as <-. injection E2 as <-. exfalso. apply (X gs' G'). unfold zlen in L'. lia.
Qed.

(** With the header's length right (which get_header checks), a cgroup starts where it is, or, if
    the lengths announced so far add up to a negative number, that far before the end. *)
Theorem C19_first_bytes size dc dp a b g gs : groups_at size size dc dp a b (g :: gs) -> 0 < size ->
  exists p, zlen (fst g) = size /\ 0 <= p /\ p + size <= zlen dc /\ fst g = sub_bytes p size dc /\
    (p = a \/ a + size < 0 /\ p = zlen dc + a).
Proof.
  intros G S. inversion G as [|a' b' pa pz rest P1 P2 L struct nprocs N M G' E1]. subst. cbn [fst].
  pose proof (zlen_nonneg dc). pose proof (norm_range (zlen dc) a H) as Ra.
  pose proof (norm_range (zlen dc) (a + size) H) as Rz.
  apply position_fun in P1, P2; try lia. subst pa pz. exists (norm_index (zlen dc) a).
  split; [unfold struct, sub_bytes; rewrite zlen_ztake, zlen_zdrop; lia|].
  split; [lia|]. split; [lia|]. split; [reflexivity|].
  unfold norm_index in *. destruct (Z.ltb_spec a 0), (Z.ltb_spec (a + size) 0); lia.
Qed.

(** Two cgroups; the second lies before the first, which is announced with a negative length and
    so is counted from the end; the first has two pids. *)
Definition back_step : list byte := le32 (-64) ++ zeros 12 ++ le32 2 ++ zeros 12.
Definition back_data : list byte := back_step ++ (le32 5 ++ zeros 28) ++ zeros 32.
Example C19_any_data_example :
  groups_at 32 32 back_data (le32 7 ++ le32 (-1)) 0 0 [(back_step, le32 7 ++ le32 (-1)); (le32 5 ++ zeros 28, [])].
Proof.
  assert (L : zlen back_data = 96) by reflexivity. set (dp := le32 7 ++ le32 (-1)).
  assert (G2 : groups_at 32 32 back_data dp (-64) 8 [(le32 5 ++ zeros 28, [])]).
  { assert (E : (le32 5 ++ zeros 28, @nil byte) = (sub_bytes 32 32 back_data, sub_bytes 8 (4 * i32_at (sub_bytes 32 32 back_data) 16) dp))
      by (vm_compute; reflexivity).
    rewrite E. apply (ga_more 32 32 back_data dp (-64) 8 32 64).
    - change 32 with (96 + -64). rewrite <- L. constructor; lia.
    - change 64 with (96 + -32). rewrite <- L. apply pos_back; lia.
    - lia.
    - vm_compute. congruence.
    - vm_compute. congruence.
    - constructor. }
  assert (E : (back_step, dp) = (sub_bytes 0 32 back_data, sub_bytes 0 (4 * i32_at (sub_bytes 0 32 back_data) 16) dp))
    by (vm_compute; reflexivity).
  rewrite E. apply (ga_more 32 32 back_data dp 0 0 0 32).
  - constructor. lia.
  - constructor. lia.
  - lia.
  - vm_compute. congruence.
  - vm_compute. congruence.
  - replace (0 + i32_at (sub_bytes 0 32 back_data) 0) with (-64) by (vm_compute; reflexivity).
    replace (0 + 4 * i32_at (sub_bytes 0 32 back_data) 16) with 8 by (vm_compute; reflexivity). exact G2.
Qed.
