(** * C67: reading a log with the functions for its parts *)
From Coq Require Import List ZArith Lia Bool String.
From Coq Require Import Init.Byte.
From Coq Require Import ZifyBool.
From Verif Require Import PyBase Utf8 CTypes S_shared S_1_26 S_2_11 Model Parsers Json Gzip Reader Messages Inflate.
From Verif Require Import Spec SpecDict SpecLog SpecReader SpecJson SpecFormat SpecFormatTables SpecDocument BaseProofs LayoutProofs RepProofs DictProofs TableProofs HeaderProofs GenProofs.
From Verif Require Import SpecRows PropHeader ParserProofs JsonProofs RunProofs LogBuild PropStruct PropLog SpecGroups SizedProofs PropGroups PropBounds PropFormat PropReader.
From Verif Require Import PySyntax PyEval Source PyProgram PyGenerator SpecSource SrcBase SrcHeader SrcUtils SrcStat SrcDict SrcCgroup SrcGen SrcGen2.
From Verif Require Import SpecSource2 SpecSource3 SrcParse PropSource3 SrcReader SrcReader2 SrcReader3 PropSource SpecClient SrcClient PropClient SpecHand SrcHand.
Import ListNotations.
Local Open Scope string_scope.
Local Open Scope list_scope.
Local Open Scope Z_scope.

Lemma accepted_cgroups stored h f1 : get_header true (plain stored) = (Ok h, f1) -> has_cgroups stored = has_cgroups (h_buf h).
Proof.
  intros H. unfold has_cgroups.
  destruct (get_header_cases true stored) as [(_ & E)|(_ & c & _ & [(E & _)|(_ & e & _ & E)])]; rewrite E in H; [discriminate H| |discriminate H].
  injection H as <- _. cbn [h_buf]. rewrite major_padded, minor_padded. reflexivity.
Qed.
Lemma log_cgroups vs hb ss : In vs spec_versions -> atop_header vs hb ->
  has_cgroups (log_bytes hb ss) = match vs_cstat vs with Some _ => true | None => false end.
Proof.
  intros Hvs (Hlen & _ & (V1 & V2) & _). unfold has_cgroups, major_of, minor_of, aversion_of, log_bytes, header_size in *.
  rewrite u16_app_l by lia. rewrite V1, V2. exact (proj2 (version_shape vs Hvs)).
Qed.

Section Src.
Variable dec : list byte -> option (list byte).
Variable disk : list Z -> res (list byte).
Variable salvage : list byte -> list byte.
Variable fault : list byte -> exn.
Variable float_repr : Z -> list Z.
Variable argv : env.
Notation CN := (call_n dec disk salvage fault float_repr argv globals functions).
Notation EV n md := (eval dec disk salvage fault float_repr globals (CN (5 + n)) md).
Notation EX n md := (exec dec disk salvage fault float_repr globals (CN (5 + n)) md None).
(** [atoparser.fn(args)] *)
Notation call n fn args w := (f_call (CN (5 + n)) "atoparser.utils" fn args [] w).

(** ** The parts *)

(** get_record takes as many bytes as a record has; a file that ends before gives a record whose
    missing bytes are zero.  It raises nothing. *)
Theorem C67_get_record n w hv vs c hb b : class_for vs c -> is_hdr w hv (mkHdr c hb) -> w_file w = plain b ->
  let got := ztake (vs_rec vs) b in
  runs is_obj w (call n "get_record" [VFile; hv] w)
    (Ok (mkObj (hc_record c) (got ++ zeros (vs_rec vs - zlen got))), plain (zdrop (vs_rec vs) b)).
Proof.
  intros Hcf Hh Hf got.
  pose proof (class_for_table _ _ Hcf) as Hc.
  pose proof (src_get_record dec disk salvage fault float_repr argv (4 + n) w hv _ Hh ltac:(rewrite Hf; intros e X; discriminate X)) as K.
  rewrite Hf, (get_record_plain vs c hb Hc) in K. unfold runs in *.
  destruct K as (v' & w' & K & A & B & C & D & _). exists v', w'. auto.
Qed.

(** At the end of the file, in particular, the length of its first block is 0 -- where a loop by
    hand ends, as generate_statistics does. *)
Theorem C67_end_of_file n w hv vs c hb : class_for vs c -> is_hdr w hv (mkHdr c hb) -> w_file w = plain [] ->
  exists v r w', call n "get_record" [VFile; hv] w = EOk v w' /\ is_obj w' v r /\ o_type r = hc_record c /\
    o_buf r = zeros (vs_rec vs) /\ getint r "scomplen" = Ok 0 /\ w_file w' = plain [].
Proof.
  intros Hcf Hh Hf. pose proof (C67_get_record n w hv vs c hb [] Hcf Hh Hf) as K. cbv zeta in K.
  pose proof (class_for_table _ _ Hcf) as Hc.
  replace (ztake (vs_rec vs) (@nil byte)) with (@nil byte) in K by (unfold ztake; rewrite firstn_nil; reflexivity).
  replace (zdrop (vs_rec vs) (@nil byte)) with (@nil byte) in K by (unfold zdrop; rewrite skipn_nil; reflexivity).
  change (zlen (@nil byte)) with 0 in K. rewrite Z.sub_0_r in K. cbn [app] in K.
  destruct K as (v & w' & K & A & B & C & D). exists v, (mkObj (hc_record c) (zeros (vs_rec vs))), w'.
  split; [exact K|]. split; [exact D|]. split; [reflexivity|]. split; [reflexivity|]. split; [|exact B].
  rewrite (record_getint vs c _ _ _ _ Hc (in_rec_scomplen vs)). cbn [num_at]. f_equal.
  change (zeros (vs_rec vs)) with ([] ++ zeros (vs_rec vs)). rewrite u32_zeros. reflexivity.
Qed.

(** get_sstat takes the bytes that the record announces -- no more, no less, and fewer only at the
    end of the file -- whatever is in them.  A damaged or cut block is zlib.error, not ValueError. *)
Theorem C67_get_sstat n w hv vr vs c hb rb b : class_for vs c -> is_hdr w hv (mkHdr c hb) ->
  is_obj w vr (mkObj (hc_record c) rb) -> w_file w = plain b ->
  runs is_obj w (call n "get_sstat" [VFile; hv; vr] w)
    (match dec (ztake (u32_at rb 16) b) with
     | None => Raise ZlibError
     | Some d => if zlen d <? vs_sstat vs then Raise (ValueError BufferTooSmall)
                 else Ok (mkObj (hc_sstat c) (ztake (vs_sstat vs) d))
     end, plain (zdrop (u32_at rb 16) b)).
Proof.
  intros Hcf Hh Hr Hf.
  pose proof (class_for_table _ _ Hcf) as Hc.
  pose proof (src_get_sstat dec disk salvage fault float_repr argv (4 + n) w hv _ vr _ Hh Hr
    (ex_intro _ c (conj (proj2 (table_class _ _ Hc)) eq_refl)) ltac:(rewrite Hf; intros e X; discriminate X)) as K.
  rewrite Hf, (get_sstat_spec dec vs c hb Hc) in K. unfold runs in *.
  destruct (match dec _ with None => _ | Some d => _ end) as [o|e]; [|exact K].
  destruct K as (v' & w' & K & A & B & C & D & _). exists v', w'. auto.
Qed.

(** get_tstat: as many tasks as the record says, each at the place that the header's length says. *)
Theorem C67_get_tstat n w hv vr vs c hb rb b : class_for vs c -> is_version vs hb -> is_hdr w hv (mkHdr c hb) ->
  is_obj w vr (mkObj (hc_record c) rb) -> w_file w = plain b ->
  runs (fun w' x l => is_list is_obj w' x l /\ new_list w x) w (call n "get_tstat" [VFile; hv; vr] w)
    (match dec (ztake (u32_at rb 20) b) with
     | None => Raise ZlibError
     | Some d => match slots (vs_tstat vs) (u32_at hb 32) (u32_at rb 28) d with
                 | None => Raise (ValueError BufferTooSmall)
                 | Some l => Ok (map (mkObj (hc_tstat c)) l)
                 end
     end, plain (zdrop (u32_at rb 20) b)).
Proof.
  intros Hcf Hv Hh Hr Hf.
  pose proof (class_for_table _ _ Hcf) as Hc.
  pose proof (src_get_tstat dec disk salvage fault float_repr argv (2 + n) w hv _ vr _ Hh Hr
    (ex_intro _ c (conj (proj2 (table_class _ _ Hc)) eq_refl)) ltac:(rewrite Hf; intros e X; discriminate X)) as K.
  rewrite Hf, (get_tstat_spec dec vs c hb Hc Hv) in K.
  replace (match dec (ztake (u32_at rb 20) b) with
     | None => Raise ZlibError
     | Some d => match slots (vs_tstat vs) (u32_at hb 32) (u32_at rb 28) d with
                 | None => Raise (ValueError BufferTooSmall)
                 | Some l => Ok (map (mkObj (hc_tstat c)) l)
                 end
     end) with (match dec (ztake (u32_at rb 20) b) with
     | None => Raise ZlibError
     | Some d => tstat_loop (hc_tstat c) (u32_at hb 32) d (Z.to_nat (u32_at rb 28)) 0
     end); [exact K|].
  destruct (dec _) as [d|]; [|reflexivity].
  pose proof (u32_range rb 28) as B1. pose proof (u32_range hb 32) as B2.
  pose proof (tstat_loop_spec (hc_tstat c) (u32_at hb 32) d (Z.to_nat (u32_at rb 28)) 0 ltac:(lia) ltac:(lia)) as L.
  rewrite (tstat_size vs c Hc) in L. specialize (L (proj1 (class_size_pos vs c Hc))).
  unfold slots. rewrite Z2Nat.id in L by lia. rewrite Z.add_0_l in L.
  destruct ((u32_at rb 28 =? 0) || _); rewrite L; [|reflexivity].
  f_equal. rewrite map_map. apply map_ext. intros k. reflexivity.
Qed.

(** get_cstat takes the two blocks that the record announces, the second only if the first
    decompresses.  It gives the cgroups that are in them (SpecGroups.v), as many as the record says;
    if they are not there it is ValueError. *)
Theorem C67_get_cstat n w hv vr vs c hb rb b size : class_for vs c -> is_version vs hb -> vs_cstat vs = Some size ->
  is_hdr w hv (mkHdr c hb) -> is_obj w vr (mkObj (hc_record c) rb) -> w_file w = plain b ->
  let b1 := zdrop (u32_at rb 72) b in
  exists ct result, hc_cstat c = Some ct /\ sizeof ct = size /\
  runs (fun w' x l => is_list is_chain w' x l /\ new_list w x) w (call n "get_cstat" [VFile; hv; vr] w) result /\
  match dec (ztake (u32_at rb 72) b) with
  | None => result = (Raise ZlibError, plain b1)
  | Some dc => snd result = plain (zdrop (u32_at rb 84) b1) /\
      match dec (ztake (u32_at rb 84) b1) with
      | None => fst result = Raise ZlibError
      | Some dp =>
          (forall ks, fst result = Ok ks <-> exists gs, groups_at size (i32_at hb 456) dc dp 0 0 gs /\
             zlen gs = u16_at rb 10 /\ Forall2 (shows_group ct) gs ks) /\
          (forall e, fst result = Raise e -> exists m, e = ValueError m)
      end
  end.
Proof.
  intros Hcf Hv Hs Hh Hr Hf b1. pose proof (class_for_table _ _ Hcf) as Hc.
  destruct (C19_cgroups_exact_any_data dec vs c hb rb b size Hcf Hv Hs) as (ct & Hct & Sct & X).
  exists ct, (get_cstat dec (mkHdr c hb) (mkObj (hc_record c) rb) (plain b)).
  split; [exact Hct|]. split; [exact Sct|].
  split.
  { rewrite <- Hf. apply (src_get_cstat dec disk salvage fault float_repr argv (3 + n) w hv _ vr _ Hh Hr).
    - exists c. split; [exact (proj2 (table_class _ _ Hc))|reflexivity].
    - rewrite Hf. intros e E. discriminate E. }
  rewrite (get_cstat_spec dec vs c hb Hc rb b ct Hct) in *. fold b1 in X |- *.
  destruct (dec (ztake (u32_at rb 72) b)) as [dc|]; [|reflexivity]. split; [reflexivity|]. cbn [fst] in *.
  destruct (dec (ztake (u32_at rb 84) b1)) as [dp|]; [|reflexivity]. split.
  - intros ks. rewrite (X ks). split.
    + intros (dc' & dp' & gs & E1 & E2 & G). injection E1 as <-. injection E2 as <-. exists gs. exact G.
    + intros (gs & G). exists dc, dp, gs. auto.
  - intros e E. apply (cstat_loop_raise c ct _ _ _ _ _ _ _ (proj2 (table_class _ _ Hc)) Hct) in E as [-> | ->]; eauto.
Qed.

(** On the blocks of cgroups as atop writes them it gives those. *)
Theorem C67_get_cstat_written n w hv vr vs c hb rb b size gs : class_for vs c -> vs_cstat vs = Some size -> is_hdr w hv (mkHdr c hb) ->
  is_obj w vr (mkObj (hc_record c) rb) -> w_file w = plain b ->
  dec (ztake (u32_at rb 72) b) = Some (groups_data gs) ->
  dec (ztake (u32_at rb 84) (zdrop (u32_at rb 72) b)) = Some (groups_pids gs) ->
  u16_at rb 10 = zlen gs -> i32_at hb 456 = size -> Forall (wf_group size) gs ->
  exists ct, hc_cstat c = Some ct /\
  runs (fun w' x l => is_list is_chain w' x l /\ new_list w x) w (call n "get_cstat" [VFile; hv; vr] w)
    (Ok (map (group_view ct) gs), plain (zdrop (u32_at rb 84) (zdrop (u32_at rb 72) b))).
Proof.
  intros Hcf Hs Hh Hr Hf E1 E2 E3 E4 Hg. pose proof (class_for_table _ _ Hcf) as Hc.
  destruct (table_sizes vs c Hc) as (_ & _ & _ & _ & _ & S5). rewrite Hs in S5. destruct S5 as (ct & Hct & Sct).
  pose proof (src_get_cstat dec disk salvage fault float_repr argv (3 + n) w hv _ vr _ Hh Hr
    (ex_intro _ c (conj (proj2 (table_class _ _ Hc)) eq_refl)) ltac:(rewrite Hf; intros e X; discriminate X)) as K.
  rewrite Hf, (get_cstat_spec dec vs c hb Hc rb b ct Hct) in K.
  exists ct. split; [exact Hct|]. rewrite E1, E2, E3, E4 in K.
  unfold zlen at 1 in K. rewrite Nat2Z.id in K.
  assert (0 <= size) as Hsz by (pose proof (spec_sizes vs c Hc) as SS; rewrite Hs in SS; lia).
  pose proof (cstat_loop_ok c ct size gs [] [] (proj2 (table_class _ _ Hc)) Hct Sct Hsz Hg) as L.
  cbn [app] in L. rewrite !zlen_nil in L. rewrite L in K. exact K.
Qed.

(** ** The loop *)

(** A loop by hand of any program, over at most [ms] samples: if its body keeps the contract (that
    of C66_for_loop) then it is run on exactly the samples that generate_statistics gives, and the
    loop ends as that does (a damaged block always raises). *)
Theorem C67_by_hand n md l w hv h gate ms body inv left :
  body_contract (exec_block (EX n md) body) (Some h) "record" "sstat" "tstats" "cgroups" inv left -> loop_state hv inv ->
  foreign md -> assoc "range" l = None -> gate = has_cgroups (h_buf h) ->
  is_hdr w hv h -> loaded w -> plain_fault (w_file w) -> inv [] l w ->
  exists ss e f', run dec (Some h) true ms (w_file w) = (ss, Some e, f') /\
  exists o l' w', EX n md (by_hand gate ms body) l w = TDone o l' w' /\
    ((exists done rest, ss = done ++ rest /\ done <> [] /\ left done o l' w') \/
     (exists l1 w1, inv ss l1 w1 /\ same_env l1 l' /\ grows w1 w' /\ w_out w' = w_out w1 /\ loaded w' /\ w_file w' = f' /\ o = loop_end e)).
Proof.
  intros Hb Hst Hf Er -> Hh Lw Hpf Hi.
  apply (hand_for dec disk salvage fault float_repr argv n md hv h (has_cgroups (h_buf h)) body inv left Hb Hst ms l w Hf Er); try assumption.
  destruct (class_table _ (hdr_in _ _ _ Hh)) as (vs & Ht). destruct h as [c b]. exact (cgroup_gate_spec vs c Ht b).
Qed.

(** ** README.md's first program, written by hand *)

Lemma uinv_state line h hv out : loop_state hv (uinv line h hv out).
Proof.
  intros done l w (A1 & A2 & A3 & (A4 & B & C) & A5). split; [exact B|]. split; [exact C|]. split; [exact A3|].
  intros i. unfold uinv, bound. rewrite !assoc_set. cbn [String.eqb Ascii.eqb Bool.eqb]. auto 10.
Qed.

(** On any file the two programs -- the one of README.md and the one by hand -- end in the same way
    and print the same, when the one by hand reads cgroups just if the file's version has them. *)
Theorem C67_readme_by_hand n md w fv path stored rest line zero : foreign md -> loaded w -> cps fv = Some path ->
  disk path = Ok stored -> prints_line (exec_block (EX n md) rest) (EV n md) line zero ->
  exists o l1 w1 l2 w2,
    EX n md (readme_usage rest) (script_env fv) w = TDone o l1 w1 /\
    EX n md (usage_by_hand (has_cgroups stored) rest) (script_env fv) w = TDone o l2 w2 /\
    w_out w1 = w_out w2.
Proof.
  intros Hf Lw Hp Hd Hr. destruct (opened_ok path stored w Lw) as (L1 & P1 & G1).
  pose proof (header_script dec disk salvage fault float_repr argv n md (opened path stored w) fv L1 P1) as H. cbn [opened set_file w_file] in H.
  change (mkW (w_heap (emit (Opened path) w)) (plain stored) (w_out (emit (Opened path) w))) with (opened path stored w) in H.
  set (lp := by_hand (has_cgroups stored) 86400 (usage_body rest)).
  assert (EW : EX n md (usage_by_hand (has_cgroups stored) rest) (script_env fv) w =
    exec_block (EX n md) [header_stmt; lp] (env1 fv) (opened path stored w)).
  { unfold usage_by_hand. fold lp. pose proof (open_script dec disk salvage fault float_repr argv n md w fv path Hf Hp) as E. rewrite Hd in E.
    generalize dependent lp. intros lp. generalize header_stmt. intros hs. cbn [exec]. cbn [eval] in *. rewrite E. reflexivity. }
  destruct (get_header true (plain stored)) as [[h|e] f1] eqn:Hg.
  - destruct H as (hv & w2 & E2 & G2 & F2 & O2 & Hh).
    assert (Hpf2 : plain_fault (w_file w2)).
    { rewrite F2. eapply keeps_header; [|exact Hg]. intros e X. discriminate X. }
    pose proof (loaded_grows _ _ G2 L1) as L2.
    assert (O2' : w_out w2 = w_out w ++ [Opened path]) by (rewrite O2; reflexivity).
    destruct (C67_by_hand n md (env2 fv hv) w2 hv h (has_cgroups stored) 86400 (usage_body rest)
      (uinv line h hv (w_out w2)) (uleft line zero h (w_out w2))) as (ss & e & f' & R & o & l' & w' & T & K).
    { apply usage_contract; [exact Hr|exact (hdr_in _ _ _ Hh)]. }
    { apply uinv_state. }
    { exact Hf. }
    { reflexivity. }
    { exact (accepted_cgroups stored h f1 Hg). }
    { exact Hh. }
    { exact L2. }
    { exact Hpf2. }
    { split; [exact Hh|]. split; [exact L2|]. split; [reflexivity|]. split; [repeat split; reflexivity|]. split; [reflexivity|]. symmetry. apply app_nil_r. }
    fold lp in T. rewrite F2 in R.
    destruct (C66_readme_usage_any dec disk salvage fault float_repr argv n md w fv path stored rest line zero h f1 Hf Lw Hp Hd Hr Hg)
      as (ss' & e' & f'' & R' & U).
    rewrite R in R'. apply triple_eq in R'. destruct R' as (<- & Q & _). apply some_eq in Q. subst e'.
    destruct (usage_lines line (h_buf h) (map sample_bytes_of ss)) as [es z] eqn:EU.
    destruct U as (l1 & w1 & U1 & U2).
    exists (if z then OExc zero else loop_end e), l1, w1, l', w'. split; [exact U1|]. rewrite U2, EW.
    erewrite block_next by exact E2. cbn [exec_block]. rewrite T. cbn [tseq].
    destruct K as [(s1 & s2 & -> & _ & K1 & K2 & K3)|(l3 & w3 & (_ & _ & _ & _ & K1 & K2) & _ & _ & K3 & _ & _ & ->)].
    + rewrite map_app, usage_app, K2 in EU. rewrite EU in K2, K3. cbn [fst snd] in K2, K3. subst o z. split; [reflexivity|].
      rewrite K3, O2', <- app_assoc. reflexivity.
    + rewrite EU in K1, K2. cbn [fst snd] in K1, K2. subst z. split; [destruct e; reflexivity|].
      rewrite K3, K2, O2', <- app_assoc. reflexivity.
  - destruct H as (w2 & E2 & G2 & F2 & O2).
    destruct (C66_readme_usage_refused dec disk salvage fault float_repr argv n md w fv path stored rest e f1 Hf Lw Hp Hd Hg) as (l1 & w1 & U1 & U2).
    exists (OExc (xof e)), l1, w1, (env1 fv), w2. split; [exact U1|]. split; [|rewrite U2, O2; reflexivity].
    rewrite EW. erewrite block_exc by exact E2. reflexivity.
Qed.

(** On a whole log: a line for every sample, as by README.md's program. *)
Theorem C67_readme_by_hand_log n md w fv path rest line zero vs hb ss : foreign md -> loaded w -> cps fv = Some path ->
  prints_line (exec_block (EX n md) rest) (EV n md) line zero ->
  wf_log dec vs hb ss -> disk path = Ok (log_bytes hb ss) ->
  let (es, z) := usage_lines line hb (map log_sample_bytes (at_most_default ss)) in
  exists l' w', EX n md (usage_by_hand (match vs_cstat vs with Some _ => true | None => false end) rest) (script_env fv) w =
      TDone (if z then OExc zero else ONext) l' w' /\
    w_out w' = w_out w ++ Opened path :: es.
Proof.
  intros Hf Lw Hp Hr Hw Hd.
  pose proof (C66_readme_usage dec disk salvage fault float_repr argv n md w fv path rest line zero vs hb ss Hf Lw Hp Hr Hw Hd) as U.
  destruct (C67_readme_by_hand n md w fv path _ rest line zero Hf Lw Hp Hd Hr) as (o & l1 & w1 & l2 & w2 & E1 & E2 & E3).
  destruct (usage_lines line hb (map log_sample_bytes (at_most_default ss))) as [es z].
  destruct U as (l' & w' & U1 & U2). rewrite E1 in U1. injection U1 as -> -> ->.
  exists l2, w2. split; [|rewrite <- E3; exact U2].
  replace (match vs_cstat vs with Some _ => true | None => false end) with (has_cgroups (log_bytes hb ss)); [exact E2|].
  destruct Hw as (Hvs & Ha & _). apply log_cgroups; assumption.
Qed.
End Src.

(** ** Concrete cases *)

(** Worlds as the theorems want them: after get_header, on any log. *)
Example C67_example_world (dec : list byte -> option (list byte)) (disk : list Z -> res (list byte)) (salvage : list byte -> list byte) (fault : list byte -> exn) (float_repr : Z -> list Z) (argv : env) vs hb rest : In vs spec_versions -> atop_header vs hb ->
  exists c w hv, class_for vs c /\ is_version vs hb /\ is_hdr w hv (mkHdr c hb) /\ w_file w = plain rest /\ loaded w.
Proof.
  intros Hvs Ha. destruct (table_spec _ Hvs) as (c & Hc).
  destruct (C57_start (plain (hb ++ rest)) eq_refl) as (L & P).
  pose proof (src_get_header dec disk salvage fault float_repr argv 1 (start_world (plain (hb ++ rest))) [VFile] [] true L P eq_refl) as K.
  change (w_file (start_world (plain (hb ++ rest)))) with (plain (hb ++ rest)) in K.
  rewrite (header_of_log vs c hb rest Hc Ha) in K. destruct K as (hv & w & _ & G & Fl & _ & Hh).
  exists c, w, hv. split; [exact (table_class_for _ _ Hc)|]. split; [apply Ha|]. split; [exact Hh|]. split; [exact Fl|exact (loaded_grows _ _ G L)].
Qed.

(** Two pieces of two bytes at every three; a byte missing; pieces that overlap are refused. *)
Example C67_example_slots :
  slots 2 3 2 [x01; x02; x03; x04; x05] = Some [[x01; x02]; [x04; x05]] /\ slots 2 3 2 [x01; x02; x03; x04] = None /\
  slots 3 2 1 [x01; x02; x03; x04] = None /\ slots 3 2 0 [] = Some [].
Proof. vm_compute. auto. Qed.

(** A file that ends in the middle of a record. *)
Example C67_example_short : ztake 5 [x07; x08] ++ zeros (5 - zlen (ztake 5 [x07; x08])) = [x07; x08; x00; x00; x00].
Proof. reflexivity. Qed.

(** A state that keeps the contract: README.md's own body. *)
Example C67_example_state (dec : list byte -> option (list byte)) disk salvage fault float_repr argv n h hv out : In (h_class h) versions ->
  let line := fun i t => text ("idle " ++ str_of_int i ++ "/" ++ str_of_int t) in
  body_contract (exec_block (exec dec disk salvage fault float_repr globals
      (call_n dec disk salvage fault float_repr argv globals functions (5 + n)) "__main__" None) (usage_body print_fraction))
    (Some h) "record" "sstat" "tstats" "cgroups" (uinv line h hv out) (uleft line (XB (AttributeError "quotient")) h out) /\
  loop_state hv (uinv line h hv out).
Proof.
  intros Hc line. split; [|apply uinv_state]. apply usage_contract; [|exact Hc]. apply C66_example_rest.
Qed.
