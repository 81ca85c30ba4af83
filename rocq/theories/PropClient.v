(** * C66: programs that use atoparser, among them the two of README.md *)
From Coq Require Import List ZArith Lia Bool String.
From Coq Require Import Init.Byte.
From Coq Require Import ZifyBool.
From Verif Require Import PyBase Utf8 CTypes S_shared S_1_26 S_2_11 Model Parsers Json Gzip Reader Messages Inflate.
From Verif Require Import Spec SpecDict SpecLog SpecReader SpecJson SpecFormat SpecFormatTables SpecDocument BaseProofs LayoutProofs RepProofs DictProofs TableProofs HeaderProofs GenProofs.
From Verif Require Import SpecRows PropHeader ParserProofs JsonProofs RunProofs LogBuild PropStruct PropLog PropFormat PropReader.
From Verif Require Import PySyntax PyEval Source PyProgram PyGenerator SpecSource SrcBase SrcHeader SrcUtils SrcStat SrcDict SrcCgroup SrcGen SrcGen2.
From Verif Require Import SpecSource2 SpecSource3 SrcParse PropSource3 SrcReader SrcReader2 SrcReader3 SpecUsage SpecClient SrcClient.
Import ListNotations.
Local Open Scope string_scope.
Local Open Scope list_scope.
Local Open Scope Z_scope.

Definition sample_bytes_of (s : sample) : list byte * list byte := (o_buf (s_record s), o_buf (s_sstat s)).

Section Src.
Variable dec : list byte -> option (list byte).
Variable disk : list Z -> res (list byte).
Variable salvage : list byte -> list byte.
Variable fault : list byte -> exn.
Variable float_repr : Z -> list Z.
Variable argv : env.
Notation CN := (call_n dec disk salvage fault float_repr argv globals functions).
(** The evaluation of expressions and the execution of statements of the module [md]. *)
Notation EV n md := (eval dec disk salvage fault float_repr globals (CN (5 + n)) md).
Notation EX n md := (exec dec disk salvage fault float_repr globals (CN (5 + n)) md None).

(** A [for] loop of any program over generate_statistics(raw_file, header, strict, ms): if its body
    keeps the contract then the body is run on exactly the samples of the model's run, in order,
    until it leaves the loop or the samples end; the loop ends like the run. *)
Theorem C66_for_loop n md it l w0 w hdr hv strict ms a b c d body inv left :
  body_contract (exec_block (EX n md) body) hdr a b c d inv left ->
  EV n md it l w0 = EOk (VGen "atoparser.utils" "generate_statistics"
     [("raw_file", VFile); ("header", hv); ("raise_on_truncation", VBool strict); ("max_samples", VInt ms)]) w ->
  loaded w -> plain_fault (w_file w) ->
  match hdr with None => hv = VNone | Some h => is_hdr w hv h end ->
  inv [] l w ->
  exists ss e f', run dec hdr strict ms (w_file w) = (ss, Some e, f') /\
  exists o l' w', EX n md (SFor (TgTuple [a; b; c; d]) it body) l w0 = TDone o l' w' /\
    ((exists done rest, ss = done ++ rest /\ done <> [] /\ left done o l' w') \/
     (exists w1, inv ss l' w1 /\ grows w1 w' /\ w_out w' = w_out w1 /\ loaded w' /\ w_file w' = f' /\ o = loop_end e)).
Proof.
  intros Hb Hit Lw Hpf Hh Hi.
  destruct (client_for dec disk salvage fault float_repr argv n md hdr a b c d body inv left Hb it l w w0 hv strict ms Hit Lw Hpf Hh Hi) as (e & He & K).
  destruct (run dec hdr strict ms (w_file w)) as [[ss e'] f']. cbn [fst snd] in *. subst e'.
  exists ss, e, f'. split; [reflexivity|exact K].
Qed.

(** ** Names and attributes in a script *)

Lemma foreign_builtin md x : foreign md -> global_name globals md x = builtin_value x.
Proof. intros H. unfold global_name. rewrite H. reflexivity. Qed.

Lemma path_val n md p : forall x l w v o pv, EV n md x l w = EOk v w -> inst w v o -> p <> [] -> getpath o p = Ok pv ->
  exists v', EV n md (pathx x p) l w = EOk v' w /\ is_val w v' pv.
Proof.
  induction p as [|a p IH]; intros x l w v o pv Hx Hi Hp Hg; [congruence|].
  assert (exists fo ft, field_at (o_type o) a = Some (fo, ft)) as (fo & ft & Ef).
  { destruct (field_at (o_type o) a) as [[fo ft]|] eqn:E; [eauto|]. exfalso.
    destruct p; cbn [getpath] in Hg; unfold getobj, getattr in Hg; rewrite E in Hg; discriminate Hg. }
  destruct (inst_attr (CN (5 + n)) w v o a fo ft Hi Ef) as (v' & Hv & Hval).
  assert (Hx' : EV n md (EAttr x a) l w = EOk v' w) by (cbn [eval]; rewrite Hx; exact Hv).
  assert (Hga : getattr o a = Ok (fetch ft (sub_bytes fo (sizeof ft) (o_buf o)))) by (unfold getattr; rewrite Ef; reflexivity).
  destruct p as [|a' p].
  - exists v'. cbn [getpath] in Hg. rewrite Hga in Hg. injection Hg as <-. cbn [pathx fold_left]. auto.
  - change (getpath o (a :: a' :: p)) with (let? x := getobj o a in getpath x (a' :: p)) in Hg.
    unfold getobj in Hg. rewrite Hga in Hg. cbn [rbind] in Hg.
    destruct (fetch ft (sub_bytes fo (sizeof ft) (o_buf o))) as [z|z|z|o'] eqn:E; cbn [rbind] in Hg; try discriminate Hg.
    apply (IH (EAttr x a) l w v' o' pv Hx'); [apply obj_inst, Hval|discriminate|exact Hg].
Qed.

Lemma path_int n md p x l w v o z : EV n md x l w = EOk v w -> inst w v o -> p <> [] -> intpath o p = Ok z ->
  EV n md (pathx x p) l w = EOk (VInt z) w.
Proof.
  intros Hx Hi Hp Hz. unfold intpath in Hz. destruct (getpath o p) as [pv|e] eqn:E; [|discriminate Hz]. cbn [rbind] in Hz.
  destruct (path_val n md p x l w v o pv Hx Hi Hp E) as (v' & K & V). destruct pv; try discriminate Hz. injection Hz as ->.
  cbn [is_val] in V. subst v'. exact K.
Qed.

(** The four numbers, in any version. *)
Lemma numbers c : In c versions -> forall rb sb hb,
  intpath (mkObj (hc_record c) rb) ["interval"] = Ok (u32_at rb 24) /\
  intpath (mkObj (hc_sstat c) sb) ["cpu"; "nrcpu"] = Ok (i64_at sb 0) /\
  intpath (mkObj (hc_sstat c) sb) ["cpu"; "all"; "itime"] = Ok (i64_at sb 112) /\
  intpath (mkObj (hc_header c) hb) ["hertz"] = Ok (u16_at hb 14).
Proof.
  intros Hc rb sb hb.
  assert (K : path_at (hc_record c) ["interval"] = Some (24, TInt false 4) /\
              path_at (hc_sstat c) ["cpu"; "nrcpu"] = Some (0, TInt true 8) /\
              path_at (hc_sstat c) ["cpu"; "all"; "itime"] = Some (112, TInt true 8) /\
              path_at (hc_header c) ["hertz"] = Some (14, TInt false 2)).
  { cbn [versions In] in Hc. repeat (destruct Hc as [<- | Hc]; [vm_compute; auto|]). destruct Hc. }
  destruct K as (K1 & K2 & K3 & K4). split; [|split; [|split]].
  - unfold intpath. rewrite (getpath_at _ _ _ _ _ K1). cbn [rbind fetch sizeof]. rewrite <- int_at_u32 by lia. reflexivity.
  - apply intpath_i64; [exact K2|lia].
  - apply intpath_i64; [exact K3|lia].
  - unfold intpath. rewrite (getpath_at _ _ _ _ _ K4). cbn [rbind fetch sizeof]. rewrite <- int_at_u16 by lia. reflexivity.
Qed.

(** ** The scripts *)

Lemma open_script n md w fv path : foreign md -> cps fv = Some path ->
  EV n md (ECall (EName "open") [EName "file"; EStr "rb"] []) (script_env fv) w =
  match disk path with
  | Ok b => EOk VFile (set_file (plain b) (emit (Opened path) w))
  | Raise e => EErr (XB e) (emit (Opened path) w)
  end.
Proof.
  intros Hf Hp. unfold script_env. cbn [eval ebind name_value assoc String.eqb Ascii.eqb Bool.eqb eval_list eval_kws ok_or_stuck].
  rewrite (foreign_builtin md "open" Hf). cbn [builtin_value builtin_names existsb String.eqb Ascii.eqb Bool.eqb orb ok_or_stuck ebind call_value call_builtin open_builtin].
  rewrite Hp. reflexivity.
Qed.

Definition env1 (fv : value) : env := script_env fv ++ [("raw_file", VFile)].
Definition env2 (fv hv : value) : env := env1 fv ++ [("header", hv)].

Lemma header_script n md w fv : loaded w -> plain_fault (w_file w) ->
  match get_header true (w_file w) with
  | (Ok h, f') => exists hv w', EX n md header_stmt (env1 fv) w = TDone ONext (env2 fv hv) w' /\ grows w w' /\
                    w_file w' = f' /\ w_out w' = w_out w /\ is_hdr w' hv h
  | (Raise e, f') => exists w', EX n md header_stmt (env1 fv) w = TDone (OExc (xof e)) (env1 fv) w' /\ grows w w' /\
                    w_file w' = f' /\ w_out w' = w_out w
  end.
Proof.
  intros Lw Hpf.
  pose proof (src_get_header dec disk salvage fault float_repr argv (S n) w [VFile] [] true Lw Hpf eq_refl) as K.
  destruct (get_header true (w_file w)) as [[h|x] f']; unfold runs in K.
  - destruct K as (hv & w1 & K & G & Fl & O & Hh). exists hv, w1. split; [|auto].
    unfold header_stmt, env2, env1, script_env. cbn [app Nat.add]. ev. change U with "atoparser.utils" in *. rewrite K. ev. reflexivity.
  - destruct K as (w1 & K & G & Fl & O). exists w1. split; [|auto].
    unfold header_stmt, env1, script_env. cbn [app Nat.add]. ev. change U with "atoparser.utils" in *. rewrite K. ev. reflexivity.
Qed.

Definition opened (path : list Z) (b : list byte) (w : world) : world := set_file (plain b) (emit (Opened path) w).

Lemma opened_ok path b w : loaded w -> loaded (opened path b w) /\ plain_fault (w_file (opened path b w)) /\ grows w (opened path b w).
Proof.
  intros L. split; [intros k c H; exact (L k c H)|]. split; [intros e H; discriminate H|]. apply emit_grows.
Qed.

(** README.md's second program on any file: it prints the JSON document of the header's
    dictionary, or raises what get_header raises. *)
Theorem C66_readme_header_any n md w fv path stored : foreign md -> loaded w -> cps fv = Some path -> disk path = Ok stored ->
  match get_header true (plain stored) with
  | (Ok h, _) => exists j t l' w', struct_to_dict (h_obj h) = Ok j /\ dumps float_repr true 0 j = Some t /\
      EX n md readme_header (script_env fv) w = TDone ONext l' w' /\ w_out w' = w_out w ++ [Opened path; Printed t]
  | (Raise e, _) => exists l' w', EX n md readme_header (script_env fv) w = TDone (OExc (xof e)) l' w' /\
      w_out w' = w_out w ++ [Opened path]
  end.
Proof.
  intros Hf Lw Hp Hd. destruct (opened_ok path stored w Lw) as (L1 & P1 & G1).
  pose proof (header_script n md (opened path stored w) fv L1 P1) as H. cbn [opened set_file w_file] in H.
  change (mkW (w_heap (emit (Opened path) w)) (plain stored) (w_out (emit (Opened path) w))) with (opened path stored w) in H.
  assert (EW : EX n md readme_header (script_env fv) w = exec_block (EX n md)
     [header_stmt; SExpr (ECall (EName "print")
       [ECall (EAttr (EName "json") "dumps")
          [ECall (EAttr (EName "atoparser") "struct_to_dict") [EName "header"] []] [("indent", EInt 2)]] [])] (env1 fv) (opened path stored w)).
  { unfold readme_header. pose proof (open_script n md w fv path Hf Hp) as E. rewrite Hd in E. 
    generalize header_stmt. intros hs. cbn [exec]. cbn [eval] in *. rewrite E. reflexivity. }
  rewrite EW. clear EW.
  destruct (get_header true (plain stored)) as [[h|e] f'].
  - destruct H as (hv & w2 & E2 & G2 & F2 & O2 & Hh). erewrite block_next by exact E2.
    destruct (src_dict_hdr dec disk salvage fault float_repr argv (S (S (S (S (S n))))) w2 hv h Hh ltac:(unfold max_depth; lia))
      as (j & jv & w3 & J1 & J2 & J3 & J4).
    destruct (class_types_ok (h_class h) (hc_header (h_class h)) (hdr_in _ _ _ Hh)) as (W & D & S); [left; reflexivity|].
    assert (exists t, dumps float_repr true 0 j = Some t) as (t & Et).
    { apply (dumps_total float_repr true j).
      destruct Hh as (_ & _ & _ & _ & _ & _ & Hv & Hl & _).
      destruct (image_total (hc_header (h_class h)) (h_buf h) W) as (v & Hr).
      { rewrite (header_class_size (h_class h) Hv). exact Hl. }
      assert (struct_to_dict (h_obj h) = Ok (dict_of (hc_header (h_class h)) v)) as E.
      { unfold struct_to_dict. cbn [o_type o_buf h_obj]. apply struct_to_dict_rep; assumption. }
      rewrite E in J1. injection J1 as <-.
      assert (base (hc_header (h_class h)) = hc_header (h_class h)) as B by (destruct (hc_header (h_class h)); try discriminate S; reflexivity).
      rewrite <- B in Hr |- * at 1. rewrite B. rewrite <- B. eapply dict_of_serialisable; [exact W|exact D|exact Hr]. }
    destruct (class_fine (h_class h) (hc_header (h_class h)) (hdr_in _ _ _ Hh)) as [Hfine _]; [left; reflexivity|].
    assert (to_json json_depth w3 jv = Some j) as Ej.
    { eapply to_json_val; [|exact J4]. pose proof (obj_depth (h_obj h) j Hfine J1). unfold json_depth. lia. }
    exists j, t, (env2 fv hv), (emit (Printed t) w3).
    split; [exact J1|]. split; [exact Et|]. split.
    + cbn [exec_block exec]. unfold env2, env1, script_env. cbn [app Nat.add].
      change U with "atoparser.utils" in *.
      cbn [eval ebind name_value assoc String.eqb Ascii.eqb Bool.eqb ok_or_stuck].
      rewrite (foreign_builtin md "print" Hf).
      cbn [builtin_value builtin_names existsb String.eqb Ascii.eqb Bool.eqb orb]. ev. change U with "atoparser.utils". rewrite J2. ev. cbn [indent_of]. rewrite Ej, Et. ev. reflexivity.
    + cbn [emit w_out]. destruct J3 as (_ & _ & _ & O3). rewrite O3, O2. cbn [opened set_file emit w_out]. rewrite <- app_assoc. reflexivity.
  - destruct H as (w2 & E2 & G2 & F2 & O2). erewrite block_exc by exact E2. exists (env1 fv), w2. split; [reflexivity|exact O2].
Qed.

(** On a file that starts with a header of a supported version: the document has exactly the fields
    of the header. *)
Theorem C66_readme_header n md w fv path vs hb rest : foreign md -> loaded w -> cps fv = Some path ->
  disk path = Ok (hb ++ rest) -> In vs spec_versions -> atop_header vs hb ->
  exists j t l' w', EX n md readme_header (script_env fv) w = TDone ONext l' w' /\
    w_out w' = w_out w ++ [Opened path; Printed t] /\ dumps float_repr true 0 j = Some t /\
    forall p ix x, json_scalar x -> (json_path j p ix = Some x <-> entry_is PHeader (vs_name vs) hb p ix x).
Proof.
  intros Hf Lw Hp Hd Hvs Ha. pose proof (C66_readme_header_any n md w fv path _ Hf Lw Hp Hd) as K.
  destruct (table_spec _ Hvs) as (c & Hc). rewrite (header_of_log vs c hb rest Hc Ha) in K.
  destruct K as (j & t & l' & w' & J1 & J2 & J3 & J4). exists j, t, l', w'. split; [exact J3|]. split; [exact J4|]. split; [exact J2|].
  destruct (C51_dictionary_exact vs c PHeader _ hb (table_class_for _ _ Hc) eq_refl) as (d & D1 & D2).
  { cbn [part_size]. f_equal. symmetry. apply Ha. }
  unfold h_obj in J1. cbn [h_class h_buf] in J1. rewrite J1 in D1. injection D1 as <-. exact D2.
Qed.

(** README.md's first program *)

Lemma usage_app line hb a b :
  usage_lines line hb (a ++ b) =
  if snd (usage_lines line hb a) then usage_lines line hb a
  else (fst (usage_lines line hb a) ++ fst (usage_lines line hb b), snd (usage_lines line hb b)).
Proof.
  induction a as [|[rb sb] a IH]; cbn [app usage_lines fst snd]; [destruct (usage_lines line hb b); reflexivity|].
  destruct (total_of hb rb sb =? 0); [reflexivity|]. rewrite IH.
  destruct (usage_lines line hb a) as [es z]. cbn [fst snd]. destruct z; [reflexivity|]. destruct (usage_lines line hb b); reflexivity.
Qed.

Definition keeps_vars (l l' : env) : Prop :=
  forall x, In x ["header"; "raw_file"; "atoparser"; "json"; "file"; "print"] -> assoc x l' = assoc x l.

Definition bound (l : env) : Prop := assoc "atoparser" l = Some (VModule "atoparser") /\ assoc "raw_file" l = Some VFile.

Section Usage.
Variable n : nat.
Variable md : string.
Hypothesis Hmd : foreign md.
Variable rest : list stmt.
Variable line : Z -> Z -> list Z.
Variable zero : exc.
Hypothesis Hrest : prints_line (exec_block (EX n md) rest) (EV n md) line zero.
Variable h : hobj.
Variable hv : value.
Variable out : list event.
Hypothesis Hh : In (h_class h) versions.

Definition uinv (done : list sample) (l : env) (w : world) : Prop :=
  is_hdr w hv h /\ loaded w /\ assoc "header" l = Some hv /\ (assoc "print" l = None /\ bound l) /\
  snd (usage_lines line (h_buf h) (map sample_bytes_of done)) = false /\
  w_out w = out ++ fst (usage_lines line (h_buf h) (map sample_bytes_of done)).
Definition uleft (done : list sample) (o : outcome) (l : env) (w : world) : Prop :=
  o = OExc zero /\ snd (usage_lines line (h_buf h) (map sample_bytes_of done)) = true /\
  w_out w = out ++ fst (usage_lines line (h_buf h) (map sample_bytes_of done)).

Lemma usage_contract : body_contract (exec_block (EX n md) (usage_body rest)) (Some h) "record" "sstat" "tstats" "cgroups" uinv uleft.
Proof.
  intros done s l w0 w rv sv tv cv (H1 & H2 & H3 & (H4 & H7 & H8) & H5 & H6) G O L Hs Hn Hc.
  destruct (Hc h eq_refl) as (T1 & T2 & _). clear Hc.
  destruct Hs as (? & ? & ? & ? & E & Hr & Hst & _). injection E as <- <- <- <-.
  pose proof (is_hdr_grows _ _ _ _ G H1) as Hh1.
  set (l1 := dict_set (dict_set (dict_set (dict_set l "record" rv) "sstat" sv) "tstats" tv) "cgroups" cv).
  assert (A1 : assoc "record" l1 = Some rv) by (unfold l1; rewrite !assoc_set; reflexivity).
  assert (A2 : assoc "sstat" l1 = Some sv) by (unfold l1; rewrite !assoc_set; reflexivity).
  assert (A3 : assoc "header" l1 = Some hv) by (unfold l1; rewrite !assoc_set; exact H3).
  assert (A4 : assoc "print" l1 = None) by (unfold l1; rewrite !assoc_set; exact H4).
  set (rb := o_buf (s_record s)). set (sb := o_buf (s_sstat s)).
  destruct (numbers (h_class h) Hh rb sb (h_buf h)) as (N1 & N2 & N3 & N4).
  rewrite <- T1 in N1. rewrite <- T2 in N2, N3.
  change (intpath (s_record s) ["interval"] = Ok (u32_at rb 24)) in N1 || (replace (mkObj (o_type (s_record s)) rb) with (s_record s) in N1 by (destruct (s_record s); reflexivity)).
  replace (mkObj (o_type (s_sstat s)) sb) with (s_sstat s) in N2, N3 by (destruct (s_sstat s); reflexivity).
  assert (E1 : forall l', assoc "record" l' = Some rv -> EV n md (EAttr (EName "record") "interval") l' w = EOk (VInt (u32_at rb 24)) w).
  { intros l' A. apply (path_int n md ["interval"] (EName "record") l' w rv (s_record s)); [|apply obj_inst, Hr|discriminate|exact N1].
    cbn [eval name_value]. unfold name_value. rewrite A. reflexivity. }
  assert (E2 : forall l', assoc "sstat" l' = Some sv -> EV n md (EAttr (EAttr (EName "sstat") "cpu") "nrcpu") l' w = EOk (VInt (i64_at sb 0)) w).
  { intros l' A. apply (path_int n md ["cpu"; "nrcpu"] (EName "sstat") l' w sv (s_sstat s)); [|apply obj_inst, Hst|discriminate|exact N2].
    cbn [eval name_value]. unfold name_value. rewrite A. reflexivity. }
  assert (E3 : forall l', assoc "sstat" l' = Some sv -> EV n md itime_expr l' w = EOk (VInt (i64_at sb 112)) w).
  { intros l' A. apply (path_int n md ["cpu"; "all"; "itime"] (EName "sstat") l' w sv (s_sstat s)); [|apply obj_inst, Hst|discriminate|exact N3].
    cbn [eval name_value]. unfold name_value. rewrite A. reflexivity. }
  assert (E4 : EV n md (EAttr (EName "header") "hertz") l1 w = EOk (VInt (u16_at (h_buf h) 14)) w).
  { apply (path_int n md ["hertz"] (EName "header") l1 w hv (h_obj h)); [|apply hdr_inst, Hh1|discriminate|exact N4].
    cbn [eval name_value]. unfold name_value. rewrite A3. reflexivity. }
  set (t := total_of (h_buf h) rb sb).
  set (l2 := dict_set l1 "total_cycles" (VInt t)).
  assert (Es : EX n md (hd SPass (usage_body rest)) l1 w = TDone ONext l2 w).
  { cbn [hd usage_body]. cbn [exec]. remember (EX n md) as dummy. clear Heqdummy.
    specialize (E1 l1 A1). specialize (E2 l1 A2).
    cbn [eval] in E1, E2, E4 |- *. rewrite E1. cbn [ebind]. rewrite E2. cbn [ebind bin_val]. rewrite E4. cbn [ebind bin_val with_val assign]. reflexivity. }
  change (usage_body rest) with (hd SPass (usage_body rest) :: rest). erewrite block_next by exact Es.
  destruct (Hrest l2 w (i64_at sb 112) t) as (l3 & V3 & R3).
  { unfold usage_range, t, total_of. pose proof (i64_range sb 112). pose proof (i64_range sb 0). pose proof (u32_range rb 24). pose proof (u16_range (h_buf h) 14).
    change (2 ^ 63) with 9223372036854775808. split; [lia|]. rewrite !Z.abs_mul, (Z.abs_eq (u32_at rb 24)), (Z.abs_eq (u16_at (h_buf h) 14)) by lia.
    apply Z.le_lt_trans with (4294967295 * 9223372036854775808 * 65535); [|reflexivity].
    apply Z.mul_le_mono_nonneg; [nia| |lia|lia]. apply Z.mul_le_mono_nonneg; lia. }
  { unfold l2. rewrite assoc_set. reflexivity. }
  { apply E3. unfold l2. rewrite assoc_set. exact A2. }
  { unfold l2. rewrite assoc_set. exact A4. }
  assert (B3 : assoc "header" l3 = Some hv) by (rewrite V3 by (cbn; tauto); unfold l2; rewrite assoc_set; exact A3).
  assert (B4 : assoc "print" l3 = None) by (rewrite V3 by (cbn; tauto); unfold l2; rewrite assoc_set; exact A4).
  assert (UL : usage_lines line (h_buf h) (map sample_bytes_of (done ++ [s])) =
     (fst (usage_lines line (h_buf h) (map sample_bytes_of done)) ++ (if t =? 0 then [] else [Printed (line (i64_at sb 112) t)]), (t =? 0))).
  { rewrite map_app, usage_app, H5. cbn [map usage_lines sample_bytes_of]. fold rb sb t. destruct (t =? 0); reflexivity. }
  assert (B5 : bound l3).
  { unfold bound. rewrite !V3 by (cbn; tauto). unfold l2, l1. rewrite !assoc_set. split; [exact H7|exact H8]. }
  rewrite R3. destruct (t =? 0).
  - exists (OExc zero), l3, w. split; [reflexivity|]. unfold uleft. rewrite UL. cbn [fst snd]. rewrite app_nil_r.
    split; [reflexivity|]. split; [reflexivity|]. congruence.
  - exists ONext, l3, (emit (Printed (line (i64_at sb 112) t)) w). split; [reflexivity|]. split.
    + unfold uinv. rewrite UL. cbn [fst snd]. split; [exact (is_hdr_grows _ _ _ _ (emit_grows _ _) Hh1)|].
      split; [exact (loaded_grows _ _ (emit_grows _ _) L)|]. split; [exact B3|]. split; [split; [exact B4|exact B5]|]. split; [reflexivity|].
      cbn [emit w_out]. rewrite O, H6, app_assoc. reflexivity.
    + split; [apply grows_keeps, emit_grows|]. split; [exact (loaded_grows _ _ (emit_grows _ _) L)|reflexivity].
Qed.
End Usage.

(** On any file whose header is accepted: for the samples of the model's run, in order, the line of
    [itime] and [interval * nrcpu * hertz] is printed; at a sample where the product is 0 the
    program ends with [zero]; otherwise it ends as the run does. *)
Theorem C66_readme_usage_any n md w fv path stored rest line zero h f1 : foreign md -> loaded w -> cps fv = Some path ->
  disk path = Ok stored -> prints_line (exec_block (EX n md) rest) (EV n md) line zero ->
  get_header true (plain stored) = (Ok h, f1) ->
  exists ss e f', run dec (Some h) true 86400 f1 = (ss, Some e, f') /\
  let (es, z) := usage_lines line (h_buf h) (map sample_bytes_of ss) in
  exists l' w', EX n md (readme_usage rest) (script_env fv) w = TDone (if z then OExc zero else loop_end e) l' w' /\
    w_out w' = w_out w ++ Opened path :: es.
Proof.
  intros Hf Lw Hp Hd Hr Hg. destruct (opened_ok path stored w Lw) as (L1 & P1 & G1).
  pose proof (header_script n md (opened path stored w) fv L1 P1) as H. cbn [opened set_file w_file] in H.
  change (mkW (w_heap (emit (Opened path) w)) (plain stored) (w_out (emit (Opened path) w))) with (opened path stored w) in H.
  rewrite Hg in H. destruct H as (hv & w2 & E2 & G2 & F2 & O2 & Hh).
  set (lp := SFor (TgTuple ["record"; "sstat"; "tstats"; "cgroups"]) samples_expr (usage_body rest)).
  assert (EW : EX n md (readme_usage rest) (script_env fv) w = exec_block (EX n md) [lp] (env2 fv hv) w2).
  { unfold readme_usage. fold lp. pose proof (open_script n md w fv path Hf Hp) as E. rewrite Hd in E.
    generalize dependent lp. intros lp.
    transitivity (exec_block (EX n md) [header_stmt; lp] (env1 fv) (opened path stored w)).
    { generalize header_stmt. intros hs. cbn [exec]. cbn [eval] in *. rewrite E. reflexivity. }
    erewrite block_next by exact E2. reflexivity. }
  assert (Hpf2 : plain_fault (w_file w2)).
  { rewrite F2. eapply keeps_header; [|exact Hg]. intros e X. discriminate X. }
  pose proof (loaded_grows _ _ G2 L1) as L2.
  assert (O2' : w_out w2 = w_out w ++ [Opened path]) by (rewrite O2; reflexivity).
  destruct (C66_for_loop n md samples_expr (env2 fv hv) w2 w2 (Some h) hv true 86400 "record" "sstat" "tstats" "cgroups" (usage_body rest)
    (uinv line h hv (w_out w2)) (uleft line zero h (w_out w2))) as (ss & e & f' & R & o & l' & w' & T & K).
  { apply usage_contract; [exact Hr|exact (hdr_in _ _ _ Hh)]. }
  { unfold samples_expr, env2, env1, script_env. cbn [app Nat.add]. ev. apply src_generate. reflexivity. }
  { exact L2. }
  { exact Hpf2. }
  { exact Hh. }
  { split; [exact Hh|]. split; [exact L2|]. split; [reflexivity|]. split; [repeat split; reflexivity|]. split; [reflexivity|]. symmetry. apply app_nil_r. }
  fold lp in T. rewrite F2 in R. exists ss, e, f'. split; [exact R|].
  destruct (usage_lines line (h_buf h) (map sample_bytes_of ss)) as [es z] eqn:EU.
  exists l', w'. rewrite EW. cbn [exec_block]. rewrite T. cbn [tseq].
  destruct K as [(s1 & s2 & -> & _ & K1 & K2 & K3)|(w1 & (_ & _ & _ & _ & K1 & K2) & _ & K3 & _ & _ & ->)].
  - rewrite map_app, usage_app, K2 in EU. rewrite EU in K2, K3. cbn [fst snd] in K2, K3. subst o z. split; [reflexivity|].
    rewrite K3, O2', <- app_assoc. reflexivity.
  - rewrite EU in K1, K2. cbn [fst snd] in K1, K2. subst z. split; [destruct e; reflexivity|].
    rewrite K3, K2, O2', <- app_assoc. reflexivity.
Qed.

(** If the header is refused: get_header's exception, nothing printed. If the file cannot be opened:
    open's exception, for both programs. *)
Theorem C66_readme_usage_refused n md w fv path stored rest e f1 : foreign md -> loaded w -> cps fv = Some path ->
  disk path = Ok stored -> get_header true (plain stored) = (Raise e, f1) ->
  exists l' w', EX n md (readme_usage rest) (script_env fv) w = TDone (OExc (xof e)) l' w' /\
    w_out w' = w_out w ++ [Opened path].
Proof.
  intros Hf Lw Hp Hd Hg. destruct (opened_ok path stored w Lw) as (L1 & P1 & G1).
  pose proof (header_script n md (opened path stored w) fv L1 P1) as H. cbn [opened set_file w_file] in H.
  change (mkW (w_heap (emit (Opened path) w)) (plain stored) (w_out (emit (Opened path) w))) with (opened path stored w) in H.
  rewrite Hg in H. destruct H as (w2 & E2 & G2 & F2 & O2).
  set (lp := SFor (TgTuple ["record"; "sstat"; "tstats"; "cgroups"]) samples_expr (usage_body rest)).
  assert (EW : EX n md (readme_usage rest) (script_env fv) w = exec_block (EX n md) [header_stmt; lp] (env1 fv) (opened path stored w)).
  { unfold readme_usage. fold lp. pose proof (open_script n md w fv path Hf Hp) as E. rewrite Hd in E.
    generalize dependent lp. intros lp. generalize header_stmt. intros hs. cbn [exec]. cbn [eval] in *. rewrite E. reflexivity. }
  rewrite EW. erewrite block_exc by exact E2. exists (env1 fv), w2. split; [reflexivity|exact O2].
Qed.

Theorem C66_readme_unopened n md w fv path rest e : foreign md -> cps fv = Some path -> disk path = Raise e ->
  EX n md (readme_usage rest) (script_env fv) w = TDone (OExc (XB e)) (script_env fv) (emit (Opened path) w) /\
  EX n md readme_header (script_env fv) w = TDone (OExc (XB e)) (script_env fv) (emit (Opened path) w).
Proof.
  intros Hf Hp Hd. pose proof (open_script n md w fv path Hf Hp) as E. rewrite Hd in E.
  unfold readme_usage, readme_header. generalize header_stmt. intros hs. generalize samples_expr. intros it.
  split; cbn [exec]; cbn [eval] in *; rewrite E; reflexivity.
Qed.

Definition log_sample_bytes (s : lsample) : list byte * list byte := (ls_record s, ls_sstat s).

Lemma triple_eq {A B C} (a a' : A) (b b' : B) (c c' : C) : (a, b, c) = (a', b', c') -> a = a' /\ b = b' /\ c = c'.
Proof. intros H. injection H. auto. Qed.
Lemma some_eq {A} (a b : A) : Some a = Some b -> a = b.
Proof. congruence. Qed.

Lemma complete_all ss : forall k, zlen (samples_bytes ss) <= k -> complete k ss = ss.
Proof.
  induction ss as [|s ss IH]; intros k H; [reflexivity|]. cbn [complete]. rewrite samples_bytes_cons, zlen_app in H.
  pose proof (zlen_nonneg (samples_bytes ss)). destruct (Z.leb_spec (zlen (sample_bytes s)) k); [|lia].
  f_equal. apply IH. lia.
Qed.

Lemma views_bytes c ss : map sample_bytes_of (map (view c) ss) = map log_sample_bytes ss.
Proof. rewrite map_map. apply map_ext. intros s. reflexivity. Qed.

(** On a log that ends anywhere after its header (at most 86400 samples are read): a line for every
    complete sample; then, if the rest of the file still holds a non-zero length of the next
    sample's first block, zlib.error, else the normal end. *)
Theorem C66_readme_usage_truncated n md w fv path rest line zero vs hb ss p q : foreign md -> loaded w -> cps fv = Some path ->
  prints_line (exec_block (EX n md) rest) (EV n md) line zero ->
  wf_log dec vs hb ss -> log_bytes hb ss = p ++ q -> header_size <= zlen p -> disk path = Ok p ->
  let cs := complete (zlen p - header_size) ss in
  let (es, z) := usage_lines line hb (map log_sample_bytes (at_most_default cs)) in
  exists tail l' w', p = hb ++ samples_bytes cs ++ tail /\
    EX n md (readme_usage rest) (script_env fv) w =
      TDone (if z then OExc zero else
             if (zlen cs <? 86400) && negb (u32_at tail 16 =? 0) then OExc (XB ZlibError) else ONext) l' w' /\
    w_out w' = w_out w ++ Opened path :: es.
Proof.
  intros Hf Lw Hp Hr Hw E Hz Hd cs. pose proof Hw as (Hvs & Ha & Hws). destruct (table_spec _ Hvs) as (c & Hc).
  destruct (cut_log dec vs c hb ss true (Z.max (zlen ss) 86400) p q Hc Hw ltac:(lia) E Hz) as (tl & Ep & R & _). fold cs in Ep, R.
  assert (get_header true (plain p) = (Ok (mkHdr c hb), plain (samples_bytes cs ++ tl))) as G.
  { rewrite Ep at 1. apply (header_of_log vs c hb _ Hc Ha). }
  rewrite run_none, G in R. cbn [andb] in R.
  destruct (C13_bound_exact dec (mkHdr c hb) true 86400 (Z.max (zlen ss) 86400) _ _ _ _ (proj2 (table_class _ _ Hc)) ltac:(lia) R)
    as (f2 & R2 & _).
  destruct (C66_readme_usage_any n md w fv path p rest line zero _ _ Hf Lw Hp Hd Hr G) as (ys & e & f' & R3 & K).
  rewrite R2 in R3. apply triple_eq in R3. destruct R3 as (<- & Q & _). apply some_eq in Q. subst e.
  cbn [h_buf] in K. rewrite firstn_map, views_bytes in K. fold (at_most_default cs) in K.
  destruct (usage_lines line hb (map log_sample_bytes (at_most_default cs))) as [es z].
  destruct K as (l' & w' & K1 & K2). exists tl, l', w'. split; [exact Ep|]. split; [|exact K2]. rewrite K1.
  assert (Ez : zlen (map (view c) cs) = zlen cs) by (unfold zlen; rewrite map_length; reflexivity).
  rewrite Ez. destruct z; [reflexivity|]. destruct (Z.leb_spec 86400 (zlen cs)); destruct (Z.ltb_spec (zlen cs) 86400); try lia; cbn [andb]; [reflexivity|].
  destruct (u32_at tl 16 =? 0); reflexivity.
Qed.

(** On a whole log. *)
Theorem C66_readme_usage n md w fv path rest line zero vs hb ss : foreign md -> loaded w -> cps fv = Some path ->
  prints_line (exec_block (EX n md) rest) (EV n md) line zero ->
  wf_log dec vs hb ss -> disk path = Ok (log_bytes hb ss) ->
  let (es, z) := usage_lines line hb (map log_sample_bytes (at_most_default ss)) in
  exists l' w', EX n md (readme_usage rest) (script_env fv) w = TDone (if z then OExc zero else ONext) l' w' /\
    w_out w' = w_out w ++ Opened path :: es.
Proof.
  intros Hf Lw Hp Hr Hw Hd. pose proof Hw as (Hvs & Ha & Hws). assert (zlen hb = header_size) as Lh by apply Ha.
  assert (Hz : header_size <= zlen (log_bytes hb ss)) by (unfold log_bytes; rewrite zlen_app; pose proof (zlen_nonneg (samples_bytes ss)); lia).
  pose proof (C66_readme_usage_truncated n md w fv path rest line zero vs hb ss (log_bytes hb ss) [] Hf Lw Hp Hr Hw
     ltac:(rewrite app_nil_r; reflexivity) Hz Hd) as K. cbv zeta in K.
  replace (complete (zlen (log_bytes hb ss) - header_size) ss) with ss in K.
  2: { symmetry. unfold log_bytes. rewrite zlen_app, Lh. apply complete_all. lia. }
  destruct (usage_lines line hb (map log_sample_bytes (at_most_default ss))) as [es z].
  destruct K as (tl & l' & w' & Ep & K1 & K2). exists l', w'. split; [|exact K2]. rewrite K1.
  assert (tl = []) as ->.
  { unfold log_bytes in Ep. apply app_inv_head in Ep. rewrite <- (app_nil_r (samples_bytes ss)) in Ep at 1.
    apply app_inv_head in Ep. symmetry. exact Ep. }
  change (u32_at [] 16) with 0. cbn [Z.eqb negb]. rewrite andb_false_r. reflexivity.
Qed.
End Src.

(** ** Concrete cases *)

(** A script's module. *)
Example C66_example_script : foreign "__main__".
Proof. intros x. reflexivity. Qed.

(** Statements that compute with the two numbers and print a line: the fraction itself, and an
    exception if its denominator is 0. *)
Definition print_fraction : list stmt :=
  [SIf (ECmp OpEq (EName "total_cycles") (EInt 0))
     [SExpr (EAttr ENone "quotient")]
     [SExpr (ECall (EName "print") [EFStr [EStr "idle "; itime_expr; EStr "/"; EName "total_cycles"]] [])]].
Lemma sapp_assoc (a b c : string) : (a ++ (b ++ c) = (a ++ b) ++ c)%string.
Proof. induction a as [|x a IH]; [reflexivity|]. cbn [append]. rewrite IH. reflexivity. Qed.

Example C66_example_rest dec disk salvage fault float_repr argv n :
  prints_line (exec_block (exec dec disk salvage fault float_repr globals (call_n dec disk salvage fault float_repr argv globals functions (5 + n)) "__main__" None) print_fraction)
    (eval dec disk salvage fault float_repr globals (call_n dec disk salvage fault float_repr argv globals functions (5 + n)) "__main__")
    (fun i t => text ("idle " ++ str_of_int i ++ "/" ++ str_of_int t)) (XB (AttributeError "quotient")).
Proof.
  intros l w i t _ Ht Hi Hp. exists l. split; [auto|]. unfold print_fraction. cbn [exec_block exec eval].
  unfold name_value at 1. rewrite Ht. cbn [ok_or_stuck ebind compare_val equal_val option_map with_val truthy].
  destruct (t =? 0); [reflexivity|].
  cbn [exec_block exec]. cbn [eval] in Hi |- *. unfold name_value at 1. rewrite Hp. rewrite (foreign_builtin "__main__" "print" C66_example_script).
  cbn [builtin_value builtin_names existsb String.eqb Ascii.eqb Bool.eqb orb ok_or_stuck ebind eval_list eval eval_fstr].
  rewrite fmt_str, cat_ss. cbn [ebind]. unfold itime_expr in *. cbn [eval] in Hi |- *. rewrite Hi. cbn [ebind]. rewrite fmt_int, cat_ss. cbn [ebind].
  rewrite fmt_str, cat_ss. cbn [ebind]. unfold name_value at 1. rewrite Ht. cbn [ok_or_stuck ebind]. rewrite fmt_int, cat_ss. cbn [ebind].
  cbn [eval_kws ebind call_value call_builtin]. rewrite cps_s. cbn [with_val tseq exec_block]. do 4 f_equal.
  rewrite <- !sapp_assoc. reflexivity.
Qed.
