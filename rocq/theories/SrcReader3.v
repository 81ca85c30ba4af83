(** * parse_file and main of reader.py: the loops and the whole functions *)
From Coq Require Import List ZArith Lia Bool String.
From Coq Require Import Init.Byte.
From Coq Require Import ZifyBool.
From Verif Require Import PyBase Utf8 CTypes S_shared S_1_26 S_2_11 Model Parsers Json Gzip Reader Messages.
From Verif Require Import Spec SpecDict BaseProofs LayoutProofs RepProofs DictProofs TableProofs HeaderProofs.
From Verif Require Import PySyntax PyEval Source PyProgram PyGenerator SpecSource SrcBase SrcHeader SrcUtils SrcStat SrcDict SrcCgroup SrcGen SrcGen2.
From Verif Require Import SpecSource2 SpecSource3 SrcParse PropSource3 SrcReader SrcReader2.
Import ListNotations.
Local Open Scope string_scope.
Local Open Scope list_scope.
Local Open Scope Z_scope.

Lemma formats_truthy w pv ps : formats w pv ps -> truthy w pv = Some (match ps with [] => false | _ => true end).
Proof.
  intros [[-> ->]|(id & -> & Hc)]; cbn [truthy]; [reflexivity|]. rewrite Hc. destruct ps; reflexivity.
Qed.
Lemma formats_grows w w' pv ps : grows w w' -> formats w pv ps -> formats w' pv ps.
Proof. intros G [H|(id & -> & Hc)]; [left; exact H|right]. exists id. split; [reflexivity|]. eapply list_grows; eassumption. Qed.

Definition loop_vars : list string := ["record"; "sstat"; "tstats"; "cgroups"; "parseable"; "sample"; "converted"].
Definition sample_target : target := TgTuple ["record"; "sstat"; "tstats"; "cgroups"].

Section Src.
Variable dec : list byte -> option (list byte).
Variable disk : list Z -> res (list byte).
Variable salvage : list byte -> list byte.
Variable fault : list byte -> exn.
Variable float_repr : Z -> list Z.
Variable argv : env.
Variable n : nat.
Notation CN := (call_n dec disk salvage fault float_repr argv globals functions).
Notation F := (CN (S (S (S (S (S n)))))).
Notation EV := (eval dec disk salvage fault float_repr globals F RD).
Notation EX := (exec dec disk salvage fault float_repr globals F RD None).
Notation EFOR := (exec_for dec disk salvage fault float_repr globals F RD).
Notation agrees := (agrees dec disk salvage fault float_repr argv n).
Notation gen_inv := (gen_inv dec disk salvage fault float_repr argv n).
Notation GBODY := (gbody dec disk salvage fault float_repr argv n).

Lemma for_list t it b l w id vs : EV it l w = EOk (VList id) w -> cell_at w id = Some (CList vs) ->
  EX (SFor t it b) l w = EFOR t (exec_block EX b) (map (fun x => fun _ => Some x) vs) l w.
Proof. intros H Hc. cbn [exec]. rewrite H. cbn [with_val accesses simple_accesses]. rewrite Hc. reflexivity. Qed.

Lemma gen_inv_keeps w w' p g : keeps w w' -> gen_inv w p g -> gen_inv w' p g.
Proof.
  intros G. destruct g as [hdr strict ms|h gate strict todo|]; cbn [SrcGen2.gen_inv].
  - intros (hv & -> & H). exists hv. split; [reflexivity|]. destruct hdr; [eapply keeps_hdr; eassumption|exact H].
  - intros (v & ms & vv & major & minor & i & e & k & H1 & H2 & H3).
    exists v, ms, vv, major, minor, i, e, k. split; [exact H1|]. split; [eapply keeps_hdr; eassumption|exact H3].
  - auto.
Qed.

Section Loop.
Variable sid : nat.
Variables hv pv : value.
Variables pp st sc : bool.
Variable h : hobj.
Variable ps : list string.
Notation RENV := (renv sid hv pv pp st sc).
Notation entries := (sample_entries parsers_1_26 ps st sc h).

Lemma sample_body_eq : sample_body = [SIf (EName "parseables") rows_part full_part].
Proof. reflexivity. Qed.
Lemma rows_part_eq : rows_part = [SFor (TgName "parseable") (EName "parseables") parseable_body].
Proof. reflexivity. Qed.

(** One sample. *)
Lemma sample_runs v s w l : typed (h_class h) s -> is_sample w v s ->
  (match v with VTuple [_; _; vt; vc] => vt <> VList sid /\ vc <> VList sid | _ => True end) ->
  loaded w -> (6 <= sid)%nat -> (exists vs, cell_at w sid = Some (CList vs)) -> is_hdr w hv h -> formats w pv ps -> RENV l ->
  exists l' w', others loop_vars l l' /\
    match entries s with
    | Ok es => GBODY sample_target sample_body v l w = TDone ONext l' w' /\ added sid w w' es
    | Raise e => GBODY sample_target sample_body v l w = TDone (OExc (xof e)) l' w' /\ exists es, added sid w w' es
    end.
Proof.
  intros Ty (vr & vs & vt & vc & -> & H1 & H2 & H3 & H4) [N1 N2] Lw L6 Hc Hh Hp Hl.
  unfold gbody. cbn [sample_target assign unpack bind_all tseq].
  set (l1 := dict_set (dict_set (dict_set (dict_set l "record" vr) "sstat" vs) "tstats" vt) "cgroups" vc).
  assert (O1 : others loop_vars l l1).
  { unfold l1. repeat (eapply others_trans; [|apply others_set; reflexivity]). apply others_refl. }
  assert (Hl1 : RENV l1) by (eapply renv_others; eassumption).
  assert (E1 : assoc "record" l1 = Some vr) by (unfold l1; rewrite !assoc_set; reflexivity).
  assert (E2 : assoc "sstat" l1 = Some vs) by (unfold l1; rewrite !assoc_set; reflexivity).
  assert (E3 : assoc "tstats" l1 = Some vt) by (unfold l1; rewrite !assoc_set; reflexivity).
  assert (E4 : assoc "cgroups" l1 = Some vc) by (unfold l1; rewrite !assoc_set; reflexivity).
  assert (At : sample_at sid hv h s vr vs vt w).
  { split; [exact Lw|]. split; [exact L6|]. split; [exact Hc|]. split; [exact Hh|]. split; [exact H1|]. split; [exact H2|].
    split; [exact H3|exact N1]. }
  assert (Ep : EV (EName "parseables") l1 w = EOk pv w).
  { cbn [eval]. unfold name_value. rewrite (re_parseables _ _ _ _ _ _ _ Hl1). reflexivity. }
  clearbody l1.
  assert (Eb : exec_block EX sample_body l1 w = tseq (exec_block EX (match ps with [] => full_part | _ => rows_part end) l1 w)
     (fun o l w => match o with ONext => TDone ONext l w | _ => TDone o l w end)).
  { rewrite sample_body_eq. cbn [exec_block]. cbn [exec]. rewrite Ep. cbn [with_val]. rewrite (formats_truthy _ _ _ Hp).
    destruct ps; reflexivity. }
  rewrite Eb. unfold sample_entries. destruct ps as [|p ps'] eqn:Eps.
  - destruct (full_runs dec disk salvage fault float_repr argv n sid hv pv pp st sc h s vr vs vt vc w l1 Ty At H4 Hl1 E1 E2 E3 E4)
      as (j & l2 & w2 & A1 & A2 & A3 & A4).
    exists l2, w2. rewrite A1. cbn [rbind]. split; [eapply others_trans; [exact O1|eapply others_wide; [|exact A3]; reflexivity]|].
    rewrite A2. split; [reflexivity|exact A4].
  - rewrite <- Eps in *.
    destruct (formats_loop dec disk salvage fault float_repr argv n sid hv pv pp st sc h s vr vs vt Ty ps w l1 At Hl1 E1 E2 E3)
      as (l2 & w2 & A1 & A2).
    exists l2, w2. split; [eapply others_trans; [exact O1|eapply others_wide; [|exact A1]; reflexivity]|].
    destruct Hp as [[-> Hp]|(id & -> & Hid)]; [congruence|].
    rewrite rows_part_eq. cbn [exec_block]. rewrite (for_list _ _ _ _ _ _ _ Ep Hid).
    destruct (parseable_rows parsers_1_26 ps h s) as [es|e]; destruct A2 as (A2 & A3); rewrite A2; (split; [reflexivity|exact A3]).
Qed.

(** The state at the head of the loop. *)
Variable w0 : world.
Variable out : list event.
Hypothesis Hw0 : (next w0 <= sid)%nat.
Hypothesis Lw0 : loaded w0.
Hypothesis Hpv : formats w0 pv ps.

Definition holds (js : list json) (w : world) : Prop :=
  grows w0 w /\ w_out w = out /\
  exists vs, cell_at w sid = Some (CList vs) /\ Forall2 (fun j v => json_val j w (S sid) (next w) v) js vs /\
    Forall (fun j => (jdepth j <= 20)%nat) js.

Lemma holds_grows js w w' : holds js w -> grows w w' -> w_out w' = w_out w -> holds js w'.
Proof.
  intros (H1 & H2 & vs & H3 & H4 & H5) G O. split; [eapply grows_trans; eassumption|]. split; [congruence|].
  exists vs. split; [eapply list_grows; eassumption|]. split; [|exact H5]. pose proof (next_grows _ _ G) as N.
  eapply forall2_impl; [|exact H4]. cbv beta. intros j v J. eapply jin_wide; [apply le_n|exact N|]. eapply jin_grows; eassumption.
Qed.

Lemma holds_added js es w w' : holds js w -> added sid w w' es -> holds (js ++ es) w'.
Proof.
  intros (H1 & H2 & vs & H3 & H4 & H5) (S & A). destruct (A vs H3) as (vs' & C & J & D).
  split; [eapply samex_grows; eassumption|]. split; [destruct S as (_ & _ & _ & S); congruence|].
  exists (vs ++ vs'). split; [exact C|]. split; [|apply Forall_app; auto]. pose proof (proj1 S) as N.
  pose proof (cell_lt _ _ _ H3) as L.
  apply Forall2_app.
  - eapply forall2_impl; [|exact H4]. cbv beta. intros j v Jv. eapply jin_wide; [apply le_n|exact N|].
    eapply jin_samex; [exact S|apply le_n|left; lia|exact Jv].
  - eapply forall2_impl; [|exact J]. cbv beta. intros j v. apply jin_wide; lia.
Qed.

Lemma holds_out js w : holds js w -> grows w0 w /\ w_out w = out.
Proof. intros (A & B & _). auto. Qed.

Lemma loop_runs fuel : forall g t w l js,
  agrees w (gnext dec g (w_file w)) (resume t) -> gen_of h g -> 0 <= todo_of g < Z.of_nat fuel ->
  holds js w -> plain_fault (w_file w) -> is_hdr w hv h -> RENV l ->
  exists l' w', others loop_vars l l' /\
  match fst (collect dec entries fuel g (w_file w)) with
  | Ok es => tfor t (GBODY sample_target sample_body) l = TDone ONext l' w' /\ holds (js ++ es) w'
  | Raise e => tfor t (GBODY sample_target sample_body) l = TDone (OExc (xof e)) l' w' /\ grows w0 w' /\ w_out w' = out
  end.
Proof.
  assert (L6 : (6 <= sid)%nat) by (pose proof (loaded_next _ Lw0); lia).
  induction fuel as [|fuel IH]; intros g t w l js Hag Hg Hf Hj Hpf Hh Hl.
  { exfalso. cbn [Z.of_nat] in Hf. lia. }
  cbn [collect]. pose proof (gnext_plain dec g (w_file w)) as P. cbv beta in P.
  destruct (gnext dec g (w_file w)) as [[o g'] f'] eqn:Eg. specialize (P _ _ Hpf eq_refl).
  destruct t as [oc le we|v w1 k]; cbn [resume] in Hag.
  - destruct oc as [| |rv|x]; cbn [SrcGen2.agrees] in Hag; destruct Hag as (Ho & G & Hfile & Hout & _);
      destruct o as [s| |e]; cbn [out_rel] in Ho; try (destruct Ho as (? & Ho & _)); try discriminate Ho.
    + exists l, we. split; [apply others_refl|]. cbn [fst tfor]. split; [reflexivity|]. rewrite app_nil_r. eapply holds_grows; eassumption.
    + exfalso. injection Ho as Ho. exact (xof_not_stuck e (eq_sym Ho)).
    + exists l, we. split; [apply others_refl|]. cbn [fst tfor]. split; [reflexivity|]. rewrite app_nil_r. eapply holds_grows; eassumption.
    + injection Ho as ->. exists l, we. split; [apply others_refl|]. cbn [fst tfor]. split; [reflexivity|].
      eapply holds_out, holds_grows; eassumption.
  - cbn [SrcGen2.agrees] in Hag. destruct Hag as (Ho & G & Hfile & Hout & Hinv).
    destruct o as [s| |e]; cbn [out_rel] in Ho; try discriminate Ho. destruct Ho as (v' & Ho & Hs & Hn). injection Ho as <-.
    destruct (next_types _ _ _ _ _ _ _ Hg Eg) as (Ty & Hg' & T1 & T2).
    pose proof (holds_grows _ _ _ Hj G Hout) as Hj1. pose proof Hj1 as (G1 & _ & vs & C1 & _).
    assert (Lsid : (sid < next w)%nat) by (destruct Hj as (_ & _ & vs0 & C0 & _); eapply cell_lt, C0).
    assert (Hne : match v with VTuple [_; _; vt; vc] => vt <> VList sid /\ vc <> VList sid | _ => True end).
    { destruct Hs as (a & b & c & d & -> & _). destruct Hn as [(i1 & -> & K1) (i2 & -> & K2)]. unfold next in *. split; intros E; injection E as E; lia. }
    destruct (sample_runs v s w1 l Ty Hs Hne (loaded_grows _ _ G1 Lw0) L6 (ex_intro _ vs C1) (is_hdr_grows _ _ _ _ G Hh) (formats_grows _ _ _ _ G1 Hpv) Hl)
      as (l2 & w2 & O2 & K).
    cbn [tfor]. destruct (entries s) as [es|e].
    + destruct K as (K1 & K2). rewrite K1. cbn [tseq].
      pose proof (holds_added _ _ _ _ Hj1 K2) as Hj2. pose proof (proj1 K2) as S2.
      assert (F2 : w_file w2 = f') by (destruct S2 as (_ & _ & S2 & _); congruence).
      pose proof (samex_keeps _ _ _ _ S2 C1) as Kw.
      destruct (IH g' (k None w2) w2 l2 (js ++ es)) as (l3 & w3 & O3 & K3).
      * rewrite F2. pose proof (next_step dec disk salvage fault float_repr argv n w2 (PSusp k) g') as NS.
        rewrite F2 in NS. apply NS; [exact (loaded_grows _ _ (proj1 Hj2) Lw0)|exact P|exact (gen_inv_keeps _ _ _ _ Kw Hinv)].
      * exact Hg'.
      * lia.
      * exact Hj2.
      * rewrite F2. exact P.
      * exact (keeps_hdr _ _ _ _ Kw (is_hdr_grows _ _ _ _ G Hh)).
      * eapply renv_others; eassumption.
      * exists l3, w3. split; [eapply others_trans; eassumption|]. rewrite F2 in K3.
        destruct (collect dec entries fuel g' f') as [[es'|e] f'']; cbn [fst] in *; [|exact K3].
        destruct K3 as (K3 & K4). split; [exact K3|]. rewrite app_assoc. exact K4.
    + destruct K as (K1 & es & K2). rewrite K1. cbn [tseq fst]. exists l2, w2. split; [exact O2|]. split; [reflexivity|].
      eapply holds_out, holds_added; eassumption.
Qed.
End Loop.

(** ** The [with] block (reader.py:80-111) *)

Definition err_body : list stmt := match nth 1 with_body SPass with SIf _ a _ => a | _ => [] end.
Definition if_cond : expr := EAnd (EName "parseables") (ECmp OpNotIn (EAttr (EName "header") "semantic_version") (EName "PARSEABLE_MAP")).
Definition gen_iter : expr := ECall (EAttr (EName "atoparser") "generate_statistics") [EName "raw_file"; EName "header"] [("raise_on_truncation", EBool false)].

Lemma with_body_eq : with_body =
  [SAssign (TgName "header") (ECall (EAttr (EName "atoparser") "get_header") [EName "raw_file"] []); SIf if_cond err_body else_body].
Proof. reflexivity. Qed.
Lemma else_body_eq : else_body =
  [SAssign (TgName "parsers") (ECall (EAttr (EName "PARSEABLE_MAP") "get") [EAttr (EName "header") "semantic_version"; ESub (EName "PARSEABLE_MAP") (EStr "1.26")] []);
   SFor sample_target gen_iter sample_body].
Proof. reflexivity. Qed.

Section File.
Variables fv pv : value.
Variables pp st sc : bool.
Variable path : list Z.
Variable ps : list string.
Variable w0 : world.
Hypothesis Lw0 : loaded w0.
Hypothesis Hfv : cps fv = Some path.
Hypothesis Hpv : formats w0 pv ps.
Notation sid := (next w0).
Variable out : list event.
Notation holds := (holds sid w0 out).

Definition wenv (ov : value) : env :=
  [("file", fv); ("parseables", pv); ("pretty_print", VBool pp); ("show_tstats", VBool st); ("show_cstats", VBool sc);
   ("samples", VList sid); ("opener", ov); ("raw_file", VFile)].

(** What the last statement needs. *)
Definition end_env (l : env) : Prop :=
  assoc "samples" l = Some (VList sid) /\ assoc "pretty_print" l = Some (VBool pp) /\ assoc "json" l = None /\ assoc "print" l = None.

Lemma map_member w v : loaded w -> compare_val w OpNotIn (VStr v) (VDict 5) =
  Some (negb (match assoc v PARSEABLE_MAP with Some _ => true | None => false end)).
Proof.
  intros Lw. cbn [compare_val member]. rewrite (Lw 5%nat _ eq_refl). unfold PARSEABLE_MAP. cbn [assoc].
  destruct (String.eqb v "1.26"); reflexivity.
Qed.

Lemma else_runs ov hv h w : holds [] w -> plain_fault (w_file w) -> is_hdr w hv h ->
  exists l' w',
  match fst (collect dec (sample_entries parsers_1_26 ps st sc h) (S (Z.to_nat MAX_SAMPLES_PER_FILE))
                     (generate_statistics (Some h) false MAX_SAMPLES_PER_FILE) (w_file w)) with
  | Ok js => exec_block EX else_body (wenv ov ++ [("header", hv)]) w = TDone ONext l' w' /\ end_env l' /\ holds js w'
  | Raise e => exec_block EX else_body (wenv ov ++ [("header", hv)]) w = TDone (OExc (xof e)) l' w' /\ grows w0 w' /\ w_out w' = out
  end.
Proof.
  intros Hj Hpf Hh.
  destruct (hdr_semantic dec disk salvage fault float_repr argv (S (S (S (S n)))) w hv h Hh) as (w1 & E1 & (G1 & F1 & O1) & _).
  set (l1 := wenv ov ++ [("header", hv); ("parsers", VDict 4)]).
  pose proof (holds_grows _ _ _ _ _ _ Hj G1 O1) as Hj1.
  pose proof (loaded_grows _ _ (proj1 Hj1) Lw0) as Lw1.
  rewrite else_body_eq.
  assert (Ea : EX (SAssign (TgName "parsers") (ECall (EAttr (EName "PARSEABLE_MAP") "get")
       [EAttr (EName "header") "semantic_version"; ESub (EName "PARSEABLE_MAP") (EStr "1.26")] [])) (wenv ov ++ [("header", hv)]) w =
     TDone ONext l1 w1).
  { unfold wenv. cbn [app]. ev. rewrite E1. ev. cbn [sub_val]. rewrite (Lw1 5%nat _ eq_refl). ev. cbn [call_method].
    rewrite (Lw1 5%nat _ eq_refl). cbn [assoc]. destruct (String.eqb (vtext h) "1.26"); ev; reflexivity. }
  erewrite block_next by exact Ea.
  set (genv := gen_env hv false MAX_SAMPLES_PER_FILE).
  assert (Ei : EV gen_iter l1 w1 = EOk (VGen U "generate_statistics" genv) w1).
  { unfold gen_iter, l1, wenv. cbn [app]. ev. apply src_generate. reflexivity. }
  cbn [exec_block]. rewrite (for_gen _ _ _ _ _ _ _ _ _ _ _ _ _ _ _ _ Ei).
  assert (NS := next_step dec disk salvage fault float_repr argv n w1 (PNew U "generate_statistics" genv)
      (generate_statistics (Some h) false MAX_SAMPLES_PER_FILE) Lw1).
  assert (Hpf1 : plain_fault (w_file w1)) by (rewrite F1; exact Hpf).
  pose proof (is_hdr_grows _ _ _ _ G1 Hh) as Hh1.
  specialize (NS Hpf1 ltac:(exists hv; split; [reflexivity|exact Hh1])).
  destruct (loop_runs sid hv pv pp st sc h ps w0 out (le_n _) Lw0 Hpv (S (Z.to_nat MAX_SAMPLES_PER_FILE))
     (generate_statistics (Some h) false MAX_SAMPLES_PER_FILE) (f_gen F U "generate_statistics" genv w1) w1 l1 [])
    as (l2 & w2 & O2 & K).
  - exact NS.
  - reflexivity.
  - cbn [generate_statistics todo_of]. unfold MAX_SAMPLES_PER_FILE. lia.
  - exact Hj1.
  - exact Hpf1.
  - exact Hh1.
  - constructor; reflexivity.
  - exists l2, w2. rewrite F1 in K.
    destruct (fst (collect dec _ _ _ (w_file w))) as [js|e].
    + destruct K as (K1 & K2). rewrite K1. split; [reflexivity|]. split; [|exact K2].
      repeat split; (rewrite O2; [reflexivity|reflexivity]).
    + destruct K as (K1 & K2). rewrite K1. split; [reflexivity|exact K2].
Qed.

Lemma with_runs ov w : holds [] w -> plain_fault (w_file w) ->
  exists l' w',
  match fst (samples_of_file dec path ps st sc (w_file w)) with
  | Ok js => exec_block EX with_body (wenv ov) w = TDone ONext l' w' /\ end_env l' /\ holds js w'
  | Raise e => exec_block EX with_body (wenv ov) w = TDone (OExc (xof e)) l' w' /\ grows w0 w' /\ w_out w' = out
  end.
Proof.
  intros Hj Hpf. pose proof (loaded_grows _ _ (proj1 Hj) Lw0) as Lw.
  pose proof (src_get_header dec disk salvage fault float_repr argv (S n) w [VFile] [] true Lw Hpf eq_refl) as K.
  rewrite with_body_eq. unfold samples_of_file.
  destruct (get_header true (w_file w)) as [[h|x] f'] eqn:Eh; unfold runs in K.
  2: { destruct K as (w1 & K & G & Fl & O). exists (wenv ov), w1. cbn [fst].
       erewrite block_exc; cycle 1.
       { unfold wenv. ev. change U with "atoparser.utils" in *. rewrite K. reflexivity. }
       split; [reflexivity|]. eapply holds_out, holds_grows; eassumption. }
  destruct K as (hv & w1 & K & G & Fl & O & Hh).
  pose proof (holds_grows _ _ _ _ _ _ Hj G O) as Hj1.
  assert (Hpf1 : plain_fault (w_file w1)) by (rewrite Fl; exact (keeps_header true _ _ _ Hpf Eh)).
  erewrite block_next; cycle 1.
  { unfold wenv. ev. change U with "atoparser.utils" in *. rewrite K. ev. reflexivity. }
  match goal with |- context [exec_block _ _ ?e w1] => change e with (wenv ov ++ [("header", hv)]) end.
  rewrite (semantic_vtext h (hdr_in _ _ _ Hh)).
  assert (Ep : forall w, EV (EName "parseables") (wenv ov ++ [("header", hv)]) w = EOk pv w) by reflexivity.
  pose proof (formats_grows _ _ _ _ (proj1 Hj1) Hpv) as Hp1.
  pose proof else_runs as ER.
  destruct ps as [|p ps'].
  - (* no formats: the else branch *)
    assert (Ec : EV if_cond (wenv ov ++ [("header", hv)]) w1 = EOk pv w1).
    { unfold if_cond. cbn [eval] in *. rewrite Ep. cbn [ebind]. rewrite (formats_truthy _ _ _ Hp1). reflexivity. }
    destruct (ER ov hv h w1 Hj1 Hpf1 Hh) as (l2 & w2 & R). exists l2, w2.
    assert (Em : match assoc (vtext h) PARSEABLE_MAP with Some p => p | None => parsers_1_26 end = parsers_1_26).
    { unfold PARSEABLE_MAP. cbn [assoc]. destruct (String.eqb (vtext h) "1.26"); reflexivity. }
    rewrite Em. rewrite <- Fl.
    assert (Eb : EX (SIf if_cond err_body else_body) (wenv ov ++ [("header", hv)]) w1 = exec_block EX else_body (wenv ov ++ [("header", hv)]) w1).
    { generalize else_body err_body. intros bb bb'. cbn [exec]. rewrite Ec. cbn [with_val]. rewrite (formats_truthy _ _ _ Hp1). reflexivity. }
    cbn [exec_block]. rewrite Eb.
    destruct (fst (collect dec _ _ _ _)) as [js|e].
    + destruct R as (R1 & R2). rewrite R1. split; [reflexivity|exact R2].
    + destruct R as (R1 & R2). rewrite R1. split; [reflexivity|exact R2].
  - destruct (hdr_semantic dec disk salvage fault float_repr argv (S (S (S (S n)))) w1 hv h Hh) as (w2 & E2 & (G2 & F2 & O2) & _).
    pose proof (holds_grows _ _ _ _ _ _ Hj1 G2 O2) as Hj2. pose proof (loaded_grows _ _ (proj1 Hj2) Lw0) as Lw2.
    pose proof (is_hdr_grows _ _ _ _ G2 Hh) as Hh2.
    assert (Ec : EV if_cond (wenv ov ++ [("header", hv)]) w1 =
        EOk (VBool (negb (match assoc (vtext h) PARSEABLE_MAP with Some _ => true | None => false end))) w2).
    { unfold if_cond. cbn [eval] in *. rewrite Ep. cbn [ebind]. rewrite (formats_truthy _ _ _ Hp1).
      unfold wenv. cbn [app]. ev. rewrite E2. ev. rewrite (map_member w2 _ Lw2) || (cbn [member]; rewrite (Lw2 5%nat _ eq_refl); unfold PARSEABLE_MAP; cbn [assoc]; destruct (String.eqb (vtext h) "1.26")); reflexivity. }
    assert (Eb : EX (SIf if_cond err_body else_body) (wenv ov ++ [("header", hv)]) w1 =
       exec_block EX (if match assoc (vtext h) PARSEABLE_MAP with Some _ => true | None => false end then else_body else err_body) (wenv ov ++ [("header", hv)]) w2).
    { generalize else_body err_body. intros bb bb'. cbn [exec]. rewrite Ec. cbn [with_val truthy]. destruct (assoc (vtext h) PARSEABLE_MAP); reflexivity. }
    destruct (assoc (vtext h) PARSEABLE_MAP) as [m|] eqn:Em.
    + assert (m = parsers_1_26) as ->.
      { unfold PARSEABLE_MAP in Em. cbn [assoc] in Em. destruct (String.eqb (vtext h) "1.26"); [congruence|discriminate Em]. }
     
      destruct (ER ov hv h w2 Hj2 ltac:(rewrite F2; exact Hpf1) Hh2) as (l2 & w3 & R). exists l2, w3.
      cbn [exec_block]. rewrite Eb. rewrite F2, Fl in R.
      destruct (fst (collect dec _ _ _ _)) as [js|e]; destruct R as (R1 & R2); rewrite R1; (split; [reflexivity|exact R2]).
    + (* the version is not supported *)
      destruct (hdr_semantic dec disk salvage fault float_repr argv (S (S (S (S n)))) w2 hv h Hh2) as (w3 & E3 & (G3 & F3 & O3) & _).
      pose proof (holds_grows _ _ _ _ _ _ Hj2 G3 O3) as Hj3. pose proof Hj3 as (_ & _ & vs & C3 & J3 & _).
      assert (vs = []) by (inversion J3; reflexivity). subst vs.
      set (msg := ("Atop version " ++ vtext h ++ " does not support parseables, only full raw output.")%string).
      set (e := [("error", VStr msg); ("file", fv)]). set (w4 := push (CDict e) w3). set (did := next w3).
      assert (C4 : cell_at w4 sid = Some (CList [])) by (apply cell_push, C3).
      assert (A : added sid w3 (upd sid (CList ([] ++ [VDict did])) w4) [JDict [("error", JStr (text msg)); ("file", JStr path)]]).
      { apply added_one; [eapply cell_lt, C3|apply same_push| |cbn; lia|exact C4].
        cbn [json_val]. exists did, e. split; [reflexivity|]. split; [unfold w4; rewrite next_push; unfold did; lia|].
        split; [apply cell_push_new|]. unfold e. cbn [all2 fst snd json_val]. rewrite Hfv. repeat split. }
      pose proof (holds_added _ _ _ (le_n _) _ _ _ _ Hj3 A) as Hj4.
      exists (wenv ov ++ [("header", hv)]), (upd sid (CList ([] ++ [VDict did])) w4). cbn [fst].
      split; [|split; [repeat split|exact Hj4]].
      cbn [exec_block]. rewrite Eb. clear Eb Ec Hj4 A.
      cbn [err_body with_body nth fd_body r_parse_file].
      erewrite block_next; cycle 1.
      { unfold wenv. cbn [app]. ev. rewrite E3. ev. rewrite alloc_eq. ev.
        match goal with |- context [push (CDict ?d) w3] => replace d with e end.
        2: { unfold e, msg. do 3 f_equal. }
        fold w4. cbn [call_method]. rewrite C4. reflexivity. }
      reflexivity.
Qed.
End File.

(** ** parse_file *)

Hypothesis disk_plain : forall p e, disk p = Raise e -> message e = None.
Hypothesis fault_plain : forall b, message (fault b) = None.

Lemma open_plain b gz : plain_fault (if gz : bool then gzip_file salvage fault b else plain b).
Proof.
  destruct gz; [|discriminate]. intros e. unfold gzip_file. destruct b as [|x b]; [discriminate|].
  destruct (gz_magic (x :: b)); [|intros E; injection E as <-; reflexivity].
  destruct (gunzip (x :: b)); [discriminate|]. intros E. injection E as <-. apply fault_plain.
Qed.

Lemma src_parse_file w0 args kws fv pv pp st sc path ps :
  bind_params globals RD (fd_params r_parse_file) args kws =
    Some [("file", fv); ("parseables", pv); ("pretty_print", VBool pp); ("show_tstats", VBool st); ("show_cstats", VBool sc)] ->
  loaded w0 -> cps fv = Some path -> formats w0 pv ps ->
  exists w', f_call (CN (S (S (S (S (S (S n))))))) RD "parse_file" args kws w0 =
      file_result (parse_file dec disk salvage fault float_repr path ps pp st sc) w' /\
    grows w0 w' /\ w_out w' = w_out w0 ++ file_events path (parse_file dec disk salvage fault float_repr path ps pp st sc).
Proof.
  intros Hb Lw0 Hfv Hpv.
  erewrite call_eq; [|reflexivity|reflexivity|exact Hb|reflexivity].
  unfold run_body. 
  set (l0 := [("file", fv); ("parseables", pv); ("pretty_print", VBool pp); ("show_tstats", VBool st); ("show_cstats", VBool sc)]).
  assert (Efd : fd_body r_parse_file =
    [nth 0 (fd_body r_parse_file) SPass; nth 1 (fd_body r_parse_file) SPass;
     SWith (ECall (EName "opener") [EName "file"; EStr "rb"] []) "raw_file" with_body; nth 3 (fd_body r_parse_file) SPass]) by reflexivity.
  rewrite Efd. clear Efd.
  set (sid := next w0). set (w1 := push (CList []) w0).
  set (ov := VBuiltin (if uses_gzip path then "gzip.open" else "open")).
  set (l1 := l0 ++ [("samples", VList sid); ("opener", ov)]).
  erewrite block_next; cycle 1.
  { cbn [nth fd_body r_parse_file]. unfold l0. ev. rewrite alloc_eq. ev. reflexivity. }
  erewrite block_next; cycle 1.
  { cbn [nth fd_body r_parse_file].
    match goal with |- context [exec _ _ _ _ _ _ _ _ _ _ ?e ?w] => instantiate (2 := l1); instantiate (1 := w1); fold sid; fold w1 end.
    ev. rewrite (gz_member w1 fv path Hfv). unfold l1, l0, ov. destruct (uses_gzip path); ev; reflexivity. }
  set (w2 := emit (Opened path) w1).
  assert (G2 : grows w0 w2) by (eapply grows_trans; [apply push_grows|apply emit_grows]).
  assert (Eo : EV (ECall (EName "opener") [EName "file"; EStr "rb"] []) l1 w1 =
     match disk path with
     | Ok b => EOk VFile (set_file (if uses_gzip path then gzip_file salvage fault b else plain b) w2)
     | Raise e => EErr (XB e) w2
     end).
  { unfold l1, l0, ov. cbn [app]. destruct (uses_gzip path); ev; cbn [open_builtin]; rewrite Hfv; reflexivity. }
  unfold parse_file, open_file.
  destruct (disk path) as [b|e] eqn:Ed; cbn [rbind]; cycle 1.
  { exists w2. erewrite block_exc; cycle 1.
    { generalize with_body. intros wb. cbn [exec]. rewrite Eo. reflexivity. }
    cbn [finish file_result file_events]. unfold xof. rewrite (disk_plain _ _ Ed). split; [reflexivity|]. split; [exact G2|reflexivity]. }
  set (f := if uses_gzip path then gzip_file salvage fault b else plain b) in *.
  set (w3 := set_file f w2) in *.
  assert (Hj : holds sid w0 (w_out w0 ++ [Opened path]) [] w3).
  { split; [eapply grows_trans; [exact G2|apply set_file_grows]|]. split; [reflexivity|]. exists []. split; [|split; constructor].
    change (cell_at w3 sid) with (cell_at w1 sid). apply cell_push_new. }
  destruct (with_runs fv pv pp st sc path ps w0 Lw0 Hfv Hpv (w_out w0 ++ [Opened path]) ov w3 Hj (open_plain b (uses_gzip path)))
    as (l4 & w4 & K).
  assert (Ew : EX (SWith (ECall (EName "opener") [EName "file"; EStr "rb"] []) "raw_file" with_body) l1 w1 =
    exec_block EX with_body (wenv fv pv pp st sc w0 ov) w3).
  { generalize with_body. intros wb. cbn [exec]. rewrite Eo. reflexivity. }
  change (w_file w3) with f in K.
  destruct (fst (samples_of_file dec path ps st sc f)) as [js|e]; cycle 1.
  { destruct K as (K & G & O). rewrite K in Ew. exists w4. erewrite block_exc by exact Ew.
    cbn [finish rbind file_result file_events]. auto. }
  destruct K as (K & (E1 & E2 & E3 & E4) & (G4 & O4 & vs & C4 & J4 & D4)). rewrite K in Ew. erewrite block_next by exact Ew. clear Ew K.
  assert (Ej : to_json json_depth w4 (VList sid) = Some (JList js)).
  { eapply (to_json_val (JList js)); [pose proof (jlist_bound _ _ D4); unfold json_depth; lia|].
    cbn [json_val]. exists sid, vs. split; [reflexivity|]. split; [split; [apply le_n|eapply cell_lt, C4]|]. split; [exact C4|].
    apply all2_iff. eapply forall2_impl; [|exact J4]. cbv beta. intros j v. apply jin_wide; lia. }
  cbn [rbind].
  destruct (dumps float_repr pp 0 (JList js)) as [t|] eqn:Et.
  - exists (emit (Printed t) w4).
    erewrite block_next; cycle 1.
    { cbn [nth fd_body r_parse_file]. fold sid in E1. evx. destruct pp; evx; unfold indent_of; rewrite Ej, Et; evx; reflexivity. }
    cbn [exec_block finish file_result file_events]. split; [reflexivity|]. split; [eapply grows_trans; [exact G4|apply emit_grows]|].
    unfold emit. cbn [w_out]. rewrite O4, <- app_assoc. reflexivity.
  - exists w4.
    erewrite block_exc; cycle 1.
    { cbn [nth fd_body r_parse_file]. fold sid in E1. evx. destruct pp; evx; unfold indent_of; rewrite Ej, Et; evx; reflexivity. }
    cbn [finish file_result file_events]. auto.
Qed.
End Src.
