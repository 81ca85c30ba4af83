(** * The generator of generate_statistics, through any sequence of next, throw and close *)
From Coq Require Import List ZArith Lia Bool String.
From Coq Require Import Init.Byte.
From Coq Require Import ZifyBool.
From Verif Require Import PyBase Utf8 CTypes S_shared S_1_26 Model Parsers Json Gzip Reader Messages.
From Verif Require Import Spec BaseProofs LayoutProofs RepProofs DictProofs TableProofs HeaderProofs.
From Verif Require Import PySyntax PyEval Source PyProgram PyGenerator SpecSource SrcBase SrcHeader SrcUtils SrcStat SrcCgroup SrcGen.
Import ListNotations.
Local Open Scope string_scope.
Local Open Scope list_scope.
Local Open Scope Z_scope.

Lemma xof_not_stuck e : xof e <> XStuck.
Proof. unfold xof. destruct (message e); discriminate. Qed.

Section Src.
Variable dec : list byte -> option (list byte).
Variable disk : list Z -> res (list byte).
Variable salvage : list byte -> list byte.
Variable fault : list byte -> exn.
Variable float_repr : Z -> list Z.
Variable argv : env.
Notation CN := (call_n dec disk salvage fault float_repr argv globals functions).
Notation GA := (get_attr globals).
Notation EV := (eval dec disk salvage fault float_repr globals).
Notation EX := (exec dec disk salvage fault float_repr globals).
Notation RB := (run_body dec disk salvage fault float_repr globals).
Variable n : nat.
Let N := S (S (S (S n))).
Notation WRAP := (WRAP dec disk salvage fault float_repr argv n).
Notation LOOP := (LOOP dec disk salvage fault float_repr argv n).
Notation looped := (looped dec disk salvage fault float_repr argv n).
Notation at_yield := (at_yield dec disk salvage fault float_repr argv n).
Notation handler := (handler dec disk salvage fault float_repr argv n).

Definition gen_env (hv : value) (strict : bool) (ms : Z) : env :=
  [("raw_file", VFile); ("header", hv); ("raise_on_truncation", VBool strict); ("max_samples", VInt ms)].

(** The source's generator object is in the state the model says. *)
Definition gen_inv (w : world) (p : pgen) (g : gstate) : Prop :=
  match g with
  | GInit hdr strict ms =>
      exists hv, p = PNew U "generate_statistics" (gen_env hv strict ms) /\
                 match hdr with None => hv = VNone | Some h => is_hdr w hv h end
  | GYielded h gate strict todo =>
      exists v ms vv major minor i e k,
        p = PSusp k /\ is_hdr w v h /\ gate = (2 <=? major) && (11 <=? minor) /\
        genv v strict ms vv major minor e /\
        forall r w, k r w = WRAP (tseq (at_yield e r w) (looped (Z.to_nat todo) i))
  | GDone => p = PFin
  end.

Lemma gen_inv_grows w w' p g : grows w w' -> gen_inv w p g -> gen_inv w' p g.
Proof.
  intros G. destruct g as [hdr strict ms|h gate strict todo|]; cbn [gen_inv].
  - intros (hv & -> & H). exists hv. split; [reflexivity|]. destruct hdr; [eapply is_hdr_grows; eassumption|exact H].
  - intros (v & ms & vv & major & minor & i & e & k & H1 & H2 & H3).
    exists v, ms, vv, major, minor, i, e, k. split; [exact H1|]. split; [eapply is_hdr_grows; eassumption|exact H3].
  - auto.
Qed.

Definition agrees (w : world) (m : gout * gstate * file) (r : pres * pgen * world) : Prop :=
  let '(o, g', f') := m in
  let '(o', p', w') := r in
  out_rel w w' o' o /\ grows w w' /\ w_file w' = f' /\ w_out w' = w_out w /\ gen_inv w' p' g'.

Lemma out_grows w0 w1 w o m : grows w0 w1 -> out_rel w1 w o m -> out_rel w0 w o m.
Proof.
  intros G. destruct m as [s| |x]; cbn [out_rel]; auto. intros (v & -> & H1 & H2). exists v.
  split; [reflexivity|]. split; [exact H1|]. unfold new_sample in *. destruct v as [| | | | | | | |l| | | | | | | | | | | | | | | | | |]; auto.
  destruct l as [|a [|b [|c [|d [|]]]]]; auto. destruct H2 as [H2 H3]. split; eapply new_list_grows; eassumption.
Qed.

(** An exception inside the [try] block. *)
Lemma caught_out w0 strict e l w : caught strict l ->
  exists o, resume (tseq (handler (xof e) l w) (rest dec disk salvage fault float_repr argv n)) = (o, PFin, w) /\
            out_rel w0 w o (on_exception strict e).
Proof.
  intros Hl. rewrite (handler_eq dec disk salvage fault float_repr argv n strict (xof e) l w Hl (xof_not_stuck e)).
  unfold xof, on_exception, out_rel. destruct e as [ve| | | | | |]; cbn [message];
    try (eexists; split; [reflexivity|reflexivity]).
  - destruct ve; cbn [message]; try (eexists; split; [reflexivity|reflexivity]).
  - destruct strict; (eexists; split; reflexivity).
Qed.

Lemma loop_step v h strict ms vv major minor todo i e w :
  is_hdr w v h -> plain_fault (w_file w) -> genv v strict ms vv major minor e ->
  agrees w (gloop dec h ((2 <=? major) && (11 <=? minor)) strict todo (w_file w))
           (resume (WRAP (LOOP (Z.to_nat todo) i e w))).
Proof.
  intros Hh Hpf He. unfold gloop. destruct (todo <=? 0) eqn:Et.
  { replace (Z.to_nat todo) with 0%nat by lia. cbn.
    split; [reflexivity|]. split; [apply grows_refl|auto 10]. }
  replace (Z.to_nat todo) with (S (Z.to_nat (todo - 1))) by lia.
  rewrite LOOP_S.
  pose proof (src_sample dec disk salvage fault float_repr argv n v h strict ms vv major minor e i w Hh Hpf He) as K.
  cbn zeta in K.
  destruct (read_sample dec h ((2 <=? major) && (11 <=? minor)) (w_file w)) as [[[s|]|x] f'].
  - destruct K as (v' & e' & w' & K & He' & Hs & Hn & G & B & C). rewrite K. unfold SrcGen.WRAP. cbn [tseq ttry resume agrees].
    split; [exists v'; auto|]. split; [exact G|]. split; [exact B|]. split; [exact C|].
    eexists v, ms, vv, major, minor, (i + 1), e', _. split; [reflexivity|].
    split; [eapply is_hdr_grows; eassumption|]. split; [reflexivity|]. split; [exact He'|]. intros r w1. reflexivity.
  - destruct K as (e' & w' & K & G & B & C). rewrite K. cbn. auto 10.
  - destruct K as (e' & w' & K & He' & G & B & C). rewrite K. unfold SrcGen.WRAP. cbn [tseq ttry looped rest].
    destruct (caught_out w strict x e' w' He') as (o & R & O). unfold SrcGen.looped. cbn [tseq SrcGen.rest ttry]. rewrite R.
    cbn [agrees gen_inv]. auto 10.
Qed.

(** Entering the [try] block: the version text is split and the loop starts. *)
Lemma vtext_split h : In (h_class h) versions -> exists a b,
  split_dot (vtext h) = [a; b] /\
  int_of_str a = Ok (major_of_aversion (aversion h)) /\ int_of_str b = Ok (minor_of_aversion (aversion h)) /\
  cgroup_gate h = Ok ((2 <=? major_of_aversion (aversion h)) && (11 <=? minor_of_aversion (aversion h))).
Proof.
  intros Hv. unfold cgroup_gate. rewrite (semantic_vtext h Hv). cbn [rbind].
  set (a := aversion h).
  assert (Ha : 0 <= major_of_aversion a < 256).
  { rewrite major_of_aversion_spec. pose proof (Z.mod_pos_bound (a / 256) 128). lia. }
  assert (Hb : 0 <= minor_of_aversion a < 256).
  { rewrite minor_of_aversion_spec. pose proof (Z.mod_pos_bound a 256). lia. }
  exists (dec_text (major_of_aversion a)), (dec_text (minor_of_aversion a)).
  unfold vtext, version_text. fold a. rewrite !str_of_int_small by assumption.
  assert (E : split_dot (String.append (dec_text (major_of_aversion a)) (String.append "." (dec_text (minor_of_aversion a)))) =
     [dec_text (major_of_aversion a); dec_text (minor_of_aversion a)]).
  { exact (split_dotted _ _ (dec_text_no_dot _ Ha) (dec_text_no_dot _ Hb)). }
  rewrite E. rewrite !int_of_str_small by assumption. auto.
Qed.

Definition gen_rest : list stmt := tl (fd_body u_generate_statistics).

Lemma start_step v h strict ms w : is_hdr w v h -> plain_fault (w_file w) ->
  agrees w (gstart dec h strict ms (w_file w))
           (resume (exec_block (EX (CN N) U None) gen_rest (gen_env v strict ms) w)).
Proof.
  intros Hh Hpf. pose proof (hdr_in _ _ _ Hh) as Hv.
  destruct (vtext_split h Hv) as (a & b & Es & Ea & Eb & Eg).
  unfold gstart. rewrite Eg.
  set (major := major_of_aversion (aversion h)) in *. set (minor := minor_of_aversion (aversion h)) in *.
  destruct (hdr_semantic dec disk salvage fault float_repr argv (S (S (S n))) w v h Hh) as (w1 & K1 & Q1 & _).
  fold N in K1.
  set (w2 := push (CList [VStr a; VStr b]) w1). set (w3 := push (CList [VStr a; VStr b]) w2).
  assert (Q3 : quiet w w3).
  { eapply quiet_trans; [exact Q1|]. eapply quiet_trans; [|apply quiet_push]. apply quiet_push. }
  pose proof (is_hdr_grows _ _ _ _ (proj1 Q3) Hh) as Hh3.
  pose proof (loop_step v h strict ms (VStr (vtext h)) major minor ms 0
    [("raw_file", VFile); ("header", v); ("raise_on_truncation", VBool strict);
     ("max_samples", VInt ms); ("header_version", VStr (vtext h)); ("major", VInt major); ("minor", VInt minor)] w3 Hh3) as L.
  destruct Q3 as (G3 & B3 & C3). rewrite B3 in L. specialize (L Hpf (or_introl eq_refl)).
  assert (Eq : exec_block (EX (CN N) U None) gen_rest (gen_env v strict ms) w =
    WRAP (LOOP (Z.to_nat ms) 0
    [("raw_file", VFile); ("header", v); ("raise_on_truncation", VBool strict);
     ("max_samples", VInt ms); ("header_version", VStr (vtext h)); ("major", VInt major); ("minor", VInt minor)] w3)).
  { unfold gen_rest, SrcGen.WRAP. cbn [tl fd_body u_generate_statistics]. 
    match goal with |- exec_block _ [STry ?b ?c ?d] _ _ = _ =>
      change (exec_block (EX (CN N) U None) [STry b c d] (gen_env v strict ms) w) with
        (tseq (ttry (exec_block (EX (CN N) U None) b (gen_env v strict ms) w) (SrcGen.handler dec disk salvage fault float_repr argv n))
              (SrcGen.rest dec disk salvage fault float_repr argv n)) end.
    f_equal. f_equal.
    erewrite block_next; cycle 1. { unfold gen_env. ev. rewrite K1. ev. reflexivity. }
    erewrite block_next; cycle 1.
    { ev. cbn [call_method]. rewrite Es, alloc_eq. ev. cbn [slice_val simple_accesses].
      rewrite (cell_push_new (CList (map VStr [a; b])) w1). cbn [map force_all]. cbn [pyslice]. rewrite alloc_eq. ev.
      cbn [unpack]. rewrite cell_push_new. cbn. reflexivity. }
    match goal with |- context [push ?x (push ?y w1)] => change (push x (push y w1)) with w3 end.
    erewrite block_next; cycle 1.
    { ev. rewrite Ea. ev. rewrite Eb. ev. cbn [unpack]. ev. reflexivity. }
    cbn [exec_block]. ev. cbn [accesses simple_accesses]. reflexivity. }
  rewrite Eq. destruct (gloop dec h ((2 <=? major) && (11 <=? minor)) strict ms (w_file w)) as [[o g'] f'].
  unfold agrees in *. destruct (resume _) as [[o' p'] w'].
  destruct L as (L1 & L2 & L3 & L4 & L5). split; [exact (out_grows _ _ _ _ _ G3 L1)|]. split; [exact (grows_trans _ _ _ G3 L2)|].
  split; [exact L3|]. split; [congruence|exact L5].
Qed.

Lemma agrees_after w w1 m r : grows w w1 -> w_out w1 = w_out w -> agrees w1 m r -> agrees w m r.
Proof.
  intros G C. unfold agrees. destruct m as [[o g'] f'], r as [[o' p'] w']. intros (L1 & L2 & L3 & L4 & L5).
  split; [exact (out_grows _ _ _ _ _ G L1)|]. split; [exact (grows_trans _ _ _ G L2)|]. split; [exact L3|]. split; [congruence|exact L5].
Qed.

Lemma next_step w p g : loaded w -> plain_fault (w_file w) -> gen_inv w p g ->
  agrees w (gnext dec g (w_file w)) (py_next (CN (S N)) p w).
Proof.
  intros Lw Hpf I. destruct g as [hdr strict ms|h gate strict todo|]; cbn [gen_inv] in I.
  - destruct I as (hv & -> & Hh).
    assert (Ebody : py_next (CN (S N)) (PNew U "generate_statistics" (gen_env hv strict ms)) w =
      resume (exec_block (EX (CN N) U None) (fd_body u_generate_statistics) (gen_env hv strict ms) w)) by reflexivity.
    rewrite Ebody. clear Ebody.
    change (fd_body u_generate_statistics) with (hd SPass (fd_body u_generate_statistics) :: gen_rest).
    cbn [hd fd_body u_generate_statistics].
    destruct hdr as [h|].
    + erewrite block_next; cycle 1.
      { destruct Hh as (id & _ & _ & -> & _). unfold gen_env. ev. cbn [is_none]. ev. reflexivity. }
      change (exec_block (EX (CN N) U None) []) with (fun l w => TDone ONext l w).
      cbn [gnext]. apply start_step; assumption.
    + subst hv. cbn [gnext].
      pose proof (src_get_header dec disk salvage fault float_repr argv n w [VFile] [] true Lw Hpf eq_refl) as K.
      fold N in K. change U with "atoparser.utils" in K at 1.
      destruct (get_header true (w_file w)) as [[h|x] f'] eqn:Eh; unfold runs in K.
      * destruct K as (v & w1 & K & G & B & C & Hh).
        erewrite block_next; cycle 1.
        { unfold gen_env. ev. cbn [is_none]. ev. erewrite block_next; cycle 1. { ev. rewrite K. ev. reflexivity. } reflexivity. }
        change ([("raw_file", VFile); ("header", v); ("raise_on_truncation", VBool strict); ("max_samples", VInt ms)])
          with (gen_env v strict ms).
        apply (agrees_after w w1); [exact G|exact C|]. rewrite <- B. apply start_step; [exact Hh|].
        rewrite B. exact (keeps_header true _ _ _ Hpf Eh).
      * destruct K as (w1 & K & G & B & C).
        erewrite block_exc; cycle 1.
        { unfold gen_env. ev. cbn [is_none]. ev. erewrite block_exc; cycle 1. { ev. rewrite K. ev. reflexivity. } reflexivity. }
        cbn [resume agrees out_rel gen_inv]. auto 10.
  - destruct I as (v & ms & vv & major & minor & i & e & k & -> & Hh & -> & He & Hk).
    cbn [py_next gnext]. rewrite Hk.
    change (tseq (at_yield e None w) (looped (Z.to_nat todo) i)) with (LOOP (Z.to_nat todo) i e w).
    eapply loop_step; eassumption.
  - subst p. cbn. split; [reflexivity|]. split; [apply grows_refl|auto].
Qed.

Lemma throw_step w p g e : gen_inv w p g ->
  agrees w (gthrow g e (w_file w)) (py_throw (xof e) p w).
Proof.
  intros I. destruct g as [hdr strict ms|h gate strict todo|]; cbn [gen_inv] in I.
  - destruct I as (hv & -> & _). cbn. split; [reflexivity|]. split; [apply grows_refl|auto].
  - destruct I as (v & ms & vv & major & minor & i & l & k & -> & Hh & -> & He & Hk).
    cbn [py_throw gthrow]. rewrite Hk.
    change (WRAP (tseq (at_yield l (Some (xof e)) w) (looped (Z.to_nat todo) i))) with
      (tseq (handler (xof e) l w) (rest dec disk salvage fault float_repr argv n)).
    destruct (caught_out w strict e l w (genv_caught _ _ _ _ _ _ _ He)) as (o & R & Or). rewrite R.
    cbn [agrees gen_inv]. split; [exact Or|]. split; [apply grows_refl|auto].
  - subst p. cbn. split; [reflexivity|]. split; [apply grows_refl|auto].
Qed.

Lemma close_step w p g : gen_inv w p g -> py_close p w = (PStop, PFin, w).
Proof.
  intros I. destruct g as [hdr strict ms|h gate strict todo|]; cbn [gen_inv] in I.
  - destruct I as (hv & -> & _). reflexivity.
  - destruct I as (v & ms & vv & major & minor & i & l & k & -> & Hh & -> & He & Hk).
    cbn [py_close]. rewrite Hk.
    change (WRAP (tseq (at_yield l (Some XGenExit) w) (looped (Z.to_nat todo) i))) with
      (tseq (handler XGenExit l w) (rest dec disk salvage fault float_repr argv n)).
    rewrite (handler_eq dec disk salvage fault float_repr argv n strict) by
      first [exact (genv_caught _ _ _ _ _ _ _ He) | discriminate].
    reflexivity.
  - subst p. reflexivity.
Qed.

Lemma gnext_plain g : keeps (fun f => let '(o, g', f') := gnext dec g f in (Ok (o, g'), f')).
Proof.
  assert (L : forall h gate strict todo, keeps (fun f => let '(o, g', f') := gloop dec h gate strict todo f in (Ok (o, g'), f'))).
  { intros h gate strict todo f r f' P H. unfold gloop in H. destruct (todo <=? 0); [injection H as _ <-; exact P|].
    assert (K : keeps (read_sample dec h gate)).
    { unfold read_sample. keep. destruct (_ <=? 0); keep. destruct gate; keep. }
    destruct (read_sample dec h gate f) as [[[s|]|x] f1] eqn:E; injection H as _ <-; exact (K _ _ _ P E). }
  assert (St : forall h strict ms, keeps (fun f => let '(o, g', f') := gstart dec h strict ms f in (Ok (o, g'), f'))).
  { intros h strict ms f r f' P H. unfold gstart in H. destruct (cgroup_gate h); [exact (L _ _ _ _ _ _ _ P H)|].
    injection H as _ <-. exact P. }
  destruct g as [[h|] strict ms|h gate strict todo|]; intros f r f' P H; cbn [gnext] in H.
  - exact (St _ _ _ _ _ _ P H).
  - destruct (get_header true f) as [[h|x] f1] eqn:E.
    + exact (St _ _ _ _ _ _ (keeps_header _ _ _ _ P E) H).
    + injection H as _ <-. exact (keeps_header _ _ _ _ P E).
  - exact (L _ _ _ _ _ _ _ P H).
  - injection H as _ <-. exact P.
Qed.

Lemma src_history ops : forall w p g, loaded w -> plain_fault (w_file w) -> gen_inv w p g ->
  history dec (CN (S N)) ops w p g.
Proof.
  induction ops as [|op ops IH]; intros w p g Lw Hpf I; [exact Logic.I|].
  destruct op as [|e| |w'].
  - cbn [history]. pose proof (next_step w p g Lw Hpf I) as K. pose proof (gnext_plain g (w_file w)) as P. cbv beta in P.
    destruct (gnext dec g (w_file w)) as [[o g'] f']. destruct (py_next (CN (S N)) p w) as [[o' p'] w'].
    destruct K as (K1 & K2 & K3 & K4 & K5). repeat (split; [assumption|]).
    apply IH; [exact (loaded_grows _ _ K2 Lw)| |exact K5]. rewrite K3. exact (P _ _ Hpf eq_refl).
  - cbn [history]. pose proof (throw_step w p g e I) as K.
    assert (P : snd (gthrow g e (w_file w)) = w_file w) by (destruct g; reflexivity).
    destruct (gthrow g e (w_file w)) as [[o g'] f']. destruct (py_throw (xof e) p w) as [[o' p'] w'].
    destruct K as (K1 & K2 & K3 & K4 & K5). repeat (split; [assumption|]).
    apply IH; [exact (loaded_grows _ _ K2 Lw)| |exact K5]. rewrite K3. cbn in P. rewrite P. exact Hpf.
  - cbn [history gclose]. rewrite (close_step w p g I). 
    split; [reflexivity|]. split; [apply grows_refl|]. split; [reflexivity|]. split; [reflexivity|].
    apply IH; [exact Lw|exact Hpf|reflexivity].
  - cbn [history]. intros G P. apply IH; [exact (loaded_grows _ _ G Lw)|exact P|exact (gen_inv_grows _ _ _ _ G I)].
Qed.

(** Calling generate_statistics makes the generator and does nothing else. *)
Lemma src_generate m w args kws hv strict ms :
  bind_params globals U (fd_params u_generate_statistics) args kws = Some (gen_env hv strict ms) ->
  f_call (CN (S m)) U "generate_statistics" args kws w = EOk (VGen U "generate_statistics" (gen_env hv strict ms)) w.
Proof. intros Hb. cbn [call_n f_call]. change (functions U "generate_statistics") with (Some u_generate_statistics).
  cbn [fd_params u_generate_statistics] in *. rewrite Hb. reflexivity. Qed.
End Src.
