(** * Programs that read a log with the functions for its parts: a turn of the loop, and the loop *)
From Coq Require Import List ZArith Lia Bool String.
From Coq Require Import Init.Byte.
From Coq Require Import ZifyBool.
From Verif Require Import PyBase Utf8 CTypes S_shared S_1_26 S_2_11 Model Parsers Json Gzip Reader Messages.
From Verif Require Import Spec SpecDict BaseProofs LayoutProofs RepProofs DictProofs TableProofs HeaderProofs.
From Verif Require Import PySyntax PyEval Source PyProgram PyGenerator SpecSource SrcBase SrcHeader SrcUtils SrcStat SrcDict SrcCgroup SrcGen SrcGen2.
From Verif Require Import SpecSource2 SpecSource3 SrcParse PropSource3 SrcReader SrcReader2 SrcReader3 SpecClient SrcClient SpecHand.
Import ListNotations.
Local Open Scope string_scope.
Local Open Scope list_scope.
Local Open Scope Z_scope.

Section Src.
Variable dec : list byte -> option (list byte).
Variable disk : list Z -> res (list byte).
Variable salvage : list byte -> list byte.
Variable fault : list byte -> exn.
Variable float_repr : Z -> list Z.
Variable argv : env.
Variable n : nat.
Variable md : string.
Notation CN := (call_n dec disk salvage fault float_repr argv globals functions).
Notation F := (CN (S (S (S (S (S n)))))).
Notation EV := (eval dec disk salvage fault float_repr globals F md).
Notation EX := (exec dec disk salvage fault float_repr globals F md None).

Lemma part_stmt x fn args l w vs :
  In fn ["get_record"; "get_sstat"; "get_tstat"; "get_cstat"] ->
  assoc "atoparser" l = Some (VModule "atoparser") -> Forall2 (fun a v => assoc a l = Some v) args vs ->
  EX (part x fn args) l w =
  match f_call F "atoparser.utils" fn vs [] w with
  | EOk v w' => TDone ONext (dict_set l x v) w'
  | EErr e w' => TDone (OExc e) l w'
  end.
Proof.
  intros Hfn Ha Hv.
  assert (EL : eval_list EV (map EName args) l w = EOk vs w).
  { clear -Hv. induction Hv as [|a v args vs H _ IH]; [reflexivity|]. cbn [map eval_list].
    assert (EV (EName a) l w = EOk v w) as -> by (cbn [eval]; unfold name_value; rewrite H; reflexivity).
    cbn [ebind]. rewrite IH. reflexivity. }
  assert (EA : EV (EAttr (EName "atoparser") fn) l w = EOk (VFun "atoparser.utils" fn) w).
  { cbn [eval]. unfold name_value. rewrite Ha. cbn [ok_or_stuck ebind].
    cbn [In] in Hfn. repeat (destruct Hfn as [<- | Hfn]; [reflexivity|]). destruct Hfn. }
  unfold part. cbn [exec]. cbn [eval] in EA, EL |- *. rewrite EA. cbn [ebind]. rewrite EL. cbn [ebind eval_kws call_value].
  destruct (f_call F "atoparser.utils" fn vs [] w) as [v w'|e w']; cbn [ebind with_val assign]; reflexivity.
Qed.

(** ** A turn of the loop *)

Lemma same_set l l' x v : In x hand_vars -> same_env l l' -> same_env l (dict_set l' x v).
Proof.
  intros Hx H y Hy. rewrite assoc_set. destruct (String.eqb_spec y x) as [->|_]; [contradiction|]. exact (H y Hy).
Qed.
Lemma same_refl l : same_env l l.
Proof. intros x _. reflexivity. Qed.

Lemma set_same {V} x (v1 v2 : V) l : dict_set (dict_set l x v1) x v2 = dict_set l x v2.
Proof.
  induction l as [|[k u] l IH]; cbn [dict_set].
  - rewrite String.eqb_refl. reflexivity.
  - destruct (String.eqb_spec x k) as [->|Hne]; cbn [dict_set].
    + rewrite String.eqb_refl. reflexivity.
    + apply String.eqb_neq in Hne. rewrite Hne, IH. reflexivity.
Qed.

Definition hand_env (l : env) (hv : value) : Prop :=
  assoc "atoparser" l = Some (VModule "atoparser") /\ assoc "raw_file" l = Some VFile /\ assoc "header" l = Some hv.
Lemma hand_env_set l hv x v : In x hand_vars -> hand_env l hv -> hand_env (dict_set l x v) hv.
Proof.
  intros Hx (A & B & C). unfold hand_env. rewrite !assoc_set.
  cbn [hand_vars In] in Hx. repeat (destruct Hx as [<- | Hx]; [auto|]). destruct Hx.
Qed.

Ltac inv_in := unfold hand_vars; cbn [In]; tauto.

Section Turn.
Variables (hv : value) (h : hobj) (gate : bool) (body : list stmt).

Lemma hand_turn l w : hand_env l hv -> is_hdr w hv h -> plain_fault (w_file w) ->
  match read_sample dec h gate (w_file w) with
  | (Ok (Some s), f') => exists rv sv tv cv w',
        exec_block EX (hand_body gate body) l w =
        exec_block EX body (dict_set (dict_set (dict_set (dict_set l "record" rv) "sstat" sv) "tstats" tv) "cgroups" cv) w' /\
        is_sample w' (VTuple [rv; sv; tv; cv]) s /\ new_sample w (VTuple [rv; sv; tv; cv]) /\
        grows w w' /\ w_file w' = f' /\ w_out w' = w_out w
  | (Ok None, f') => exists l' w', exec_block EX (hand_body gate body) l w = TDone OBreak l' w' /\ same_env l l' /\
        grows w w' /\ w_file w' = f' /\ w_out w' = w_out w
  | (Raise x, f') => exists l' w', exec_block EX (hand_body gate body) l w = TDone (OExc (xof x)) l' w' /\ same_env l l' /\
        grows w w' /\ w_file w' = f' /\ w_out w' = w_out w
  end.
Proof.
  intros He Hh Hpf. unfold hand_body, cgroups_stmt. unfold read_sample. unfold mbind at 1.
  (* record *)
  pose proof (src_get_record dec disk salvage fault float_repr argv (S (S (S (S n)))) w hv h Hh Hpf) as K.
  change U with "atoparser.utils" in K at 1.
  destruct He as (Ea & Ef & Eh).
  assert (P : EX (part "record" "get_record" ["raw_file"; "header"]) l w =
    match f_call F "atoparser.utils" "get_record" [VFile; hv] [] w with
    | EOk v w' => TDone ONext (dict_set l "record" v) w' | EErr e w' => TDone (OExc e) l w' end).
  { apply part_stmt; [cbn [In]; tauto|exact Ea|repeat constructor; assumption]. }
  destruct (get_record h (w_file w)) as [[r|x] f1] eqn:E1; unfold runs in K; cycle 1.
  { destruct K as (w1 & K & G & B & C). rewrite K in P. exists l, w1. split; [|split; [apply same_refl|auto]].
    erewrite block_exc; [reflexivity|exact P]. }
  destruct K as (vr & w1 & K & G1 & B1 & C1 & Hr & Hrt). rewrite K in P.
  erewrite block_next; [|exact P]. clear P K.
  assert (P1 : plain_fault (w_file w1)) by (rewrite B1; exact (keeps_record h _ _ _ Hpf E1)).
  pose proof (is_hdr_grows _ _ _ _ G1 Hh) as Hh1.
  assert (Hrec : is_record (o_type r)) by (exists (h_class h); split; [exact (hdr_in _ _ _ Hh)|exact Hrt]).
  assert (He : hand_env (dict_set l "record" vr) hv) by (apply hand_env_set; [inv_in|repeat split; assumption]).
  assert (Er : assoc "record" (dict_set l "record" vr) = Some vr) by (rewrite assoc_set; reflexivity).
  assert (Sm : same_env l (dict_set l "record" vr)) by (apply same_set; [inv_in|apply same_refl]).
  set (l1 := dict_set l "record" vr) in *. clear Ea Ef Eh.
  (* record.scomplen *)
  unfold mbind at 1, mlift at 1.
  assert (P : EX (SIf (ECmp OpLe (EAttr (EName "record") "scomplen") (EInt 0)) [SBreak] []) l1 w1 =
    match getint r "scomplen" with
    | Ok z => if z <=? 0 then TDone OBreak l1 w1 else TDone ONext l1 w1
    | Raise e => TDone (OExc (xof e)) l1 w1 end).
  { cbn [exec eval]. unfold name_value. rewrite Er. ev.
    rewrite (rec_getint _ w1 vr r "scomplen" Hr Hrec ltac:(in_list)).
    destruct (getint r "scomplen") as [z|e] eqn:E; [ev; destruct (z <=? 0); ev; reflexivity|rewrite (getint_plain _ _ _ E); ev; reflexivity]. }
  destruct (getint r "scomplen") as [sc|x] eqn:E2; cycle 1.
  { exists l1, w1. split; [|auto]. erewrite block_exc; [reflexivity|exact P]. }
  destruct (sc <=? 0) eqn:Esc.
  { cbn [mret]. exists l1, w1. split; [|auto]. erewrite block_break; [reflexivity|exact P]. }
  erewrite block_next; [|exact P]. clear P.
  (* sstat *)
  unfold mbind at 1. rewrite <- B1.
  pose proof (src_get_sstat dec disk salvage fault float_repr argv (S (S (S (S n)))) w1 hv h vr r Hh1 Hr Hrec P1) as K.
  change U with "atoparser.utils" in K at 1.
  assert (P : EX (part "sstat" "get_sstat" ["raw_file"; "header"; "record"]) l1 w1 =
    match f_call F "atoparser.utils" "get_sstat" [VFile; hv; vr] [] w1 with
    | EOk v w' => TDone ONext (dict_set l1 "sstat" v) w' | EErr e w' => TDone (OExc e) l1 w' end).
  { apply part_stmt; [cbn [In]; tauto|exact (proj1 He)|repeat constructor; first [exact Er | apply He]]. }
  destruct (get_sstat dec h r (w_file w1)) as [[ss|x] f2] eqn:E3; unfold runs in K; cycle 1.
  { destruct K as (w2 & K & G & B & C). rewrite K in P. exists l1, w2.
    split; [|split; [exact Sm|split; [exact (grows_trans _ _ _ G1 G)|split; congruence]]].
    erewrite block_exc; [reflexivity|exact P]. }
  destruct K as (vs & w2 & K & G & B2 & C & Hs & _). rewrite K in P.
  assert (P2 : plain_fault (w_file w2)) by (rewrite B2; exact (keeps_sstat dec h r _ _ _ P1 E3)).
  erewrite block_next; [|exact P]. clear P K.
  pose proof (is_hdr_grows _ _ _ _ G Hh1) as Hh2. pose proof (is_obj_grows _ _ _ _ G Hr) as Hr2.
  assert (G2 : grows w w2) by exact (grows_trans _ _ _ G1 G). assert (C2 : w_out w2 = w_out w) by congruence.
  clear G C.
  assert (He2 : hand_env (dict_set l1 "sstat" vs) hv) by (apply hand_env_set; [inv_in|exact He]).
  assert (Er2 : assoc "record" (dict_set l1 "sstat" vs) = Some vr) by (rewrite assoc_set; exact Er).
  assert (Sm2 : same_env l (dict_set l1 "sstat" vs)) by (apply same_set; [inv_in|exact Sm]).
  set (l2 := dict_set l1 "sstat" vs) in *. clear He Er Sm.
  (* tstats *)
  unfold mbind at 1. rewrite <- B2.
  pose proof (src_get_tstat dec disk salvage fault float_repr argv (S (S n)) w2 hv h vr r Hh2 Hr2 Hrec P2) as K.
  change U with "atoparser.utils" in K at 1.
  assert (P : EX (part "tstats" "get_tstat" ["raw_file"; "header"; "record"]) l2 w2 =
    match f_call F "atoparser.utils" "get_tstat" [VFile; hv; vr] [] w2 with
    | EOk v w' => TDone ONext (dict_set l2 "tstats" v) w' | EErr e w' => TDone (OExc e) l2 w' end).
  { apply part_stmt; [cbn [In]; tauto|exact (proj1 He2)|repeat constructor; first [exact Er2 | apply He2]]. }
  destruct (get_tstat dec h r (w_file w2)) as [[ts|x] f3] eqn:E4; unfold runs in K; cycle 1.
  { destruct K as (w3 & K & G & B & C). rewrite K in P. exists l2, w3.
    split; [|split; [exact Sm2|split; [exact (grows_trans _ _ _ G2 G)|split; congruence]]].
    erewrite block_exc; [reflexivity|exact P]. }
  destruct K as (vt & w3 & K & G & B3 & C & Ht & Nt). rewrite K in P.
  pose proof (new_list_grows _ _ _ G2 Nt) as Nt0. clear Nt.
  assert (P3 : plain_fault (w_file w3)) by (rewrite B3; exact (keeps_tstat dec h r _ _ _ P2 E4)).
  erewrite block_next; [|exact P]. clear P K.
  pose proof (is_hdr_grows _ _ _ _ G Hh2) as Hh3. pose proof (is_obj_grows _ _ _ _ G Hr2) as Hr3.
  pose proof (is_obj_grows _ _ _ _ G Hs) as Hs3.
  assert (G3 : grows w w3) by exact (grows_trans _ _ _ G2 G). assert (C3 : w_out w3 = w_out w) by congruence.
  clear G C.
  assert (He3 : hand_env (dict_set l2 "tstats" vt) hv) by (apply hand_env_set; [inv_in|exact He2]).
  assert (Er3 : assoc "record" (dict_set l2 "tstats" vt) = Some vr) by (rewrite assoc_set; exact Er2).
  assert (Sm3 : same_env l (dict_set l2 "tstats" vt)) by (apply same_set; [inv_in|exact Sm2]).
  set (l3 := dict_set l2 "tstats" vt) in *. clear He2 Er2 Sm2.
  (* cgroups *)
  unfold mbind at 1. rewrite <- B3.
  assert (St : match (if gate then get_cstat dec h r else mret []) (w_file w3) with
    | (Ok cs, f') => exists vc w4, EX (cgroups_stmt gate) l3 w3 = TDone ONext (dict_set l3 "cgroups" vc) w4 /\
           grows w3 w4 /\ w_file w4 = f' /\ w_out w4 = w_out w3 /\ is_list is_chain w4 vc cs /\ new_list w3 vc
    | (Raise x, f') => exists w4, EX (cgroups_stmt gate) l3 w3 = TDone (OExc (xof x)) l3 w4 /\
           grows w3 w4 /\ w_file w4 = f' /\ w_out w4 = w_out w3
    end).
  { unfold cgroups_stmt. destruct gate.
    - pose proof (src_get_cstat dec disk salvage fault float_repr argv (S (S (S n))) w3 hv h vr r Hh3 Hr3 Hrec P3) as K.
      change U with "atoparser.utils" in K at 1.
      assert (P : EX (part "cgroups" "get_cstat" ["raw_file"; "header"; "record"]) l3 w3 =
        match f_call F "atoparser.utils" "get_cstat" [VFile; hv; vr] [] w3 with
        | EOk v w' => TDone ONext (dict_set l3 "cgroups" v) w' | EErr e w' => TDone (OExc e) l3 w' end).
      { apply part_stmt; [cbn [In]; tauto|exact (proj1 He3)|repeat constructor; first [exact Er3 | apply He3]]. }
      destruct (get_cstat dec h r (w_file w3)) as [[cs|x] f4]; unfold runs in K.
      + destruct K as (vc & w4 & K & G & B & C & Hl). rewrite K in P. exists vc, w4. auto.
      + destruct K as (w4 & K & G & B & C). rewrite K in P. exists w4. auto.
    - unfold mret. exists (VList (next w3)), (push (CList []) w3). split; [|split; [apply push_grows|split; [reflexivity|split; [reflexivity|]]]].
      + cbn [exec]. ev. rewrite alloc_eq. ev. reflexivity.
      + split; [|exists (next w3); split; [reflexivity|apply Nat.le_refl]].
        exists (next w3), []. split; [reflexivity|]. split; [apply cell_push_new|constructor]. }
  unfold cgroups_stmt in St.
  destruct ((if gate then get_cstat dec h r else mret []) (w_file w3)) as [[cs|x] f4]; cycle 1.
  { destruct St as (w4 & S1 & G & B & C). exists l3, w4.
    split; [|split; [exact Sm3|split; [exact (grows_trans _ _ _ G3 G)|split; congruence]]].
    erewrite block_exc; [reflexivity|exact S1]. }
  destruct St as (vc & w4 & S1 & G & B & C & Hl & Nc).
  pose proof (new_list_grows _ _ _ G3 Nc) as Nc0. clear Nc.
  erewrite block_next; [|exact S1]. clear S1.
  cbn [mret]. exists vr, vs, vt, vc, w4. split; [reflexivity|].
  split; [|split; [split; [exact Nt0|exact Nc0]|split; [exact (grows_trans _ _ _ G3 G)|split; congruence]]].
  exists vr, vs, vt, vc. split; [reflexivity|]. cbn [s_record s_sstat s_tstats s_cgroups].
  split; [|split; [|split]]; [eapply is_obj_grows; eassumption|eapply is_obj_grows; eassumption|eapply is_objs_grows; eassumption|exact Hl].
Qed.
End Turn.

(** ** The loop *)

Section Loop.
Variables (hv : value) (h : hobj) (gate : bool) (body : list stmt).
Variable inv : list sample -> env -> world -> Prop.
Variable left : list sample -> outcome -> env -> world -> Prop.
Hypothesis Hbody : body_contract (exec_block EX body) (Some h) "record" "sstat" "tstats" "cgroups" inv left.
Hypothesis Hst : loop_state hv inv.

Definition HLOOP (count : nat) (i : Z) : env -> world -> tree :=
  exec_for dec disk salvage fault float_repr globals F md (TgName "_")
    (exec_block EX (hand_body gate body)) (range_accesses count i).
Definition looped (count : nat) (i : Z) (o : outcome) (l : env) (w : world) : tree :=
  match o with
  | ONext => HLOOP count i l w
  | OBreak => TDone ONext l w
  | _ => TDone o l w
  end.
Lemma HLOOP_S count i l w : HLOOP (S count) i l w =
  tseq (exec_block EX (hand_body gate body) (dict_set l "_" (VInt i)) w) (looped count (i + 1)).
Proof. reflexivity. Qed.

Lemma hand_loop count : forall i l w done, is_hdr w hv h -> loaded w -> plain_fault (w_file w) -> inv done l w ->
  let r := drain dec (S count) (GYielded h gate true (Z.of_nat count)) (w_file w) in
  exists e, snd (fst r) = Some e /\ exists o l' w', HLOOP count i l w = TDone o l' w' /\
    ((exists s1 s2, fst (fst r) = s1 ++ s2 /\ s1 <> [] /\ left (done ++ s1) o l' w') \/
     (exists l1 w1, inv (done ++ fst (fst r)) l1 w1 /\ same_env l1 l' /\ grows w1 w' /\ w_out w' = w_out w1 /\ loaded w' /\ w_file w' = snd r /\ o = loop_end e)).
Proof using Hbody Hst.
  induction count as [|count IH]; intros i l w done Hh Lw Hpf Hi.
  - cbn [drain gnext]. unfold gloop. cbn [Z.of_nat Z.leb Z.compare fst snd]. exists None. split; [reflexivity|].
    exists ONext, l, w. split; [reflexivity|]. right. exists l, w. rewrite app_nil_r.
    split; [exact Hi|]. split; [apply same_refl|]. split; [apply grows_refl|auto].
  - cbv zeta. remember (S count) as m eqn:Em. cbn [drain gnext]. unfold gloop.
    replace (Z.of_nat m <=? 0) with false by lia.
    subst m. rewrite HLOOP_S.
    destruct (Hst _ _ _ Hi) as (A1 & A2 & A3 & A5).
    assert (He : hand_env (dict_set l "_" (VInt i)) hv) by (apply hand_env_set; [inv_in|repeat split; assumption]).
    pose proof (hand_turn hv h gate body (dict_set l "_" (VInt i)) w He Hh Hpf) as T.
    pose proof (next_types dec h (GYielded h gate true (Z.of_nat (S count))) (w_file w)) as NT.
    cbn [gnext] in NT. unfold gloop in NT. replace (Z.of_nat (S count) <=? 0) with false in NT by lia.
    pose proof (gnext_plain dec (GYielded h gate true (Z.of_nat (S count))) (w_file w)) as GP. cbv beta in GP.
    cbn [gnext] in GP. unfold gloop in GP. replace (Z.of_nat (S count) <=? 0) with false in GP by lia.
    destruct (read_sample dec h gate (w_file w)) as [[[s|]|x] f'].
    + specialize (NT s _ f' eq_refl eq_refl). specialize (GP _ _ Hpf eq_refl).
      destruct T as (rv & sv & tv & cv & w1 & R & Hs & Hn & G & Fl & O).
      rewrite R. clear R.
      destruct (Hbody done s (dict_set l "_" (VInt i)) w w1 rv sv tv cv (A5 i) G O (loaded_grows _ _ G Lw) Hs Hn
        ltac:(intros h' E; injection E as <-; exact (proj1 NT))) as (o & l2 & w2 & R & K).
      rewrite R. clear R. cbn [tseq].
      replace (Z.of_nat (S count) - 1) with (Z.of_nat count) in * by lia.
      destruct o as [| |rv'|x]; cbn [looped].
      * destruct K as (Hi2 & Hk & L2 & F2).
        assert (Hh2 : is_hdr w2 hv h) by exact (keeps_hdr _ _ _ _ Hk (is_hdr_grows _ _ _ _ G Hh)).
        assert (Fe : w_file w2 = f') by congruence.
        specialize (IH (i + 1) l2 w2 (done ++ [s]) Hh2 L2). rewrite Fe in IH. specialize (IH GP Hi2). cbv zeta in IH.
        destruct (drain dec (S count) (GYielded h gate true (Z.of_nat count)) f') as [[ss e'] f'']. cbn [fst snd] in *.
        destruct IH as (e & He' & o & l3 & w3 & T & K3). exists e. split; [exact He'|]. exists o, l3, w3. split; [exact T|].
        destruct K3 as [(s1 & s2 & E1 & E2 & E3)|(l4 & w4 & E1 & E2)].
        -- left. exists (s :: s1), s2. split; [cbn [app]; congruence|]. split; [discriminate|]. rewrite <- app_assoc in E3. exact E3.
        -- right. exists l4, w4. rewrite <- app_assoc in E1. split; [exact E1|exact E2].
      * destruct (drain dec (S count) (GYielded h gate true (Z.of_nat count)) f') as [[ss e'] f''] eqn:Ed.
        assert (exists e, e' = Some e) as (e & ->).
        { pose proof (drain_ends dec (S count) (GYielded h gate true (Z.of_nat count)) f') as D. rewrite Ed in D. cbn [fst snd] in D.
          apply D; [right; cbn [todo_of]; lia|lia]. }
        exists e. split; [reflexivity|]. exists ONext, l2, w2. split; [reflexivity|]. left. exists [s], ss. split; [reflexivity|]. split; [discriminate|exact K].
      * destruct (drain dec (S count) (GYielded h gate true (Z.of_nat count)) f') as [[ss e'] f''] eqn:Ed.
        assert (exists e, e' = Some e) as (e & ->).
        { pose proof (drain_ends dec (S count) (GYielded h gate true (Z.of_nat count)) f') as D. rewrite Ed in D. cbn [fst snd] in D.
          apply D; [right; cbn [todo_of]; lia|lia]. }
        exists e. split; [reflexivity|]. exists (ORet rv'), l2, w2. split; [reflexivity|]. left. exists [s], ss. split; [reflexivity|]. split; [discriminate|exact K].
      * destruct (drain dec (S count) (GYielded h gate true (Z.of_nat count)) f') as [[ss e'] f''] eqn:Ed.
        assert (exists e, e' = Some e) as (e & ->).
        { pose proof (drain_ends dec (S count) (GYielded h gate true (Z.of_nat count)) f') as D. rewrite Ed in D. cbn [fst snd] in D.
          apply D; [right; cbn [todo_of]; lia|lia]. }
        exists e. split; [reflexivity|]. exists (OExc x), l2, w2. split; [reflexivity|]. left. exists [s], ss. split; [reflexivity|]. split; [discriminate|exact K].
    + destruct T as (l1 & w1 & R & Sm & G & Fl & O). rewrite R. cbn [fst snd tseq looped]. exists None. split; [reflexivity|].
      exists ONext, l1, w1. split; [reflexivity|]. right. exists (dict_set l "_" (VInt i)), w. rewrite app_nil_r.
      split; [exact (A5 i)|]. split; [exact Sm|]. split; [exact G|]. split; [exact O|]. split; [exact (loaded_grows _ _ G Lw)|auto].
    + destruct T as (l1 & w1 & R & Sm & G & Fl & O). rewrite R.
      assert (on_exception true x = Raised x) as -> by (destruct x; reflexivity).
      cbn [fst snd tseq looped]. exists (Some x). split; [reflexivity|].
      exists (OExc (xof x)), l1, w1. split; [reflexivity|]. right. exists (dict_set l "_" (VInt i)), w. rewrite app_nil_r.
      split; [exact (A5 i)|]. split; [exact Sm|]. split; [exact G|]. split; [exact O|]. split; [exact (loaded_grows _ _ G Lw)|auto].
Qed.

Lemma hand_for ms l w : foreign md -> assoc "range" l = None -> cgroup_gate h = Ok gate -> is_hdr w hv h -> loaded w -> plain_fault (w_file w) -> inv [] l w ->
  exists ss e f', run dec (Some h) true ms (w_file w) = (ss, Some e, f') /\
  exists o l' w', EX (by_hand gate ms body) l w = TDone o l' w' /\
    ((exists done rest, ss = done ++ rest /\ done <> [] /\ left done o l' w') \/
     (exists l1 w1, inv ss l1 w1 /\ same_env l1 l' /\ grows w1 w' /\ w_out w' = w_out w1 /\ loaded w' /\ w_file w' = f' /\ o = loop_end e)).
Proof using Hbody Hst.
  intros Hf Er Hg Hh Lw Hpf Hi.
  assert (E : run dec (Some h) true ms (w_file w) =
    drain dec (S (Z.to_nat ms)) (GYielded h gate true (Z.of_nat (Z.to_nat ms))) (w_file w)).
  { unfold run. cbn [drain gnext generate_statistics]. unfold gstart. rewrite Hg. unfold gloop.
    destruct (ms <=? 0) eqn:Em.
    - replace (Z.to_nat ms) with O by lia. reflexivity.
    - replace (Z.of_nat (Z.to_nat ms)) with ms by lia. rewrite Em. reflexivity. }
  pose proof (hand_loop (Z.to_nat ms) 0 l w [] Hh Lw Hpf Hi) as K. cbv zeta in K. rewrite <- E in K.
  destruct (run dec (Some h) true ms (w_file w)) as [[ss e'] f']. cbn [fst snd app] in K.
  destruct K as (e & -> & o & l' & w' & T & K). exists ss, e, f'. split; [reflexivity|].
  exists o, l', w'. split; [|exact K].
  unfold by_hand. cbn [exec eval]. unfold name_value. rewrite Er. unfold global_name. rewrite Hf. ev.
  exact T.
Qed.
End Loop.
End Src.
