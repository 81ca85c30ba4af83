(** * generate_statistics of utils.py: running the source has the effects the model says *)
From Coq Require Import List ZArith Lia Bool String.
From Coq Require Import Init.Byte.
From Coq Require Import ZifyBool.
From Verif Require Import PyBase Utf8 CTypes S_shared S_1_26 Model Parsers Json Gzip Reader Messages.
From Verif Require Import Spec BaseProofs LayoutProofs RepProofs DictProofs TableProofs HeaderProofs.
From Verif Require Import PySyntax PyEval Source PyProgram PyGenerator SpecSource SrcBase SrcHeader SrcUtils SrcStat SrcCgroup.
Import ListNotations.
Local Open Scope string_scope.
Local Open Scope list_scope.
Local Open Scope Z_scope.

(** ** Reading never makes a fault of atoparser's own. *)

Definition keeps {A} (m : M A) : Prop := forall f r f', plain_fault f -> m f = (r, f') -> plain_fault f'.

Lemma keeps_read n : keeps (fread n).
Proof. intros f r f' P H. exact (read_plain n f r f' P H). Qed.
Lemma keeps_lift {A} (r : res A) : keeps (mlift r).
Proof. intros f r' f' P H. unfold mlift in H. injection H as _ <-. exact P. Qed.
Lemma keeps_ret {A} (a : A) : keeps (mret a).
Proof. intros f r' f' P H. unfold mret in H. injection H as _ <-. exact P. Qed.
Lemma keeps_bind {A B} (m : M A) (k : A -> M B) : keeps m -> (forall a, keeps (k a)) -> keeps (mbind m k).
Proof.
  intros Hm Hk f r f' P H. unfold mbind in H. destruct (m f) as [[a|e] f1] eqn:E.
  - exact (Hk a _ _ _ (Hm _ _ _ P E) H).
  - injection H as _ <-. exact (Hm _ _ _ P E).
Qed.
Lemma keeps_readinto n : keeps (freadinto n).
Proof.
  intros f r f' P H. unfold freadinto in H. destruct (fread n f) as [[b|e] f1] eqn:E;
    injection H as _ <-; exact (read_plain _ _ _ _ P E).
Qed.
Ltac keep := repeat first [apply keeps_bind; [|intros ?] | apply keeps_read | apply keeps_lift | apply keeps_ret | apply keeps_readinto].
Lemma keeps_record h : keeps (get_record h).
Proof. unfold get_record. keep. Qed.
Lemma keeps_sstat dec h r : keeps (get_sstat dec h r).
Proof. unfold get_sstat. keep. Qed.
Lemma keeps_tstat dec h r : keeps (get_tstat dec h r).
Proof. unfold get_tstat. keep. Qed.
Lemma keeps_cstat dec h r : keeps (get_cstat dec h r).
Proof. unfold get_cstat. keep. Qed.
Lemma keeps_header b : keeps (get_header b).
Proof. unfold get_header. keep. Qed.

(** ** Samples *)

Lemma new_list_grows w w' v : grows w w' -> new_list w' v -> new_list w v.
Proof.
  intros G (id & -> & H). exists id. split; [reflexivity|]. pose proof (next_grows _ _ G). unfold next in *. lia.
Qed.

Lemma is_sample_grows w w' v s : grows w w' -> is_sample w v s -> is_sample w' v s.
Proof.
  intros G (vr & vs & vt & vc & -> & H1 & H2 & H3 & H4). exists vr, vs, vt, vc. split; [reflexivity|].
  split; [|split; [|split]]; [eapply is_obj_grows|eapply is_obj_grows|eapply is_objs_grows|eapply is_chains_grows]; eassumption.
Qed.

Section Src.
Variable dec : list byte -> option (list byte).
Variable disk : list Z -> res (list byte).
Variable salvage : list byte -> list byte.
Variable fault : list byte -> exn.
Variable float_repr : Z -> list Z.
Variable argv : env.
Notation CN := (call_n dec disk salvage fault float_repr argv globals functions).
Notation GA := (get_attr globals).
Notation EV := (eval dec disk salvage fault float_repr globals).
Notation EX := (exec dec disk salvage fault float_repr globals).
Notation RB := (run_body dec disk salvage fault float_repr globals).

(** The loop body (utils.py:107-124). *)
Definition try_body : list stmt :=
  match nth 1 (fd_body u_generate_statistics) SPass with STry b _ _ => b | _ => [] end.
Definition gen_body : list stmt :=
  match nth 3 try_body SPass with SFor _ _ b => b | _ => [] end.

Section Loop.
Variables (n : nat) (v : value) (h : hobj) (strict : bool) (ms : Z) (vv : value) (major minor : Z).
Let N := S (S (S (S n))).
Let gate := (2 <=? major) && (11 <=? minor).
Let env0 : env := [("raw_file", VFile); ("header", v); ("raise_on_truncation", VBool strict);
  ("max_samples", VInt ms); ("header_version", vv); ("major", VInt major); ("minor", VInt minor)].
Definition genv (e : env) : Prop :=
  e = env0 \/ exists i r s t c, e = env0 ++ [("_", i); ("record", r); ("sstat", s); ("tstats", t); ("cgroups", c)].

Definition caught (e : env) : Prop :=
  (assoc "raise_on_truncation" e, assoc "zlib" e) = (Some (VBool strict), None).

Definition at_yield (e : env) (r : option exc) (w : world) : tree :=
  tseq (match r with None => TDone ONext e w | Some x => tfail x e w end)
       (fun o l w => match o with ONext => exec_block (EX (CN N) U None) [] l w | _ => TDone o l w end).

Section Body.
Variables (y : bool) (i o1 o2 o3 o4 : value).
Let t0 : env := if y then [] else [("record", o1); ("sstat", o2); ("tstats", o3); ("cgroups", o4)].
Let t1 : env := if y then [] else [("sstat", o2); ("tstats", o3); ("cgroups", o4)].
Let t2 : env := if y then [] else [("tstats", o3); ("cgroups", o4)].
Let t3 : env := if y then [] else [("cgroups", o4)].
Let env1 := env0 ++ [("_", i)].

Lemma src_sample_body w : is_hdr w v h -> plain_fault (w_file w) ->
  let run := exec_block (EX (CN N) U None) gen_body (env1 ++ t0) w in
  match read_sample dec h gate (w_file w) with
  | (Ok (Some s), f') => exists v' e' w', run = TYield v' w' (at_yield e') /\ genv e' /\ is_sample w' v' s /\ new_sample w v' /\
        grows w w' /\ w_file w' = f' /\ w_out w' = w_out w
  | (Ok None, f') => exists e' w', run = TDone OBreak e' w' /\
        grows w w' /\ w_file w' = f' /\ w_out w' = w_out w
  | (Raise x, f') => exists e' w', run = TDone (OExc (xof x)) e' w' /\ caught e' /\
        grows w w' /\ w_file w' = f' /\ w_out w' = w_out w
  end.
Proof.
  intros Hh Hpf. cbn zeta. unfold gen_body, try_body. cbn [nth fd_body u_generate_statistics].
  unfold read_sample. unfold mbind at 1.
  (* record *)
  pose proof (src_get_record dec disk salvage fault float_repr argv (S (S (S n))) w v h Hh Hpf) as K. fold N in K. change U with "atoparser.utils" in K at 1.
  destruct (get_record h (w_file w)) as [[r|x] f1] eqn:E1; unfold runs in K; cycle 1.
  { destruct K as (w1 & K & G & B & C). exists (env1 ++ t0), w1. split; [|split; [unfold env1, env0; destruct y; reflexivity|auto]].
    erewrite block_exc; [reflexivity|]. unfold env1, env0, t0; destruct y; cbn [app]; ev; rewrite K; ev; reflexivity. }
  destruct K as (vr & w1 & K & G1 & B1 & C1 & Hr & Hrt).
  assert (P1 : plain_fault (w_file w1)) by (rewrite B1; exact (keeps_record h _ _ _ Hpf E1)).
  erewrite block_next; cycle 1.
  { instantiate (1 := w1). instantiate (1 := env1 ++ [("record", vr)] ++ t1).
    unfold env1, env0, t0, t1; destruct y; cbn [app]; ev; rewrite K; ev; reflexivity. }
  clear K. pose proof (is_hdr_grows _ _ _ _ G1 Hh) as Hh1.
  assert (Hrec : is_record (o_type r)) by (exists (h_class h); split; [exact (hdr_in _ _ _ Hh)|exact Hrt]).
  unfold mbind at 1, mlift at 1.
  destruct (getint r "scomplen") as [sc|x] eqn:E2; cycle 1.
  { exists (env1 ++ [("record", vr)] ++ t1), w1. split; [|split; [unfold env1, env0; destruct y; reflexivity|auto]].
    erewrite block_exc; [reflexivity|]. unfold env1, env0, t1; destruct y; cbn [app]; ev;
      rewrite (rec_getint _ w1 vr r "scomplen" Hr Hrec ltac:(in_list)), E2, (getint_plain _ _ _ E2); ev; reflexivity. }
  destruct (sc <=? 0) eqn:Esc.
  { cbn [mret]. exists (env1 ++ [("record", vr)] ++ t1), w1. split; [|auto].
    erewrite block_break; [reflexivity|]. unfold env1, env0, t1; destruct y; cbn [app]; ev;
      rewrite (rec_getint _ w1 vr r "scomplen" Hr Hrec ltac:(in_list)), E2; ev; rewrite Esc; ev; reflexivity. }
  erewrite block_next; cycle 1.
  { instantiate (1 := w1). instantiate (1 := env1 ++ [("record", vr)] ++ t1).
    unfold env1, env0, t1; destruct y; cbn [app]; ev;
      rewrite (rec_getint _ w1 vr r "scomplen" Hr Hrec ltac:(in_list)), E2; ev; rewrite Esc; ev; reflexivity. }
  (* sstat *)
  unfold mbind at 1. rewrite <- B1.
  pose proof (src_get_sstat dec disk salvage fault float_repr argv (S (S (S n))) w1 v h vr r Hh1 Hr Hrec P1) as K. fold N in K. change U with "atoparser.utils" in K at 1.
  destruct (get_sstat dec h r (w_file w1)) as [[ss|x] f2] eqn:E3; unfold runs in K; cycle 1.
  { destruct K as (w2 & K & G & B & C). exists (env1 ++ [("record", vr)] ++ t1), w2.
    split; [|split; [unfold env1, env0; destruct y; reflexivity|split; [exact (grows_trans _ _ _ G1 G)|split; congruence]]].
    erewrite block_exc; [reflexivity|]. unfold env1, env0, t1; destruct y; cbn [app]; ev; rewrite K; ev; reflexivity. }
  destruct K as (vs & w2 & K & G & B2 & C & Hs & _).
  assert (P2 : plain_fault (w_file w2)) by (rewrite B2; exact (keeps_sstat dec h r _ _ _ P1 E3)).
  erewrite block_next; cycle 1.
  { instantiate (1 := w2). instantiate (1 := env1 ++ [("record", vr); ("sstat", vs)] ++ t2).
    unfold env1, env0, t1, t2; destruct y; cbn [app]; ev; rewrite K; ev; reflexivity. }
  clear K. pose proof (is_hdr_grows _ _ _ _ G Hh1) as Hh2. pose proof (is_obj_grows _ _ _ _ G Hr) as Hr2.
  assert (G2 : grows w w2) by exact (grows_trans _ _ _ G1 G). assert (C2 : w_out w2 = w_out w) by congruence.
  clear G C.
  (* tstats *)
  unfold mbind at 1. rewrite <- B2.
  pose proof (src_get_tstat dec disk salvage fault float_repr argv (S n) w2 v h vr r Hh2 Hr2 Hrec P2) as K. fold N in K. change U with "atoparser.utils" in K at 1.
  destruct (get_tstat dec h r (w_file w2)) as [[ts|x] f3] eqn:E4; unfold runs in K; cycle 1.
  { destruct K as (w3 & K & G & B & C). exists (env1 ++ [("record", vr); ("sstat", vs)] ++ t2), w3.
    split; [|split; [unfold env1, env0; destruct y; reflexivity|split; [exact (grows_trans _ _ _ G2 G)|split; congruence]]].
    erewrite block_exc; [reflexivity|]. unfold env1, env0, t2; destruct y; cbn [app]; ev; rewrite K; ev; reflexivity. }
  destruct K as (vt & w3 & K & G & B3 & C & Ht & Nt).
  pose proof (new_list_grows _ _ _ G2 Nt) as Nt0. clear Nt.
  assert (P3 : plain_fault (w_file w3)) by (rewrite B3; exact (keeps_tstat dec h r _ _ _ P2 E4)).
  erewrite block_next; cycle 1.
  { instantiate (1 := w3). instantiate (1 := env1 ++ [("record", vr); ("sstat", vs); ("tstats", vt)] ++ t3).
    unfold env1, env0, t2, t3; destruct y; cbn [app]; ev; rewrite K; ev; reflexivity. }
  clear K. pose proof (is_hdr_grows _ _ _ _ G Hh2) as Hh3. pose proof (is_obj_grows _ _ _ _ G Hr2) as Hr3.
  pose proof (is_obj_grows _ _ _ _ G Hs) as Hs3.
  assert (G3 : grows w w3) by exact (grows_trans _ _ _ G2 G). assert (C3 : w_out w3 = w_out w) by congruence.
  clear G C.
  (* cgroups *)
  unfold mbind at 1. rewrite <- B3.
  set (st := SIf _ _ _).
  pose proof (src_get_cstat dec disk salvage fault float_repr argv (S (S n)) w3 v h vr r Hh3 Hr3 Hrec P3) as K. fold N in K. change U with "atoparser.utils" in K at 1.
  assert (St : match (if gate then get_cstat dec h r else mret []) (w_file w3) with
    | (Ok cs, f') => exists vc w4, EX (CN N) U None st (env1 ++ [("record", vr); ("sstat", vs); ("tstats", vt)] ++ t3) w3 =
           TDone ONext (env1 ++ [("record", vr); ("sstat", vs); ("tstats", vt); ("cgroups", vc)]) w4 /\
           grows w3 w4 /\ w_file w4 = f' /\ w_out w4 = w_out w3 /\ is_list is_chain w4 vc cs /\ new_list w3 vc
    | (Raise x, f') => exists e' w4, EX (CN N) U None st (env1 ++ [("record", vr); ("sstat", vs); ("tstats", vt)] ++ t3) w3 =
           TDone (OExc (xof x)) e' w4 /\ caught e' /\
           grows w3 w4 /\ w_file w4 = f' /\ w_out w4 = w_out w3
    end).
  { assert (Cond : forall th el, EX (CN N) U None (SIf (EAnd (ECmp OpGe (EName "major") (EInt 2)) (ECmp OpGe (EName "minor") (EInt 11))) th el)
        (env1 ++ [("record", vr); ("sstat", vs); ("tstats", vt)] ++ t3) w3 =
        exec_block (EX (CN N) U None) (if gate then th else el) (env1 ++ [("record", vr); ("sstat", vs); ("tstats", vt)] ++ t3) w3).
    { intros th el. unfold gate. unfold env1, env0, t3; destruct y; cbn [app]; ev; destruct (2 <=? major); ev; destruct (11 <=? minor); ev; reflexivity. }
    unfold st. rewrite Cond. clear Cond. destruct gate.
    - destruct (get_cstat dec h r (w_file w3)) as [[cs|x] f4]; unfold runs in K.
      + destruct K as (vc & w4 & K & G & B & C & Hl). exists vc, w4. split; [|auto].
        erewrite block_next; cycle 1.
        { instantiate (1 := w4). instantiate (1 := env1 ++ [("record", vr); ("sstat", vs); ("tstats", vt); ("cgroups", vc)]).
          unfold env1, env0, t3; destruct y; cbn [app]; ev; rewrite K; ev; reflexivity. }
        reflexivity.
      + destruct K as (w4 & K & G & B & C). exists (env1 ++ [("record", vr); ("sstat", vs); ("tstats", vt)] ++ t3), w4.
        split; [|split; [unfold env1, env0; destruct y; reflexivity|auto]].
        erewrite block_exc; [reflexivity|]. unfold env1, env0, t3; destruct y; cbn [app]; ev; rewrite K; ev; reflexivity.
    - unfold mret. exists (VList (next w3)), (push (CList []) w3). split; [|split; [apply push_grows|split; [reflexivity|split; [reflexivity|]]]].
      + erewrite block_next; cycle 1.
        { instantiate (1 := push (CList []) w3). instantiate (1 := env1 ++ [("record", vr); ("sstat", vs); ("tstats", vt); ("cgroups", VList (next w3))]).
          unfold env1, env0, t3; destruct y; cbn [app]; ev; rewrite alloc_eq; ev; reflexivity. }
        reflexivity.
      + split; [|exists (next w3); split; [reflexivity|apply Nat.le_refl]].
        exists (next w3), []. split; [reflexivity|]. split; [apply cell_push_new|constructor]. }
  clearbody st. clear K.
  destruct ((if gate then get_cstat dec h r else mret []) (w_file w3)) as [[cs|x] f4]; cycle 1.
  { destruct St as (e' & w4 & S1 & A & G & B & C). exists e', w4.
    split; [|split; [exact A|split; [exact (grows_trans _ _ _ G3 G)|split; congruence]]].
    erewrite block_exc; [reflexivity|exact S1]. }
  destruct St as (vc & w4 & S1 & G & B & C & Hl & Nc).
  pose proof (new_list_grows _ _ _ G3 Nc) as Nc0. clear Nc.
  erewrite block_next; [|exact S1]. clear S1.
  cbn [mret].
  eexists _, (env1 ++ [("record", vr); ("sstat", vs); ("tstats", vt); ("cgroups", vc)]), w4.
  split; [|split; [|split; [|split; [|split; [exact (grows_trans _ _ _ G3 G)|split; congruence]]]]].
  - unfold env1, env0. cbn [app exec_block]. ev. cbn [tseq]. reflexivity.
  - right. exists i, vr, vs, vt, vc. unfold env1. rewrite <- app_assoc. reflexivity.
  - exists vr, vs, vt, vc. split; [reflexivity|]. cbn [s_record s_sstat s_tstats s_cgroups].
    split; [|split; [|split]]; [eapply is_obj_grows; eassumption|eapply is_obj_grows; eassumption|eapply is_objs_grows; eassumption|exact Hl].
  - split; [exact Nt0|exact Nc0].
Qed.
End Body.

Lemma src_sample e i w : is_hdr w v h -> plain_fault (w_file w) -> genv e ->
  let run := exec_block (EX (CN N) U None) gen_body (dict_set e "_" (VInt i)) w in
  match read_sample dec h gate (w_file w) with
  | (Ok (Some s), f') => exists v' e' w', run = TYield v' w' (at_yield e') /\ genv e' /\ is_sample w' v' s /\ new_sample w v' /\
        grows w w' /\ w_file w' = f' /\ w_out w' = w_out w
  | (Ok None, f') => exists e' w', run = TDone OBreak e' w' /\
        grows w w' /\ w_file w' = f' /\ w_out w' = w_out w
  | (Raise x, f') => exists e' w', run = TDone (OExc (xof x)) e' w' /\ caught e' /\
        grows w w' /\ w_file w' = f' /\ w_out w' = w_out w
  end.
Proof.
  intros Hh Hpf [-> | (j & r & s & t & c & ->)]; cbn zeta.
  - exact (src_sample_body true (VInt i) VNone VNone VNone VNone w Hh Hpf).
  - exact (src_sample_body false (VInt i) r s t c w Hh Hpf).
Qed.

Lemma genv_caught e : genv e -> caught e.
Proof. intros [-> | (j & r & s & t & c & ->)]; reflexivity. Qed.

(** The loop inside the [try] statement, and what follows. *)
Definition LOOP (count : nat) (i : Z) : env -> world -> tree :=
  exec_for dec disk salvage fault float_repr globals (CN N) U (TgName "_")
    (exec_block (EX (CN N) U None) gen_body) (range_accesses count i).
Definition handler (x : exc) (l : env) (w : world) : tree :=
  with_val (EV (CN N) U (EAttr (EName "zlib") "error") l w) l (fun c w =>
    match exc_is x c with
    | Some true => exec_block (EX (CN N) U (Some x)) [SIf (EName "raise_on_truncation") [SReraise] []] l w
    | Some false => tfail x l w
    | None => tfail XStuck l w
    end).
Definition rest (o : outcome) (l : env) (w : world) : tree :=
  match o with ONext => exec_block (EX (CN N) U None) [] l w | _ => TDone o l w end.
Definition WRAP (t : tree) : tree := tseq (ttry (tseq t rest) handler) rest.
Definition looped (count : nat) (i : Z) (o : outcome) (l : env) (w : world) : tree :=
  match o with
  | ONext => LOOP count i l w
  | OBreak => TDone ONext l w
  | _ => TDone o l w
  end.

Lemma LOOP_S count i e w : LOOP (S count) i e w =
  tseq (exec_block (EX (CN N) U None) gen_body (dict_set e "_" (VInt i)) w) (looped count (i + 1)).
Proof. reflexivity. Qed.

Lemma handler_eq x e w : caught e -> x <> XStuck ->
  handler x e w = match x with
                  | XB ZlibError => if strict then TDone (OExc x) e w else TDone ONext e w
                  | _ => TDone (OExc x) e w
                  end.
Proof using strict n dec disk salvage fault float_repr argv.
  clear env0 gate. intros He Hx. injection He as H1 H2.
  assert (Hz : EV (CN N) U (EAttr (EName "zlib") "error") e w = EOk (VClass "zlib.error") w).
  { cbn [eval]. unfold name_value. rewrite H2. ev. reflexivity. }
  unfold handler. rewrite Hz. cbn [with_val].
  destruct x as [x|cl m| |]; [|reflexivity|reflexivity|congruence].
  destruct x; try reflexivity. cbn [exc_is].
  destruct strict; cbn [exec_block exec eval]; unfold name_value; rewrite H1; reflexivity.
Qed.
End Loop.
End Src.
