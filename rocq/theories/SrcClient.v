(** * Programs that use atoparser: the loop over the samples *)
From Coq Require Import List ZArith Lia Bool String.
From Coq Require Import Init.Byte.
From Coq Require Import ZifyBool.
From Verif Require Import PyBase Utf8 CTypes S_shared S_1_26 S_2_11 Model Parsers Json Gzip Reader Messages.
From Verif Require Import Spec SpecDict BaseProofs LayoutProofs RepProofs DictProofs TableProofs HeaderProofs.
From Verif Require Import PySyntax PyEval Source PyProgram PyGenerator SpecSource SrcBase SrcHeader SrcUtils SrcStat SrcDict SrcCgroup SrcGen SrcGen2.
From Verif Require Import SpecSource2 SpecSource3 SrcParse PropSource3 SrcReader SrcReader2 SrcReader3 SpecClient.
Import ListNotations.
Local Open Scope string_scope.
Local Open Scope list_scope.
Local Open Scope Z_scope.

Section Src.
Variable dec : list byte -> option (list byte).
Variable disk : list Z -> res (list byte).
Variable salvage : list byte -> list byte.
Variable fault : list byte -> exn.
Variable float_repr : Z -> list Z.
Variable argv : env.
Variable n : nat.
Variable md : string.
Notation CN := (call_n dec disk salvage fault float_repr argv globals functions).
Notation F := (CN (S (S (S (S (S n)))))).
Notation EV := (eval dec disk salvage fault float_repr globals F md).
Notation EX := (exec dec disk salvage fault float_repr globals F md None).
Notation ASSIGN := (assign dec disk salvage fault float_repr globals F md).
Notation agrees := (agrees dec disk salvage fault float_repr argv n).
Notation gen_inv := (gen_inv dec disk salvage fault float_repr argv n).

Lemma drain_ends fuel : forall g f, (g = GDone \/ Z.max 0 (todo_of g) < Z.of_nat fuel) -> (0 < fuel)%nat ->
  exists e, snd (fst (drain dec fuel g f)) = Some e.
Proof.
  assert (L : forall h gate strict todo f s g' f', gloop dec h gate strict todo f = (Yield s, g', f') -> 0 < todo /\ todo_of g' = todo - 1).
  { intros h gate strict todo f s g' f'. unfold gloop. destruct (todo <=? 0) eqn:Et; [discriminate|].
    destruct (read_sample dec h gate f) as [[[x|]|e] f1] eqn:E; intros H; try discriminate H.
    - injection H as _ <- _. cbn [todo_of]. lia.
    - unfold on_exception in H. destruct e; try discriminate H. destruct strict; discriminate H. }
  assert (N : forall g f s g' f', gnext dec g f = (Yield s, g', f') -> 0 < todo_of g /\ todo_of g' = todo_of g - 1).
  { intros g f s g' f'. destruct g as [[h|] strict ms|h gate strict todo|]; cbn [gnext todo_of].
    - unfold gstart. destruct (cgroup_gate h) as [gate|e]; [apply L|]. unfold on_exception. destruct e; try discriminate. destruct strict; discriminate.
    - destruct (get_header true f) as [[h|e] f1]; [|unfold on_exception; destruct e; try discriminate; destruct strict; discriminate].
      unfold gstart. destruct (cgroup_gate h) as [gate|e]; [apply L|]. unfold on_exception. destruct e; try discriminate. destruct strict; discriminate.
    - apply L.
    - discriminate. }
  induction fuel as [|fuel IH]; intros g f H P; [lia|]. cbn [drain].
  destruct (gnext dec g f) as [[[s| |e] g'] f'] eqn:E; [|eexists; reflexivity..].
  destruct (N _ _ _ _ _ E) as [T1 T2]. destruct H as [-> | H]; [discriminate E|].
  destruct (IH g' f') as (e & K); [right; lia|lia|].
  destruct (drain dec fuel g' f') as [[ss e'] f'']. cbn [fst snd] in *. eauto.
Qed.

(** Types of the samples, when the header was given. *)
Definition gives_hdr (hdr : option hobj) (g : gstate) : Prop := forall h, hdr = Some h -> gen_of h g.

Section Loop.
Variable hdr : option hobj.
Variables a b c d : string.
Variable body : list stmt.
Variable inv : list sample -> env -> world -> Prop.
Variable left : list sample -> outcome -> env -> world -> Prop.
Hypothesis Hbody : body_contract (exec_block EX body) hdr a b c d inv left.
Notation target := (TgTuple [a; b; c; d]).

Definition cbody (v : value) (l : env) (w : world) : tree :=
  tseq (ASSIGN target v l w) (fun o l w => match o with ONext => exec_block EX body l w | _ => TDone o l w end).

Lemma client_loop fuel : forall g t w l done,
  agrees w (gnext dec g (w_file w)) (resume t) -> gives_hdr hdr g ->
  loaded w -> plain_fault (w_file w) -> inv done l w ->
  forall e, snd (fst (drain dec fuel g (w_file w))) = Some e ->
  let ss := fst (fst (drain dec fuel g (w_file w))) in let f' := snd (drain dec fuel g (w_file w)) in
  exists o l' w', tfor t cbody l = TDone o l' w' /\
    ((exists s1 s2, ss = s1 ++ s2 /\ s1 <> [] /\ left (done ++ s1) o l' w') \/
     (exists w1, inv (done ++ ss) l' w1 /\ grows w1 w' /\ w_out w' = w_out w1 /\ loaded w' /\ w_file w' = f' /\ o = loop_end e)).
Proof.
  induction fuel as [|fuel IH]; intros g t w l done Hag Hg Lw Hpf Hi e He; [discriminate He|].
  cbn [drain] in *. pose proof (gnext_plain dec g (w_file w)) as P. cbv beta in P.
  destruct (gnext dec g (w_file w)) as [[o g'] f'] eqn:Eg. specialize (P _ _ Hpf eq_refl).
  destruct t as [oc le we|v w1 k]; cbn [resume] in Hag.
  - assert (exists o', tfor (TDone oc le we) cbody l = TDone o' l we /\
      match o with StopIteration => o' = ONext | Raised x => o' = OExc (xof x) | Yield _ => False end /\
      grows w we /\ w_file we = f' /\ w_out we = w_out w) as (o' & T & Ho' & G & Hfile & Hout).
    { destruct oc as [| |rv|x]; cbn [SrcGen2.agrees] in Hag; destruct Hag as (Ho & G & Hfile & Hout & _);
        destruct o as [s| |x']; cbn [out_rel] in Ho; try (destruct Ho as (? & Ho & _)); try discriminate Ho.
      - exists ONext. auto.
      - exfalso. injection Ho as Ho. exact (xof_not_stuck _ (eq_sym Ho)).
      - exists ONext. auto.
      - injection Ho as ->. exists (OExc (xof x')). auto. }
    exists o', l, we. split; [exact T|]. right. exists w.
    destruct o as [s| |x]; [destruct Ho'| |]; cbn [fst snd] in *; injection He as <-; rewrite app_nil_r;
      (split; [exact Hi|]; split; [exact G|]; split; [exact Hout|]; split; [exact (loaded_grows _ _ G Lw)|]; split; [exact Hfile|exact Ho']).
  - cbn [SrcGen2.agrees] in Hag. destruct Hag as (Ho & G & Hfile & Hout & Hinv).
    destruct o as [s| |x]; cbn [out_rel] in Ho; try discriminate Ho. destruct Ho as (v' & Ho & Hs & Hn). injection Ho as <-.
    assert (Hty : forall h, hdr = Some h -> in_classes (h_class h) s).
    { intros h E. exact (proj1 (next_types _ _ _ _ _ _ _ (Hg h E) Eg)). }
    assert (Hg' : gives_hdr hdr g').
    { intros h E. exact (proj1 (proj2 (next_types _ _ _ _ _ _ _ (Hg h E) Eg))). }
    pose proof Hs as (rv & sv & tv & cv & -> & _).
    destruct (Hbody done s l w w1 rv sv tv cv Hi G Hout (loaded_grows _ _ G Lw) Hs Hn Hty) as (o & l2 & w2 & R & K).
    assert (T : tfor (TYield (VTuple [rv; sv; tv; cv]) w1 k) cbody l =
      tseq (TDone o l2 w2) (fun o l w => match o with ONext => tfor (k None w) cbody l | OBreak => TDone ONext l w | _ => TDone o l w end)).
    { cbn [tfor]. rewrite <- R. reflexivity. }
    rewrite T. clear T R. cbn [tseq].
    destruct (drain dec fuel g' f') as [[ss e'] f''] eqn:Ed. cbn [fst snd] in *.
    destruct o as [| |rv'|x].
    + destruct K as (Hi2 & Hk & L2 & F2).
      specialize (IH g' (k None w2) w2 l2 (done ++ [s])).
      rewrite F2, Hfile, Ed in IH. cbn [fst snd] in IH.
      destruct (IH ltac:(pose proof (next_step dec disk salvage fault float_repr argv n w2 (PSusp k) g') as NS;
          rewrite F2, Hfile in NS; apply NS; [exact L2|exact P|exact (gen_inv_keeps dec disk salvage fault float_repr argv n _ _ _ _ Hk Hinv)])
        Hg' L2 P Hi2 e He) as (o & l3 & w3 & T & K3).
      exists o, l3, w3. split; [exact T|]. destruct K3 as [(s1 & s2 & E1 & E2 & E3)|(w4 & E1 & E2)].
      * left. exists (s :: s1), s2. split; [cbn [app]; congruence|]. split; [discriminate|]. rewrite <- app_assoc in E3. exact E3.
      * right. exists w4. rewrite <- app_assoc in E1. split; [exact E1|exact E2].
    + exists ONext, l2, w2. split; [reflexivity|]. left. exists [s], ss. split; [reflexivity|]. split; [discriminate|exact K].
    + exists (ORet rv'), l2, w2. split; [reflexivity|]. left. exists [s], ss. split; [reflexivity|]. split; [discriminate|exact K].
    + exists (OExc x), l2, w2. split; [reflexivity|]. left. exists [s], ss. split; [reflexivity|]. split; [discriminate|exact K].
Qed.

Lemma client_for it l w w0 hv strict ms : EV it l w0 = EOk (VGen U "generate_statistics" (gen_env hv strict ms)) w ->
  loaded w -> plain_fault (w_file w) -> match hdr with None => hv = VNone | Some h => is_hdr w hv h end -> inv [] l w ->
  exists e, snd (fst (run dec hdr strict ms (w_file w))) = Some e /\
  let ss := fst (fst (run dec hdr strict ms (w_file w))) in let f' := snd (run dec hdr strict ms (w_file w)) in
  exists o l' w', EX (SFor target it body) l w0 = TDone o l' w' /\
    ((exists s1 s2, ss = s1 ++ s2 /\ s1 <> [] /\ left s1 o l' w') \/
     (exists w1, inv ss l' w1 /\ grows w1 w' /\ w_out w' = w_out w1 /\ loaded w' /\ w_file w' = f' /\ o = loop_end e)).
Proof.
  intros Hit Lw Hpf Hh Hi.
  destruct (drain_ends (S (Z.to_nat ms)) (generate_statistics hdr strict ms) (w_file w)) as (e & He).
  { right. cbn [generate_statistics todo_of]. lia. }
  { lia. }
  exists e. split; [exact He|]. unfold run.
  assert (NS := next_step dec disk salvage fault float_repr argv n w (PNew U "generate_statistics" (gen_env hv strict ms))
      (generate_statistics hdr strict ms) Lw Hpf ltac:(exists hv; split; [reflexivity|exact Hh])).
  assert (Hg : gives_hdr hdr (generate_statistics hdr strict ms)).
  { intros h E. subst hdr. reflexivity. }
  destruct (client_loop (S (Z.to_nat ms)) (generate_statistics hdr strict ms) (f_gen F U "generate_statistics" (gen_env hv strict ms) w) w l []
    NS Hg Lw Hpf Hi e He) as (o & l' & w' & T & K).
  exists o, l', w'. split; [|exact K]. cbn [exec]. rewrite Hit. cbn [with_val]. exact T.
Qed.
End Loop.
End Src.
