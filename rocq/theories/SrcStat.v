(** * get_tstat and get_cstat of utils.py: running the source has the effects the model says *)
From Coq Require Import List ZArith Lia Bool String.
From Coq Require Import Init.Byte.
From Coq Require Import ZifyBool.
From Verif Require Import PyBase Utf8 CTypes S_shared S_1_26 Model Parsers Json Gzip Reader Messages.
From Verif Require Import Spec BaseProofs LayoutProofs RepProofs DictProofs TableProofs HeaderProofs.
From Verif Require Import PySyntax PyEval Source PyProgram PyGenerator SpecSource SrcBase SrcHeader SrcUtils.
Import ListNotations.
Local Open Scope string_scope.
Local Open Scope list_scope.
Local Open Scope Z_scope.

(** ** Lists of objects *)

Lemma forall2_impl {A B} (P Q : A -> B -> Prop) l m : (forall a b, P a b -> Q a b) -> Forall2 P l m -> Forall2 Q l m.
Proof. intros H. induction 1; constructor; auto. Qed.

Lemma is_objs_grows w w' v l : grows w w' -> is_list is_obj w v l -> is_list is_obj w' v l.
Proof.
  intros G (id & vs & -> & Hc & Hf). exists id, vs. split; [reflexivity|]. split; [eapply list_grows; eassumption|].
  eapply forall2_impl; [|exact Hf]. intros a b. apply is_obj_grows, G.
Qed.

Section Src.
Variable dec : list byte -> option (list byte).
Variable disk : list Z -> res (list byte).
Variable salvage : list byte -> list byte.
Variable fault : list byte -> exn.
Variable float_repr : Z -> list Z.
Variable argv : env.
Notation CN := (call_n dec disk salvage fault float_repr argv globals functions).
Notation GA := (get_attr globals).
Notation EV := (eval dec disk salvage fault float_repr globals).
Notation EX := (exec dec disk salvage fault float_repr globals).
Notation RB := (run_body dec disk salvage fault float_repr globals).

(** The loop of get_tstat (utils.py:241-244). *)
Definition tstat_body : list stmt :=
  match nth 5 (fd_body u_get_tstat) SPass with SFor _ _ b => b | _ => [] end.

Section TLoop.
Variables (n : nat) (w0 : world) (id : nat) (v : value) (h : hobj) (e0 : env) (d : list byte) (len : Z).
Let t := hc_tstat (h_class h).
Hypothesis Hid : (next w0 <= id)%nat.
Hypothesis Hh0 : is_hdr w0 v h.
Variables (vr vb vc : value).
Let env0 : env := [("raw_file", VFile); ("header", v); ("record", vr); ("buffer", vb);
  ("decompressed", VBytes d); ("record_count", vc); ("tstatlen", VInt len); ("tstats", VList id)].
Definition tenv (e : env) : Prop := e = env0 \/ exists i x, e = env0 ++ [("index", i); ("tstat", x)].

Lemma src_tstat_loop count : forall index e w vs os, tenv e -> quiet w0 w ->
  cell_at w id = Some (CList vs) -> Forall2 (is_obj w) vs os ->
  match tstat_loop t len d count index with
  | Ok rest => exists e' w' vs', 
      exec_for dec disk salvage fault float_repr globals (CN n) U (TgName "index")
        (exec_block (EX (CN n) U None) tstat_body) (range_accesses count index) e w = TDone ONext e' w' /\
      tenv e' /\ quiet w0 w' /\ cell_at w' id = Some (CList vs') /\ Forall2 (is_obj w') vs' (os ++ rest)
  | Raise x => exists e' w',
      exec_for dec disk salvage fault float_repr globals (CN n) U (TgName "index")
        (exec_block (EX (CN n) U None) tstat_body) (range_accesses count index) e w = TDone (OExc (xof x)) e' w' /\
      quiet w0 w'
  end.
Proof.
  assert (Ht : wf_type t = true).
  { destruct (class_types_ok (h_class h) t (hdr_in _ _ _ Hh0)) as [H _]; [unfold t, class_types; cbn; tauto|exact H]. }
  induction count as [|count IH]; intros index e w vs os He Q Hc Hf.
  { cbn [tstat_loop range_accesses exec_for]. exists e, w, vs. rewrite app_nil_r. auto. }
  cbn [tstat_loop range_accesses exec_for]. unfold tstat_body. cbn [nth fd_body u_get_tstat].
  pose proof (is_hdr_grows _ _ _ _ (proj1 Q) Hh0) as Hh.
  assert (He1 : exists x, assign dec disk salvage fault float_repr globals (CN n) U (TgName "index") (VInt index) e w =
                          TDone ONext (env0 ++ match x with Some y => [("index", VInt index); ("tstat", y)] | None => [("index", VInt index)] end) w).
  { destruct He as [-> | (i & x & ->)]; [exists None|exists (Some x)]; reflexivity. }
  destruct He1 as (x & ->). cbn [tseq].
  set (e1 := env0 ++ _).
  set (st := SAssign (TgName "tstat") _).
  destruct (from_buffer_copy t (pyslice (index * len) (len * (index + 1)) d)) as [o|ex] eqn:Eo; cbn [rbind]; cycle 1.
  { exists e1, w. split; [|exact Q].
    assert (S1 : EX (CN n) U None st e1 w = TDone (OExc (xof ex)) e1 w).
    { rewrite (copy_plain _ _ _ Eo). unfold st, e1; destruct x; unfold env0; cbn [app]; ev; rewrite (hdr_TStat _ _ _ _ Hh); ev;
      cbn [slice_val]; ev; cbn [call_method]; fold t; rewrite Eo; ev; reflexivity. }
    erewrite block_exc; [|exact S1]. reflexivity. }
  destruct (new_view_obj t _ o w Eo Ht) as (N1 & N2 & N3).
  set (w1 := push (CMem (o_buf o)) w) in *. set (vo := VView t (next w) 0) in *.
  assert (S1 : EX (CN n) U None st e1 w = TDone ONext (env0 ++ [("index", VInt index); ("tstat", vo)]) w1).
  { unfold st, e1; destruct x; unfold env0; cbn [app]; ev; rewrite (hdr_TStat _ _ _ _ Hh); ev;
      cbn [slice_val]; ev; cbn [call_method]; fold t; rewrite Eo, N1; ev; reflexivity. }
  erewrite block_next; [|exact S1]. clear S1.
  pose proof (cell_push (CMem (o_buf o)) w id _ Hc) as Hc1. fold w1 in Hc1.
  set (w2 := upd id (CList (vs ++ [vo])) w1).
  assert (Q1 : quiet w0 w1) by (eapply quiet_trans; [exact Q|apply quiet_push]).
  assert (Q2 : quiet w0 w2) by (eapply quiet_upd; [exact Q1|exact Hc1|exact Hid|discriminate]).
  erewrite block_next; cycle 1.
  { unfold env0. cbn [app]. ev. rewrite (append_eq _ _ _ _ _ Hc1). ev. reflexivity. }
  fold w2. cbn [exec_block tseq].
  assert (Hf2 : Forall2 (is_obj w2) (vs ++ [vo]) (os ++ [o])).
  { apply Forall2_app.
    - eapply forall2_impl; [|exact Hf]. intros a b Hab. eapply is_obj_upd; [exact Hc1|discriminate|].
      eapply is_obj_grows; [apply push_grows|exact Hab].
    - constructor; [|constructor]. eapply is_obj_upd; [exact Hc1|discriminate|exact N2]. }
  specialize (IH (index + 1) (env0 ++ [("index", VInt index); ("tstat", vo)]) w2 (vs ++ [vo]) (os ++ [o])).
  unfold tstat_body in IH. cbn [nth fd_body u_get_tstat] in IH.
  specialize (IH (or_intror (ex_intro _ _ (ex_intro _ _ eq_refl))) Q2 (cell_upd_eq _ _ _ _ Hc1) Hf2).
  destruct (tstat_loop t len d count (index + 1)) as [rest|ex]; cbn [rbind].
  - destruct IH as (e' & w' & vs' & E' & P1 & P2 & P3 & P4). exists e', w', vs'.
    rewrite <- app_assoc in P4. split; [exact E'|auto].
  - exact IH.
Qed.
End TLoop.

(** get_tstat (utils.py:213-245) *)
Lemma isinstance_record w v r : is_obj w v r -> is_record (o_type r) ->
  isinstance_val v (VCType a1_26_Record) = Some (is_record_1_26 r).
Proof.
  intros (blk & off & m & -> & _) (c & Hc & Ht). unfold is_record_1_26. 
  assert (T : forallb (fun c => match hc_record c with TStruct _ _ _ => true | _ => false end) versions = true) by reflexivity.
  rewrite forallb_forall in T. specialize (T _ Hc). rewrite <- Ht in T. destruct (o_type r); try discriminate T. reflexivity.
Qed.

Lemma src_get_tstat n w v h vr r : is_hdr w v h -> is_obj w vr r -> is_record (o_type r) ->
  plain_fault (w_file w) ->
  runs (fun w' x l => is_list is_obj w' x l /\ new_list w x) w
       (f_call (CN (S (S (S n)))) U "get_tstat" [VFile; v; vr] [] w) (get_tstat dec h r (w_file w)).
Proof.
  intros Hh Hr Hrt Hpf. pose proof (hdr_in _ _ _ Hh) as Hv. set (N := S (S n)).
  erewrite call_eq; [|reflexivity..]. unfold run_body. cbn [fd_body u_get_tstat].
  unfold get_tstat, mbind, mlift.
  destruct (getint r "pcomplen") as [k|e] eqn:Ek; cycle 1.
  { exists w. split; [|split; [apply grows_refl|split; reflexivity]].
    erewrite block_exc; cycle 1.
    { ev. rewrite (rec_getint _ w vr r "pcomplen" Hr Hrt ltac:(in_list)), Ek. ev. reflexivity. }
    cbn [finish]. now rewrite (getint_plain _ _ _ Ek). }
  pose proof (rec_unsigned r "pcomplen" k Hrt ltac:(in_list) Ek) as Hk.
  destruct (fread k (w_file w)) as [[b|e] f'] eqn:Er; cycle 1.
  { exists (set_file f' w). split; [|split; [apply set_file_grows|split; reflexivity]].
    erewrite block_exc; cycle 1.
    { ev. rewrite (rec_getint _ w vr r "pcomplen" Hr Hrt ltac:(in_list)), Ek. ev.
      rewrite read_eq, Er by exact Hk. ev. reflexivity. }
    cbn [finish]. now rewrite (read_fault _ _ _ _ Hpf Er). }
  set (w1 := set_file f' w).
  assert (G1 : grows w w1) by apply set_file_grows.
  erewrite block_next; cycle 1.
  { ev. rewrite (rec_getint _ w vr r "pcomplen" Hr Hrt ltac:(in_list)), Ek. ev.
    rewrite read_eq, Er by exact Hk. ev. reflexivity. }
  fold w1.
  unfold zlib_decompress. destruct (dec b) as [d|] eqn:Ed; cycle 1.
  { exists w1. split; [|split; [exact G1|split; reflexivity]].
    erewrite block_exc; [|ev; rewrite Ed; ev; reflexivity]. reflexivity. }
  erewrite block_next; [|ev; rewrite Ed; ev; reflexivity].
  pose proof (is_hdr_grows _ _ _ _ G1 Hh) as Hh1. pose proof (is_obj_grows _ _ _ _ G1 Hr) as Hr1.
  set (cnt := if is_record_1_26 r then getint r "nlist" else getint r "ndeviat").
  destruct cnt as [rc|e] eqn:Ecnt; unfold cnt in Ecnt; cycle 1.
  { exists w1. split; [|split; [exact G1|split; reflexivity]].
    erewrite block_exc; cycle 1.
    { ev. rewrite (isinstance_record _ _ _ Hr1 Hrt). ev. destruct (is_record_1_26 r); ev.
      - rewrite (rec_getint _ w1 vr r "nlist" Hr1 Hrt ltac:(in_list)), Ecnt. ev. reflexivity.
      - rewrite (rec_getint _ w1 vr r "ndeviat" Hr1 Hrt ltac:(in_list)), Ecnt. ev. reflexivity. }
    cbn [finish]. destruct (is_record_1_26 r); now rewrite (getint_plain _ _ _ Ecnt). }
  erewrite block_next; cycle 1.
  { ev. rewrite (isinstance_record _ _ _ Hr1 Hrt). ev. instantiate (1 := w1). instantiate (1 := [("raw_file", VFile); ("header", v); ("record", vr); ("buffer", VBytes b);
      ("decompressed", VBytes d); ("record_count", VInt rc)]).
    destruct (is_record_1_26 r); ev.
    - rewrite (rec_getint _ w1 vr r "nlist" Hr1 Hrt ltac:(in_list)), Ecnt. ev. reflexivity.
    - rewrite (rec_getint _ w1 vr r "ndeviat" Hr1 Hrt ltac:(in_list)), Ecnt. ev. reflexivity. }
  set (e5 := [("raw_file", VFile); ("header", v); ("record", vr); ("buffer", VBytes b);
      ("decompressed", VBytes d); ("record_count", VInt rc)]).
  destruct (src_at_least dec disk salvage fault float_repr argv n U "header" 3 e5 w1 v h Hh1 eq_refl)
    as (b23 & w2 & X23 & M23 & Q12).
  rewrite M23. fold N in X23.
  pose proof (is_hdr_grows _ _ _ _ (proj1 Q12) Hh1) as Hh2.
  assert (Q2 : grows w w2 /\ w_file w2 = f' /\ w_out w2 = w_out w).
  { destruct Q12 as (A & B & C). split; [exact (grows_trans _ _ _ G1 A)|]. split; [exact B|exact C]. }
  set (st := SAssign (TgName "tstatlen") _).
  set (rl := if b23 then getint (h_obj h) "tstatlen" else getint (h_obj h) "pstatlen").
  assert (St : EX (CN N) U None st e5 w1 =
    match rl with
    | Ok z => TDone ONext (e5 ++ [("tstatlen", VInt z)]) w2
    | Raise e => TDone (OExc (XB e)) e5 w2
    end).
  { unfold st, rl. cbn [exec]. set (cond := EAnd _ _) in *. cbn [eval]. rewrite X23. cbn [ebind truthy].
    destruct b23; unfold e5; ev.
    - rewrite (hdr_getint _ w2 v h "tstatlen" Hh2 ltac:(in_list)). destruct (getint (h_obj h) "tstatlen"); ev; reflexivity.
    - rewrite (hdr_getint _ w2 v h "pstatlen" Hh2 ltac:(in_list)). destruct (getint (h_obj h) "pstatlen"); ev; reflexivity. }
  clearbody st. fold rl. destruct rl as [len|e] eqn:El; unfold rl in El; cycle 1.
  { exists w2. split; [|exact Q2]. erewrite block_exc; [|exact St]. cbn [finish].
    destruct b23; now rewrite (getint_plain _ _ _ El). }
  erewrite block_next; [|exact St]. clear St.
  set (id := next w2). set (w3 := push (CList []) w2).
  assert (Q23 : quiet w2 w3) by apply quiet_push.
  erewrite block_next; cycle 1. { unfold e5. cbn [app]. ev. rewrite alloc_eq. ev. reflexivity. }
  fold id. fold w3.
  pose proof (is_hdr_grows _ _ _ _ (proj1 Q23) Hh2) as Hh3.
  pose proof (src_tstat_loop N w2 id v h d len ltac:(unfold id; lia) Hh2 vr (VBytes b) (VInt rc) (Z.to_nat rc) 0 _ w3 [] []
    (or_introl eq_refl) Q23 (cell_push_new _ _) (Forall2_nil _)) as K.
  destruct Q2 as (A2 & B2 & C2).
  destruct (tstat_loop (hc_tstat (h_class h)) len d (Z.to_nat rc) 0) as [rest|ex].
  - destruct K as (e' & w' & vs' & E' & P1 & (A & B & C) & P3 & P4). cbn [app] in P4.
    exists (VList id), w'. split; [|split; [eapply grows_trans; eassumption|split; [congruence|split; [congruence|]]]].
    + erewrite block_next; cycle 1.
      { ev. cbn [accesses simple_accesses]. unfold tstat_body in E'. cbn [nth fd_body u_get_tstat] in E'. exact E'. }
      destruct P1 as [-> | (i & x & ->)]; (erewrite block_ret; [|cbn [app]; ev; reflexivity]); reflexivity.
    + split; [exists id, vs'; auto|]. exists id. split; [reflexivity|]. exact (next_grows _ _ A2).
  - destruct K as (e' & w' & E' & (A & B & C)).
    exists w'. split; [|split; [eapply grows_trans; eassumption|split; congruence]].
    erewrite block_exc; cycle 1.
    { ev. cbn [accesses simple_accesses]. unfold tstat_body in E'. cbn [nth fd_body u_get_tstat] in E'. exact E'. }
    reflexivity.
Qed.
End Src.
