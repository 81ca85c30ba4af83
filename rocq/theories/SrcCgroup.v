(** * get_cstat of utils.py: running the source has the effects the model says *)
From Coq Require Import List ZArith Lia Bool String.
From Coq Require Import Init.Byte.
From Coq Require Import ZifyBool.
From Verif Require Import PyBase Utf8 CTypes S_shared S_1_26 Model Parsers Json Gzip Reader Messages.
From Verif Require Import Spec BaseProofs LayoutProofs RepProofs DictProofs TableProofs HeaderProofs.
From Verif Require Import PySyntax PyEval Source PyProgram PyGenerator SpecSource SrcBase SrcHeader SrcUtils SrcStat.
Import ListNotations.
Local Open Scope string_scope.
Local Open Scope list_scope.
Local Open Scope Z_scope.


(** A CGChainer instance. *)
Lemma is_chain_grows w w' v c : grows w w' -> is_chain w v c -> is_chain w' v c.
Proof.
  intros G (id & vc & vp & -> & Hc & H1 & H2). exists id, vc, vp. split; [reflexivity|].
  split; [eapply obj_grows; eassumption|]. split; eapply is_obj_grows; eassumption.
Qed.
Lemma is_chains_grows w w' v l : grows w w' -> is_list is_chain w v l -> is_list is_chain w' v l.
Proof.
  intros G (id & vs & -> & Hc & Hf). exists id, vs. split; [reflexivity|]. split; [eapply list_grows; eassumption|].
  eapply forall2_impl; [|exact Hf]. intros a b. apply is_chain_grows, G.
Qed.
Lemma is_chain_upd w n c l v o : cell_at w n = Some (CList l) ->
  is_chain w v o -> is_chain (upd n c w) v o.
Proof.
  intros Hd (id & vc & vp & -> & Hc & H1 & H2). exists id, vc, vp. split; [reflexivity|].
  split; [|split; (eapply is_obj_upd; [exact Hd|discriminate|assumption])].
  rewrite cell_upd_neq; [exact Hc|]. intros ->. rewrite Hd in Hc. discriminate Hc.
Qed.

Lemma cstat_b :
  forallb (fun c => match hc_cstat c with
     | None => true
     | Some ct => wf_type ct && match field_at ct "gen" with
         | Some (_, TStruct n fs l) =>
             match field_at (TStruct n fs l) "structlen", field_at (TStruct n fs l) "nprocs" with
             | Some (_, TInt _ _), Some (_, TInt _ _) => true
             | _, _ => false
             end
         | _ => false
         end
     end) versions = true.
Proof. vm_compute. reflexivity. Qed.

Lemma cstat_gen w v cs c ct : In c versions -> hc_cstat c = Some ct -> is_obj w v cs -> o_type cs = ct ->
  exists vg g sl np, (forall F, get_attr globals F v "gen" w = EOk vg w) /\
    (forall F, get_attr globals F vg "structlen" w = EOk (VInt sl) w) /\
    (forall F, get_attr globals F vg "nprocs" w = EOk (VInt np) w) /\
    getobj cs "gen" = Ok g /\ getint g "structlen" = Ok sl /\ getint g "nprocs" = Ok np.
Proof.
  intros Hc Hct Ho Ht. pose proof cstat_b as T. rewrite forallb_forall in T. specialize (T _ Hc). rewrite Hct in T.
  apply andb_true_iff in T. destruct T as [_ T].
  destruct (field_at ct "gen") as [[go gt]|] eqn:Eg; [|discriminate T].
  destruct gt as [| | | |gn gfs gl]; try discriminate T.
  assert (Ga : getattr cs "gen" = Ok (PObj (mkObj (TStruct gn gfs gl) (sub_bytes go (sizeof (TStruct gn gfs gl)) (o_buf cs))))).
  { unfold getattr. rewrite Ht, Eg. reflexivity. }
  set (g := mkObj (TStruct gn gfs gl) (sub_bytes go (sizeof (TStruct gn gfs gl)) (o_buf cs))) in *.
  destruct (attr_obj globals (mkFns (fun _ _ _ _ w => EErr XStuck w) (fun _ _ l w => tfail XStuck l w)) w v cs "gen" _ Ho Ga) as (vg & Hvg & Hg).
  cbn [is_val] in Hg.
  destruct (field_at (TStruct gn gfs gl) "structlen") as [[o1 t1]|] eqn:E1; [|discriminate T].
  destruct t1 as [sg1 sz1| | | |]; try discriminate T.
  destruct (field_at (TStruct gn gfs gl) "nprocs") as [[o2 t2]|] eqn:E2; [|discriminate T].
  destruct t2 as [sg2 sz2| | | |]; try discriminate T.
  assert (I1 : getint g "structlen" = Ok (int_value sg1 sz1 (sub_bytes o1 (sizeof (TInt sg1 sz1)) (o_buf g)))).
  { unfold getint, getattr. cbn [o_type g]. rewrite E1. reflexivity. }
  assert (I2 : getint g "nprocs" = Ok (int_value sg2 sz2 (sub_bytes o2 (sizeof (TInt sg2 sz2)) (o_buf g)))).
  { unfold getint, getattr. cbn [o_type g]. rewrite E2. reflexivity. }
  exists vg, g. eexists _, _.
  split; [|split; [intros F; eapply attr_int; [exact Hg|exact I1]|split; [intros F; eapply attr_int; [exact Hg|exact I2]|]]].
  - intros F. destruct Ho as (blk & off & m & -> & _). exact Hvg.
  - split; [|split; [exact I1|exact I2]]. unfold getobj. rewrite Ga. reflexivity.
Qed.

Section Src.
Variable dec : list byte -> option (list byte).
Variable disk : list Z -> res (list byte).
Variable salvage : list byte -> list byte.
Variable fault : list byte -> exn.
Variable float_repr : Z -> list Z.
Variable argv : env.
Notation CN := (call_n dec disk salvage fault float_repr argv globals functions).
Notation GA := (get_attr globals).
Notation EV := (eval dec disk salvage fault float_repr globals).
Notation EX := (exec dec disk salvage fault float_repr globals).
Notation RB := (run_body dec disk salvage fault float_repr globals).


(** CGChainer(cstat, proclist) (atop_2_11.py:660-668) *)
Lemma src_chainer n w a b :
  call_value dec disk salvage fault float_repr globals (CN (S n)) (VClass "CGChainer") [a; b] [] w =
  EOk (VObj (next w)) (upd (next w) (CObj [("cstat", a); ("proclist", b)])
                        (upd (next w) (CObj [("cstat", a)]) (push (CObj []) w))).
Proof.
  cbn [call_value]. rewrite alloc_eq. erewrite call_eq; [|reflexivity..].
  unfold run_body. cbn [fd_body sc_CGChainer___init__].
  pose proof (cell_push_new (CObj []) w) as C1.
  pose proof (cell_upd_eq _ (CObj [("cstat", a)]) _ _ C1) as C2.
  erewrite block_next; cycle 1. { ev. unfold set_attr. rewrite C1. ev. reflexivity. }
  erewrite block_next; cycle 1. { ev. unfold set_attr. rewrite C2. ev. reflexivity. }
  reflexivity.
Qed.

(** The loop of get_cstat (utils.py:277-292). *)
Definition cstat_body : list stmt :=
  match nth 8 (fd_body u_get_cstat) SPass with SFor _ _ b => b | _ => [] end.

Section CLoop.
Variables (n : nat) (w0 : world) (id : nat) (v : value) (h : hobj) (dc dp : list byte) (len : Z) (ct : ctype).
Hypothesis Hct : hc_cstat (h_class h) = Some ct.
Hypothesis Hid : (next w0 <= id)%nat.
Hypothesis Hh0 : is_hdr w0 v h.
Variables (vr vb vb2 : value).
Let env0 (cs ps : Z) : env := [("raw_file", VFile); ("header", v); ("record", vr); ("buffer_cstats", vb);
  ("decompressed_cstats", VBytes dc); ("buffer_pidlist", vb2); ("decompressed_pidlist", VBytes dp);
  ("cgroups", VList id); ("cstat_start", VInt cs); ("cstatlen", VInt len); ("pidlist_start", VInt ps)].
Definition cenv (cs ps : Z) (e : env) : Prop :=
  e = env0 cs ps \/ exists i a b c d,
    e = env0 cs ps ++ [("_", i); ("cstat", a); ("pid_array", b); ("pid_array_size", c); ("pidlist", d)].

Lemma src_cstat_loop count : forall i cs ps e w vs os, cenv cs ps e -> quiet w0 w ->
  cell_at w id = Some (CList vs) -> Forall2 (is_chain w) vs os ->
  match cstat_loop ct len dc dp count cs ps with
  | Ok rest => exists e' cs' ps' w' vs', 
      exec_for dec disk salvage fault float_repr globals (CN (S n)) U (TgName "_")
        (exec_block (EX (CN (S n)) U None) cstat_body) (range_accesses count i) e w = TDone ONext e' w' /\
      cenv cs' ps' e' /\ quiet w0 w' /\ cell_at w' id = Some (CList vs') /\ Forall2 (is_chain w') vs' (os ++ rest)
  | Raise x => exists e' w',
      exec_for dec disk salvage fault float_repr globals (CN (S n)) U (TgName "_")
        (exec_block (EX (CN (S n)) U None) cstat_body) (range_accesses count i) e w = TDone (OExc (xof x)) e' w' /\
      quiet w0 w'
  end.
Proof.
  pose proof (hdr_in _ _ _ Hh0) as Hv.
  assert (Ht : wf_type ct = true).
  { pose proof cstat_b as T. rewrite forallb_forall in T. specialize (T _ Hv). rewrite Hct in T.
    apply andb_true_iff in T. exact (proj1 T). }
  induction count as [|count IH]; intros i cs ps e w vs os He Q Hc Hf.
  { cbn [cstat_loop range_accesses exec_for]. exists e, cs, ps, w, vs. rewrite app_nil_r. auto 10. }
  cbn [cstat_loop range_accesses exec_for]. unfold cstat_body. cbn [nth fd_body u_get_cstat].
  pose proof (is_hdr_grows _ _ _ _ (proj1 Q) Hh0) as Hh.
  assert (He1 : exists r, (r = [] \/ exists a b c d, r = [("cstat", a); ("pid_array", b); ("pid_array_size", c); ("pidlist", d)]) /\
     assign dec disk salvage fault float_repr globals (CN (S n)) U (TgName "_") (VInt i) e w =
        TDone ONext (env0 cs ps ++ ("_", VInt i) :: r) w).
  { destruct He as [-> | (i' & a & b & c & d & ->)]; [exists []|exists [("cstat", a); ("pid_array", b); ("pid_array_size", c); ("pidlist", d)]];
    (split; [|reflexivity]); [left; reflexivity|right; eauto 10]. }
  destruct He1 as (r1 & Hr1 & ->). cbn [tseq].
  set (e1 := env0 cs ps ++ _).
  set (st := SAssign (TgName "cstat") _).
  destruct (from_buffer_copy ct (pyslice cs (cs + len) dc)) as [o|ex] eqn:Eo; cbn [rbind]; cycle 1.
  { exists e1, w. split; [|exact Q].
    assert (S1 : EX (CN (S n)) U None st e1 w = TDone (OExc (xof ex)) e1 w).
    { rewrite (copy_plain _ _ _ Eo). unfold st, e1; destruct Hr1 as [-> | (a & b & c & d & ->)]; unfold env0; cbn [app]; ev; rewrite (hdr_CStat _ _ _ _ Hh), Hct; ev;
      cbn [slice_val]; ev; cbn [call_method]; rewrite Eo; ev; reflexivity. }
    erewrite block_exc; [|exact S1]. reflexivity. }
  destruct (new_view_obj ct _ o w Eo Ht) as (N1 & N2 & N3).
  set (w1 := push (CMem (o_buf o)) w) in *. set (vo := VView ct (next w) 0) in *.
  assert (S1 : exists r2, (r2 = [] \/ exists b c d, r2 = [("pid_array", b); ("pid_array_size", c); ("pidlist", d)]) /\
      EX (CN (S n)) U None st e1 w = TDone ONext (env0 cs ps ++ ("_", VInt i) :: ("cstat", vo) :: r2) w1).
  { destruct Hr1 as [-> | (a & b & c & d & ->)]; [exists []|exists [("pid_array", b); ("pid_array_size", c); ("pidlist", d)]];
    (split; [first [left; reflexivity|right; eauto 10]|]);
    unfold st, e1, env0; cbn [app]; ev; rewrite (hdr_CStat _ _ _ _ Hh), Hct; ev;
      cbn [slice_val]; ev; cbn [call_method]; rewrite Eo, N1; ev; reflexivity. }
  clear Hr1. destruct S1 as (r2 & Hr2 & S1).
  erewrite block_next; [|exact S1]. clear S1.
  assert (Q1 : quiet w0 w1) by (eapply quiet_trans; [exact Q|apply quiet_push]).
  pose proof (cell_push (CMem (o_buf o)) w id _ Hc) as Hc1. fold w1 in Hc1.
  destruct (cstat_gen w1 vo o (h_class h) ct Hv Hct N2 N3) as (vg & g & sl & np & Gg & Gs & Gp & Mg & Ms & Mp).
  rewrite Mg. cbn [rbind]. rewrite Ms. cbn [rbind]. rewrite Mp. cbn [rbind].
  (* cstat_start += cstat.gen.structlen *)
  set (e2 := env0 (cs + sl) ps ++ ("_", VInt i) :: ("cstat", vo) :: r2).
  erewrite block_next; cycle 1.
  { instantiate (1 := w1). instantiate (1 := e2). unfold e2.
    destruct Hr2 as [-> | (b & c & d & ->)]; unfold env0; cbn [app]; ev; rewrite Gg; ev; rewrite Gs; ev; reflexivity. }
  destruct (np <? 0) eqn:Enp.
  { exists e2, w1. split; [|exact Q1].
    erewrite block_exc; [reflexivity|].
    unfold e2. destruct Hr2 as [-> | (b & c & d & ->)]; unfold env0; cbn [app]; ev; rewrite Gg; ev; rewrite Gp; ev; rewrite Enp; ev; reflexivity. }
  set (pa := TArr sh_pid_t np).
  assert (S2 : exists r3, (r3 = [] \/ exists c d, r3 = [("pid_array_size", c); ("pidlist", d)]) /\
      forall rest, exec_block (EX (CN (S n)) U None) (SAssign (TgName "pid_array") (EBin OpMul (EName "pid_t") (EAttr (EAttr (EName "cstat") "gen") "nprocs")) :: rest) e2 w1 =
      exec_block (EX (CN (S n)) U None) rest (env0 (cs + sl) ps ++ ("_", VInt i) :: ("cstat", vo) :: ("pid_array", VCType pa) :: r3) w1).
  { unfold e2. destruct Hr2 as [-> | (b & c & d & ->)]; [exists []|exists [("pid_array_size", c); ("pidlist", d)]];
    (split; [first [left; reflexivity|right; eauto 10]|]); intros rest;
    (erewrite block_next; [reflexivity|]);
    unfold env0; cbn [app]; ev; rewrite Gg; ev; rewrite Gp; ev; rewrite Enp; ev; reflexivity. }
  destruct S2 as (r3 & Hr3 & S2). rewrite S2. clear S2 e2 Hr2 r2.
  set (ps' := sizeof pa).
  assert (S3 : exists r4, (r4 = [] \/ exists d, r4 = [("pidlist", d)]) /\
      forall rest, exec_block (EX (CN (S n)) U None) (SAssign (TgName "pid_array_size") (ECall (EAttr (EName "ctypes") "sizeof") [EName "pid_array"] []) :: rest)
        (env0 (cs + sl) ps ++ ("_", VInt i) :: ("cstat", vo) :: ("pid_array", VCType pa) :: r3) w1 =
      exec_block (EX (CN (S n)) U None) rest (env0 (cs + sl) ps ++ ("_", VInt i) :: ("cstat", vo) :: ("pid_array", VCType pa) :: ("pid_array_size", VInt ps') :: r4) w1).
  { destruct Hr3 as [-> | (c & d & ->)]; [exists []|exists [("pidlist", d)]];
    (split; [first [left; reflexivity|right; eauto 10]|]); intros rest;
    (erewrite block_next; [reflexivity|]);
    unfold env0; cbn [app]; ev; reflexivity. }
  destruct S3 as (r4 & Hr4 & S3). rewrite S3. clear S3 Hr3 r3.
  set (e4 := env0 (cs + sl) ps ++ _).
  set (st2 := SAssign (TgName "pidlist") _).
  assert (Hwp : wf_type pa = true).
  { unfold pa. cbn [wf_type]. apply andb_true_iff. split; [lia|reflexivity]. }
  destruct (from_buffer_copy pa (pyslice ps (ps + ps') dp)) as [o2|ex] eqn:Eo2; cbn [rbind]; cycle 1.
  { exists e4, w1. split; [|exact Q1].
    assert (S1 : EX (CN (S n)) U None st2 e4 w1 = TDone (OExc (xof ex)) e4 w1).
    { rewrite (copy_plain _ _ _ Eo2). unfold st2, e4; destruct Hr4 as [-> | (d & ->)]; unfold env0; cbn [app]; ev;
      cbn [slice_val]; ev; cbn [call_method]; rewrite Eo2; ev; reflexivity. }
    erewrite block_exc; [|exact S1]. reflexivity. }
  destruct (new_view_obj pa _ o2 w1 Eo2 Hwp) as (K1 & K2 & K3).
  set (w2 := push (CMem (o_buf o2)) w1) in *. set (vp := VView pa (next w1) 0) in *.
  set (e5 := env0 (cs + sl) ps ++ [("_", VInt i); ("cstat", vo); ("pid_array", VCType pa); ("pid_array_size", VInt ps'); ("pidlist", vp)]).
  assert (S1 : EX (CN (S n)) U None st2 e4 w1 = TDone ONext e5 w2).
  { unfold st2, e4, e5; destruct Hr4 as [-> | (d & ->)]; unfold env0; cbn [app]; ev;
      cbn [slice_val]; ev; cbn [call_method]; rewrite Eo2, K1; ev; reflexivity. }
  erewrite block_next; [|exact S1]. clear S1 Hr4.
  set (e6 := env0 (cs + sl) (ps + ps') ++ [("_", VInt i); ("cstat", vo); ("pid_array", VCType pa); ("pid_array_size", VInt ps'); ("pidlist", vp)]).
  erewrite block_next; cycle 1.
  { instantiate (1 := w2). instantiate (1 := e6). unfold e5, e6, env0; cbn [app]; ev; reflexivity. }
  assert (Q2 : quiet w0 w2) by (eapply quiet_trans; [exact Q1|apply quiet_push]).
  pose proof (cell_push (CMem (o_buf o2)) w1 id _ Hc1) as Hc2. fold w2 in Hc2.
  pose proof (is_hdr_grows _ _ _ _ (proj1 Q2) Hh0) as Hh2.
  set (w3 := push (CObj []) w2).
  set (w4 := upd (next w2) (CObj [("cstat", vo); ("proclist", vp)]) (upd (next w2) (CObj [("cstat", vo)]) w3)).
  assert (Hne : next w2 <> id) by (apply cell_lt in Hc2; lia).
  assert (G4 : grows w2 w4).
  { apply fresh_grows. intros k c Hk. unfold w4. pose proof (cell_lt _ _ _ Hk).
    rewrite !cell_upd_neq by lia. apply cell_push, Hk. }
  assert (Q4 : quiet w0 w4) by (eapply quiet_trans; [exact Q2|split; [exact G4|split; reflexivity]]).
  assert (C4 : cell_at w4 (next w2) = Some (CObj [("cstat", vo); ("proclist", vp)])).
  { eapply cell_upd_eq, cell_upd_eq, cell_push_new. }
  assert (Hc4 : cell_at w4 id = Some (CList vs)) by (eapply list_grows; eassumption).
  set (w5 := upd id (CList (vs ++ [VObj (next w2)])) w4).
  assert (Q5 : quiet w0 w5) by (eapply quiet_upd; [exact Q4|exact Hc4|exact Hid|discriminate]).
  erewrite block_next; cycle 1.
  { unfold e6, env0; cbn [app]. cbn [exec eval eval_list eval_kws]. 
    remember (call_value dec disk salvage fault float_repr globals (CN (S n))) as cv. ev.
    rewrite (hdr_CGChainer _ _ _ _ Hh2), Hct. ev. rewrite Heqcv, src_chainer. fold w3. fold w4. ev.
    rewrite (append_eq _ _ _ _ _ Hc4). ev. reflexivity. }
  fold w5. cbn [exec_block tseq].
  assert (Ho4 : is_obj w4 vo o).
  { eapply is_obj_grows; [exact G4|]. eapply is_obj_grows; [apply push_grows|exact N2]. }
  assert (Hp4 : is_obj w4 vp o2) by (eapply is_obj_grows; [exact G4|exact K2]).
  assert (Hf5 : Forall2 (is_chain w5) (vs ++ [VObj (next w2)]) (os ++ [mkChain o o2])).
  { apply Forall2_app.
    - eapply forall2_impl; [|exact Hf]. intros a b Hab. eapply is_chain_upd; [exact Hc4|].
      eapply is_chain_grows; [exact G4|]. eapply is_chain_grows; [apply push_grows|]. eapply is_chain_grows; [apply push_grows|exact Hab].
    - constructor; [|constructor]. eapply is_chain_upd; [exact Hc4|]. exists (next w2), vo, vp. auto. }
  specialize (IH (i + 1) (cs + sl) (ps + ps') e6 w5 (vs ++ [VObj (next w2)]) (os ++ [mkChain o o2])).
  unfold cstat_body in IH. cbn [nth fd_body u_get_cstat] in IH.
  assert (He6 : cenv (cs + sl) (ps + ps') e6) by (right; unfold e6; eauto 10).
  specialize (IH He6 Q5 (cell_upd_eq _ _ _ _ Hc4) Hf5).
  destruct (cstat_loop ct len dc dp count (cs + sl) (ps + ps')) as [rest|ex]; cbn [rbind].
  - destruct IH as (e' & cs' & ps'' & w' & vs' & E' & P1 & P2 & P3 & P4). exists e', cs', ps'', w', vs'.
    rewrite <- app_assoc in P4. split; [exact E'|auto].
  - exact IH.
Qed.
End CLoop.

Lemma src_get_cstat n w v h vr r : is_hdr w v h -> is_obj w vr r -> is_record (o_type r) ->
  plain_fault (w_file w) ->
  runs (fun w' x l => is_list is_chain w' x l /\ new_list w x) w
       (f_call (CN (S (S n))) U "get_cstat" [VFile; v; vr] [] w) (get_cstat dec h r (w_file w)).
Proof.
  intros Hh Hr Hrt Hpf. pose proof (hdr_in _ _ _ Hh) as Hv. set (N := S n).
  erewrite call_eq; [|reflexivity..]. unfold run_body. cbn [fd_body u_get_cstat].
  unfold get_cstat, mbind, mlift.
  destruct (getint r "ccomplen") as [k|e] eqn:Ek; cycle 1.
  { exists w. split; [|split; [apply grows_refl|split; reflexivity]].
    erewrite block_exc; cycle 1.
    { ev. rewrite (rec_getint _ w vr r "ccomplen" Hr Hrt ltac:(in_list)), Ek. ev. reflexivity. }
    cbn [finish]. now rewrite (getint_plain _ _ _ Ek). }
  pose proof (rec_unsigned r "ccomplen" k Hrt ltac:(in_list) Ek) as Hk.
  destruct (fread k (w_file w)) as [[b|e] f'] eqn:Er; cycle 1.
  { exists (set_file f' w). split; [|split; [apply set_file_grows|split; reflexivity]].
    erewrite block_exc; cycle 1.
    { ev. rewrite (rec_getint _ w vr r "ccomplen" Hr Hrt ltac:(in_list)), Ek. ev.
      rewrite read_eq, Er by exact Hk. ev. reflexivity. }
    cbn [finish]. now rewrite (read_fault _ _ _ _ Hpf Er). }
  set (w1 := set_file f' w).
  assert (G1 : grows w w1) by apply set_file_grows.
  erewrite block_next; cycle 1.
  { ev. rewrite (rec_getint _ w vr r "ccomplen" Hr Hrt ltac:(in_list)), Ek. ev.
    rewrite read_eq, Er by exact Hk. ev. reflexivity. }
  fold w1.
  unfold zlib_decompress. destruct (dec b) as [d|] eqn:Ed; cycle 1.
  { exists w1. split; [|split; [exact G1|split; reflexivity]].
    erewrite block_exc; [|ev; rewrite Ed; ev; reflexivity]. reflexivity. }
  erewrite block_next; [|ev; rewrite Ed; ev; reflexivity].
  pose proof (is_obj_grows _ _ _ _ G1 Hr) as Hr1.
  pose proof (read_plain _ _ _ _ Hpf Er) as Hpf1.
  destruct (getint r "icomplen") as [k2|e] eqn:Ek2; cycle 1.
  { exists w1. split; [|split; [exact G1|split; reflexivity]].
    erewrite block_exc; cycle 1.
    { ev. rewrite (rec_getint _ w1 vr r "icomplen" Hr1 Hrt ltac:(in_list)), Ek2. ev. reflexivity. }
    cbn [finish]. now rewrite (getint_plain _ _ _ Ek2). }
  pose proof (rec_unsigned r "icomplen" k2 Hrt ltac:(in_list) Ek2) as Hk2.
  destruct (fread k2 f') as [[b2|e] f2] eqn:Er2; cycle 1.
  { exists (set_file f2 w1). split; [|split; [exact (grows_trans _ _ _ G1 (set_file_grows _ _))|split; reflexivity]].
    erewrite block_exc; cycle 1.
    { ev. rewrite (rec_getint _ w1 vr r "icomplen" Hr1 Hrt ltac:(in_list)), Ek2. ev.
      rewrite read_eq by exact Hk2. change (w_file w1) with f'. rewrite Er2. ev. reflexivity. }
    cbn [finish]. now rewrite (read_fault _ _ _ _ Hpf1 Er2). }
  set (w2 := set_file f2 w1).
  assert (G2 : grows w w2) by exact (grows_trans _ _ _ G1 (set_file_grows _ _)).
  erewrite block_next; cycle 1.
  { ev. rewrite (rec_getint _ w1 vr r "icomplen" Hr1 Hrt ltac:(in_list)), Ek2. ev.
    rewrite read_eq by exact Hk2. change (w_file w1) with f'. rewrite Er2. ev. reflexivity. }
  fold w2.
  destruct (dec b2) as [d2|] eqn:Ed2; cycle 1.
  { exists w2. split; [|split; [exact G2|split; reflexivity]].
    erewrite block_exc; [|ev; rewrite Ed2; ev; reflexivity]. reflexivity. }
  erewrite block_next; [|ev; rewrite Ed2; ev; reflexivity].
  set (id := next w2). set (w3 := push (CList []) w2).
  assert (Q23 : quiet w2 w3) by apply quiet_push.
  assert (Q3 : grows w w3) by exact (grows_trans _ _ _ G2 (push_grows _ _)).
  erewrite block_next; cycle 1. { ev. rewrite alloc_eq. ev. reflexivity. }
  fold id. fold w3.
  erewrite block_next; [|ev; reflexivity].
  pose proof (is_hdr_grows _ _ _ _ G2 Hh) as Hh2.
  pose proof (is_hdr_grows _ _ _ _ Q3 Hh) as Hh3. pose proof (is_obj_grows _ _ _ _ Q3 Hr) as Hr3.
  destruct (getint (h_obj h) "cstatlen") as [len|e] eqn:El; cycle 1.
  { exists w3. split; [|split; [exact Q3|split; reflexivity]].
    erewrite block_exc; cycle 1.
    { ev. rewrite (hdr_getint _ w3 v h "cstatlen" Hh3 ltac:(in_list)), El. ev. reflexivity. }
    cbn [finish]. now rewrite (getint_plain _ _ _ El). }
  erewrite block_next; cycle 1.
  { ev. rewrite (hdr_getint _ w3 v h "cstatlen" Hh3 ltac:(in_list)), El. ev. reflexivity. }
  erewrite block_next; [|ev; reflexivity].
  set (e0 := [("raw_file", VFile); ("header", v); ("record", vr); ("buffer_cstats", VBytes b);
    ("decompressed_cstats", VBytes d); ("buffer_pidlist", VBytes b2); ("decompressed_pidlist", VBytes d2);
    ("cgroups", VList id); ("cstat_start", VInt 0); ("cstatlen", VInt len); ("pidlist_start", VInt 0)]).
  destruct (getint r "ncgroups") as [cnt|e] eqn:Ec; cycle 1.
  { exists w3. split; [|split; [exact Q3|split; reflexivity]].
    erewrite block_exc; cycle 1.
    { unfold e0. ev. rewrite (rec_getint _ w3 vr r "ncgroups" Hr3 Hrt ltac:(in_list)), Ec. ev. reflexivity. }
    cbn [finish]. now rewrite (getint_plain _ _ _ Ec). }
  destruct (hc_cstat (h_class h)) as [ct|] eqn:Hct.
  - pose proof (src_cstat_loop n w2 id v h d d2 len ct Hct ltac:(unfold id; lia) Hh2 vr (VBytes b) (VBytes b2)
      (Z.to_nat cnt) 0 0 0 e0 w3 [] [] (or_introl eq_refl) Q23 (cell_push_new _ _) (Forall2_nil _)) as K.
    unfold cstat_body in K. cbn [nth fd_body u_get_cstat] in K. fold N in K.
    destruct (cstat_loop ct len d d2 (Z.to_nat cnt) 0 0) as [rest|ex].
    + destruct K as (e' & cs' & ps' & w' & vs' & E' & P1 & (A & B & C) & P3 & P4). cbn [app] in P4.
      exists (VList id), w'. split; [|split; [exact (grows_trans _ _ _ G2 A)|split; [exact B|split; [exact C|]]]].
      * erewrite block_next; cycle 1.
        { unfold e0. ev. rewrite (rec_getint _ w3 vr r "ncgroups" Hr3 Hrt ltac:(in_list)), Ec. ev.
          cbn [accesses simple_accesses]. exact E'. }
        destruct P1 as [-> | (i & a1 & a2 & a3 & a4 & ->)]; (erewrite block_ret; [|cbn [app]; ev; reflexivity]); reflexivity.
      * split; [exists id, vs'; auto|]. exists id. split; [reflexivity|]. exact (next_grows _ _ G2).
    + destruct K as (e' & w' & E' & (A & B & C)).
      exists w'. split; [|split; [exact (grows_trans _ _ _ G2 A)|split; [exact B|exact C]]].
      erewrite block_exc; cycle 1.
      { unfold e0. ev. rewrite (rec_getint _ w3 vr r "ncgroups" Hr3 Hrt ltac:(in_list)), Ec. ev.
        cbn [accesses simple_accesses]. exact E'. }
      reflexivity.
  - destruct (0 <? cnt) eqn:Ecnt.
    + exists w3. split; [|split; [exact Q3|split; reflexivity]].
      assert (exists m, Z.to_nat cnt = S m) as (m & Em) by (exists (Z.to_nat (cnt - 1)); lia).
      erewrite block_exc; cycle 1.
      { unfold e0. ev. rewrite (rec_getint _ w3 vr r "ncgroups" Hr3 Hrt ltac:(in_list)), Ec. ev.
        cbn [accesses simple_accesses]. rewrite Em. cbn [range_accesses exec_for]. ev. cbn [tseq].
        erewrite block_exc; [cbn [tseq]; reflexivity|].
        ev. rewrite (hdr_CStat _ _ _ _ Hh3), Hct. cbn [ebind get_attr]. unfold attr_error. ev. reflexivity. }
      reflexivity.
    + exists (VList id), w3. split; [|split; [exact Q3|split; [reflexivity|split; [reflexivity|]]]].
      * erewrite block_next; cycle 1.
        { unfold e0. ev. rewrite (rec_getint _ w3 vr r "ncgroups" Hr3 Hrt ltac:(in_list)), Ec. ev.
          cbn [accesses simple_accesses]. replace (Z.to_nat cnt) with 0%nat by lia. reflexivity. }
        erewrite block_ret; [|ev; reflexivity]. reflexivity.
      * split; [|exists id; split; [reflexivity|exact (next_grows _ _ G2)]].
        exists id, []. split; [reflexivity|]. split; [apply cell_push_new|constructor].
Qed.
End Src.
