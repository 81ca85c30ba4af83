(** * C59: running the source of the parsers has the effects that the model says

    The sixteen generator functions of parsers/atop_1_26.py, run by the interpreter on any header,
    record, system statistics and task statistics of any versions. *)
From Coq Require Import List ZArith Lia Bool String.
From Coq Require Import Init.Byte.
From Coq Require Import ZifyBool.
From Verif Require Import PyBase Utf8 CTypes S_shared S_1_26 S_2_11 Model Parsers Json Gzip Reader Messages.
From Verif Require Import Spec SpecDict BaseProofs LayoutProofs RepProofs DictProofs TableProofs HeaderProofs.
From Verif Require Import PySyntax PyEval Source PyProgram PyGenerator SpecSource SpecSource2 SrcBase SrcHeader SrcUtils SrcStat SrcDict SrcParse.
Import ListNotations.
Local Open Scope string_scope.
Local Open Scope list_scope.
Local Open Scope Z_scope.

Section Src.
Variable dec : list byte -> option (list byte).
Variable disk : list Z -> res (list byte).
Variable salvage : list byte -> list byte.
Variable fault : list byte -> exn.
Variable float_repr : Z -> list Z.
Variable argv : env.
Notation program_with n := (call_n dec disk salvage fault float_repr argv globals functions n).
Notation call n m name args kws w := (f_call (program_with n) m name args kws w).

(** Each name is a generator function of the source with the four parameters, and runs as the model. *)
Lemma parser_source n name p : In (name, p) parser_functions ->
  exists fd, functions PA name = Some fd /\ fd_gen fd = true /\
    fd_params fd = [("header", None); ("record", None); ("sstat", None); ("tstats", None)] /\
    parses dec disk salvage fault float_repr (program_with n) fd p.
Proof.
  intros H. unfold parser_functions in H. cbn [In] in H.
  repeat (destruct H as [H|H]; [injection H as <- <-; eexists; (split; [reflexivity|split; [reflexivity|split; [reflexivity|]]]);
    first [apply src_cpu | apply src_CPL | apply src_CPU | apply src_DSK | apply src_LVM | apply src_MDD | apply src_MEM
         | apply src_NETL | apply src_NETU | apply src_PAG | apply src_PRC | apply src_PRD | apply src_PRG | apply src_PRM
         | apply src_PRN | apply src_SWP]|]).
  destruct H.
Qed.

Lemma args_keeps w w' hv rv sv tv h r s ts : keeps w w' -> is_list is_obj w' tv ts ->
  parser_args w hv rv sv tv h r s ts -> parser_args w' hv rv sv tv h r s ts.
Proof.
  intros K L (A & B & C & D & E & F & G). split; [eapply keeps_hdr; eassumption|].
  split; [eapply keeps_obj; eassumption|]. split; [exact C|]. split; [eapply keeps_obj; eassumption|].
  split; [exact E|]. split; [exact L|exact G].
Qed.

(** The states of a generator object. *)
Inductive gen_at (n : nat) (args : world -> Prop) (w : world) : pgen -> list row -> option exn -> Prop :=
| at_new name l rows e : args w ->
    (forall w', args w' -> tgives rows e w' (f_gen (program_with (S n)) PA name l w')) ->
    gen_at n args w (PNew PA name l) rows e
| at_susp k rows e : (forall w', keeps w w' -> tgives rows e w' (k None w')) ->
    (forall x w', exists l, k (Some x) w' = TDone (OExc x) l w') ->
    gen_at n args w (PSusp k) rows e
| at_fin : gen_at n args w PFin [] None.

Lemma push_only_new c w : only_new w (push c w).
Proof. exact (same_push c w). Qed.

Lemma next_gives n args w p rows e : gen_at n args w p rows e ->
  match rows with
  | r :: rs => exists d p', py_next (program_with (S n)) p w = (PYield (VDict (next w)), p', push (CDict d) w) /\ flat_row d r /\
                 gen_at n args (push (CDict d) w) p' rs e
  | [] => exists p', py_next (program_with (S n)) p w = (row_end e, p', w) /\ p' = PFin
  end.
Proof.
  intros H.
  assert (K : (p = PFin /\ rows = [] /\ e = None) \/ exists t, py_next (program_with (S n)) p w = resume t /\ tgives rows e w t).
  { destruct H as [name l rows e Ha Ht|k rows e Ht Hx|].
    - right. eexists. split; [reflexivity|]. apply Ht, Ha.
    - right. eexists. split; [reflexivity|]. apply Ht, keeps_refl.
    - left. auto. }
  destruct K as [(-> & -> & ->)|(t & E & T)].
  - exists PFin. split; reflexivity.
  - rewrite E. destruct rows as [|r rs]; cbn [tgives] in T.
    + destruct T as (l & ->). exists PFin. destruct e; split; reflexivity.
    + destruct T as (d & k & -> & Hd & Hx & Hk). exists d, (PSusp k). split; [reflexivity|]. split; [exact Hd|].
      constructor; assumption.
Qed.

Lemma row_json_new d r w : flat_row d r ->
  json_val (JDict r) (push (CDict d) w) (List.length (w_heap w)) (List.length (w_heap (push (CDict d) w))) (VDict (next w)).
Proof.
  intros H. eapply flat_json; [exact H|apply cell_push_new|]. pose proof (next_push (CDict d) w). unfold next in *. lia.
Qed.

Lemma history_holds n (args ok : world -> Prop) ops :
  (forall w w', args w -> keeps w w' -> ok w' -> args w') ->
  forall w p rows e, gen_at n args w p rows e -> row_history (program_with (S n)) ok ops w p rows e.
Proof.
  intros Hok. induction ops as [|op ops IH]; intros w p rows e G; [exact I|].
  destruct op as [|x| |w']; cbn [row_history].
  - pose proof (next_gives n args w p rows e G) as K. destruct rows as [|r rs].
    + destruct K as (p' & K & ->). rewrite K. destruct e; (split; [reflexivity|]; split; [reflexivity|]); apply IH; constructor.
    + destruct K as (d & p' & K & Hd & G'). rewrite K. exists (VDict (next w)). split; [reflexivity|].
      split; [apply push_only_new|]. split; [apply row_json_new, Hd|]. apply IH, G'.
  - destruct G as [name l rows e Ha Ht|k rows e Ht Hx|]; cbn [py_throw].
    + split; [reflexivity|]. split; [reflexivity|]. apply IH. constructor.
    + destruct (Hx (xof x) w) as (l & E). rewrite E. cbn [resume]. split; [reflexivity|]. split; [reflexivity|]. apply IH. constructor.
    + split; [reflexivity|]. split; [reflexivity|]. apply IH. constructor.
  - destruct G as [name l rows e Ha Ht|k rows e Ht Hx|]; cbn [py_close].
    + split; [reflexivity|]. split; [reflexivity|]. apply IH. constructor.
    + destruct (Hx XGenExit w) as (l & E). rewrite E. cbn [resume]. split; [reflexivity|]. split; [reflexivity|]. apply IH. constructor.
    + split; [reflexivity|]. split; [reflexivity|]. apply IH. constructor.
  - intros K Ok. apply IH. destruct G as [name l rows e Ha Ht|k rows e Ht Hx|].
    + constructor; [eapply Hok; eassumption|exact Ht].
    + constructor; [|exact Hx]. intros w'' K'. apply Ht. eapply keeps_trans; eassumption.
    + constructor.
Qed.

Lemma parser_gen n name p w hv rv sv tv h r s ts : In (name, p) parser_functions ->
  parser_args w hv rv sv tv h r s ts ->
  exists l, call (1 + n) PA name [hv; rv; sv; tv] [] w = EOk (VGen PA name l) w /\
    gen_at n (fun w => parser_args w hv rv sv tv h r s ts) w (PNew PA name l) (fst (p h r s ts)) (snd (p h r s ts)).
Proof.
  intros Hin Ha. destruct (parser_source n name p Hin) as (fd & E1 & E2 & E3 & Hp).
  exists [("header", hv); ("record", rv); ("sstat", sv); ("tstats", tv)]. split.
  - change (1 + n)%nat with (S n). cbn [call_n f_call]. 
    change (String.eqb PA "atoparser.reader" && String.eqb name "parse_args")%bool with false. rewrite E1, E3, E2. reflexivity.
  - constructor; [exact Ha|]. intros w' Ha'. cbn [call_n f_gen]. rewrite E1. apply Hp, Ha'.
Qed.

(** parse_xxx(header, record, sstat, tstats): the call itself does nothing but make a generator;
    through any history of next, throw and close, with the rest of the program acting in between (but
    leaving the list of tasks as it is), the generator yields the model's rows, each a new
    dictionary, in order, and ends as the model says. *)
Theorem C59_parsers n name p w hv rv sv tv h r s ts ops : In (name, p) parser_functions ->
  parser_args w hv rv sv tv h r s ts ->
  exists g q, call (1 + n) "atoparser.parsers.atop_1_26" name [hv; rv; sv; tv] [] w = EOk g w /\
    pgen_of g = Some q /\
    row_history (program_with (1 + n)) (fun w' => is_list is_obj w' tv ts) ops w q
      (fst (p h r s ts)) (snd (p h r s ts)).
Proof.
  intros Hin Ha. destruct (parser_gen n name p w hv rv sv tv h r s ts Hin Ha) as (l & E & G).
  eexists _, _. split; [exact E|]. split; [reflexivity|].
  apply (history_holds n (fun w => parser_args w hv rv sv tv h r s ts) (fun w' => is_list is_obj w' tv ts)); [|exact G].
  intros w1 w2 A K L. eapply args_keeps; eassumption.
Qed.

(** A [for] loop over the generator collects exactly the model's rows. *)
Theorem C59_for_loop n name p w hv rv sv tv h r s ts : In (name, p) parser_functions ->
  parser_args w hv rv sv tv h r s ts ->
  let '(rows, e) := p h r s ts in
  exists g q vs w', call (1 + n) "atoparser.parsers.atop_1_26" name [hv; rv; sv; tv] [] w = EOk g w /\
    pgen_of g = Some q /\
    py_drain (S (List.length rows)) (program_with (1 + n)) q w = (vs, Some (row_end e), w') /\
    only_new w w' /\
    all2 (fun m v => json_val (JDict m) w' (List.length (w_heap w)) (List.length (w_heap w')) v) rows vs.
Proof.
  intros Hin Ha. destruct (parser_gen n name p w hv rv sv tv h r s ts Hin Ha) as (l & E & G).
  destruct (p h r s ts) as [rows e]. cbn [fst snd] in G.
  assert (K : forall rows w q, gen_at n (fun w => parser_args w hv rv sv tv h r s ts) w q rows e ->
    exists vs w', py_drain (S (List.length rows)) (program_with (1 + n)) q w = (vs, Some (row_end e), w') /\ same w w' /\
      all2 (fun m v => json_val (JDict m) w' (next w) (next w') v) rows vs).
  { clear. induction rows as [|m rows IH]; intros w q G; pose proof (next_gives n _ w q _ e G) as K.
    - destruct K as (p' & K & ->). exists [], w. cbn [py_drain List.length]. change (1 + n)%nat with (S n). rewrite K.
      split; [destruct e; reflexivity|]. split; [apply same_refl|exact I].
    - destruct K as (d & p' & K & Hd & G'). destruct (IH _ _ G') as (vs & w' & E1 & E2 & E3).
      exists (VDict (next w) :: vs), w'. cbn [py_drain List.length]. change (1 + n)%nat with (S n) in *. rewrite K.
      cbn [py_drain] in E1. rewrite E1. split; [reflexivity|].
      split; [eapply same_trans; [apply same_push|exact E2]|]. cbn [all2]. 
      pose proof (same_next _ _ E2) as Hn. pose proof (next_push (CDict d) w) as Hn'. split.
      + apply (jin_keep (JDict m) (push (CDict d) w) w' (next w) (next (push (CDict d) w))); [|lia|exact Hn|exact (row_json_new d m w Hd)].
        intros k Hk. apply E2. lia.
      + apply all2_iff. apply all2_iff in E3. eapply forall2_impl; [|exact E3]. cbv beta. intros j v. apply jin_wide; lia. }
  destruct (K rows w _ G) as (vs & w' & E1 & E2 & E3).
  eexists _, _, vs, w'. split; [exact E|]. split; [reflexivity|]. split; [exact E1|]. split; [exact E2|exact E3].
Qed.
End Src.

(** ** Concrete cases *)

(** A memory with a header, a record, system statistics and one task of any version. *)
Definition args_world (c : hclass) (hb rb sb tb : list byte) : world :=
  mkW [CMem hb; CHdr c 0 []; CMem rb; CMem sb; CMem tb; CList [VView (hc_tstat c) 4 0]] (plain []) [].

Example C59_example_args c hb rb sb tb : In c versions -> zlen hb = 480 -> zlen rb = sizeof (hc_record c) ->
  zlen sb = sizeof (hc_sstat c) -> zlen tb = sizeof (hc_tstat c) ->
  parser_args (args_world c hb rb sb tb) (VHdr 1) (VView (hc_record c) 2 0) (VView (hc_sstat c) 3 0) (VList 5)
    (mkHdr c hb) (mkObj (hc_record c) rb) (mkObj (hc_sstat c) sb) [mkObj (hc_tstat c) tb].
Proof.
  intros Hc H1 H2 H3 H4.
  assert (O : forall k t b, cell_at (args_world c hb rb sb tb) k = Some (CMem b) -> zlen b = sizeof t -> In t (class_types c) ->
    is_obj (args_world c hb rb sb tb) (VView t k 0) (mkObj t b)).
  { intros k t b Hk Hl Ht. destruct (class_types_ok c t Hc Ht) as (A & _ & _).
    exists k, 0, b. cbn [o_type o_buf]. split; [reflexivity|]. split; [apply mem_cell, Hk|].
    split; [lia|]. split; [lia|]. split; [|exact A]. unfold sub_bytes. rewrite zdrop_0 by lia. symmetry. apply ztake_all. lia. }
  split; [|split; [|split; [|split; [|split; [|split]]]]].
  - exists 1%nat, 0%nat, []. cbn [h_class h_buf]. auto 10.
  - apply O; [reflexivity|exact H2|unfold class_types; cbn [app In]; tauto].
  - exists c. auto.
  - apply O; [reflexivity|exact H3|unfold class_types; cbn [app In]; tauto].
  - exists c. auto.
  - eexists 5%nat, _. split; [reflexivity|]. split; [reflexivity|]. constructor; [|constructor].
    apply O; [reflexivity|exact H4|unfold class_types; cbn [app In]; tauto].
  - constructor; [|constructor]. exists c. auto.
Qed.

(** The source of parse_PRC run on an all-zero task: one row, then the end. *)
Example C59_example_run dec disk salvage fault float_repr argv :
  let c := a1_26_class in let F := call_n dec disk salvage fault float_repr argv globals functions 1 in
  let w := args_world c (zeros 480) (zeros (sizeof (hc_record c))) (zeros (sizeof (hc_sstat c))) (zeros (sizeof (hc_tstat c))) in
  match f_call F "atoparser.parsers.atop_1_26" "parse_PRC" [VHdr 1; VView (hc_record c) 2 0; VView (hc_sstat c) 3 0; VList 5] [] w with
  | EOk g _ =>
      match option_map (fun q => py_drain 2 F q w) (pgen_of g) with
      | Some (vs, o, w') => vs = [VDict 6] /\ o = Some PStop /\
          match cell_at w' 6 with
          | Some (CDict d) =>
              map fst d = ["timestamp"; "interval"; "pid"; "name"; "state"; "ticks"; "user_consumption"; "system_consumption"; "nice";
                           "priority"; "priority_realtime"; "policy"; "cpu"; "sleep"] /\
              assoc "name" d = Some (VText []) /\ assoc "state" d = Some (VText [0]) /\ assoc "pid" d = Some (VInt 0)
          | _ => False
          end
      | None => False
      end
  | EErr _ _ => False
  end.
Proof. vm_compute. auto 10. Qed.
