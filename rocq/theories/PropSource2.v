(** * C58: running struct_to_dict's source has the effects that the model says

    Continues PropSource.v: the text of utils.struct_to_dict, run by the interpreter on any object
    of any layout of any version, in any memory. *)
From Coq Require Import List ZArith Lia Bool String.
From Coq Require Import Init.Byte.
From Coq Require Import ZifyBool.
From Verif Require Import PyBase Utf8 CTypes S_shared S_1_26 S_2_11 Model Parsers Json Gzip Reader Messages.
From Verif Require Import Spec SpecDict BaseProofs LayoutProofs RepProofs DictProofs TableProofs HeaderProofs.
From Verif Require Import PySyntax PyEval Source PyProgram PyGenerator SpecSource SrcBase SrcHeader SrcUtils SrcStat SrcDict.
Import ListNotations.
Local Open Scope string_scope.
Local Open Scope list_scope.
Local Open Scope Z_scope.

Section Src.
Variable dec : list byte -> option (list byte).
Variable disk : list Z -> res (list byte).
Variable salvage : list byte -> list byte.
Variable fault : list byte -> exn.
Variable float_repr : Z -> list Z.
Variable argv : env.
Notation program_with n := (call_n dec disk salvage fault float_repr argv globals functions n).
Notation call n m name args kws w := (f_call (program_with n) m name args kws w).

(** struct_to_dict(o), for an object whose type is a struct of the layout of some version: a
    record, a system or task or cgroup statistic, or a struct nested in one of these.  Never an
    exception; the dictionary is the model's, every dictionary and list in it is new. *)
Theorem C58_struct_to_dict n w v o c : is_obj w v o -> In c versions -> type_in c (o_type o) ->
  is_struct (o_type o) = true ->
  makes_json w (call (4 + n) "atoparser.utils" "struct_to_dict" [v] [] w) (struct_to_dict o).
Proof.
  intros Ho Hc Ht Hs.
  apply (src_dict_obj dec disk salvage fault float_repr argv (4 + n) w v o Ho (type_fine _ _ Hc Ht) Hs).
  unfold max_depth. lia.
Qed.

(** struct_to_dict(header): whether or not the header object has cached its version. *)
Theorem C58_header_to_dict n w v h : is_hdr w v h ->
  makes_json w (call (4 + n) "atoparser.utils" "struct_to_dict" [v] [] w) (struct_to_dict (h_obj h)).
Proof.
  intros Hh. apply (src_dict_hdr dec disk salvage fault float_repr argv (4 + n) w v h Hh). unfold max_depth. lia.
Qed.

(** struct_to_dict(cgroup), for a CGChainer with the statistics of one cgroup and the list of its
    processes. *)
Theorem C58_chainer_to_dict n w v g c ct k : is_chain w v g -> In c versions -> hc_cstat c = Some ct ->
  o_type (cg_cstat g) = ct -> o_type (cg_proclist g) = TArr sh_pid_t k ->
  makes_json w (call (5 + n) "atoparser.utils" "struct_to_dict" [v] [] w) (chainer_to_dict g).
Proof.
  intros Hg Hc Ec E1 E2.
  assert (Hi : In ct (class_types c)) by (unfold class_types; rewrite Ec; cbn [app In]; tauto).
  destruct (class_fine c ct Hc Hi) as [Hf Hs]. rewrite <- E1 in Hf, Hs.
  apply (src_dict_chain dec disk salvage fault float_repr argv (4 + n) w v g sh_pid_t k Hg Hf Hs E2 eq_refl).
  - discriminate.
  - unfold max_depth. lia.
Qed.
End Src.

(** ** Concrete cases *)

(** Any bytes of the right length as the system statistics of any version: the hypotheses of
    C58_struct_to_dict hold. *)
Example C58_example_hypotheses c b : In c versions -> zlen b = sizeof (hc_sstat c) ->
  let w := mkW (heap0 ++ [CMem b]) (plain []) [] in
  let v := VView (hc_sstat c) (List.length heap0) 0 in
  is_obj w v (mkObj (hc_sstat c) b) /\ type_in c (hc_sstat c) /\ is_struct (hc_sstat c) = true.
Proof.
  intros Hc Hl w v. assert (Hi : In (hc_sstat c) (class_types c)) by (unfold class_types; cbn [app In]; tauto).
  destruct (class_types_ok c _ Hc Hi) as (A & _ & B). split; [|split; [|exact B]].
  - exists (List.length heap0), 0, b. cbn [o_type o_buf]. split; [reflexivity|]. split; [unfold mem, w; change (mkW (heap0 ++ [CMem b]) (plain []) []) with (push (CMem b) (mkW heap0 (plain []) [])); change (List.length heap0) with (next (mkW heap0 (plain []) [])); rewrite cell_push_new; reflexivity|].
    split; [lia|]. split; [lia|]. split; [|exact A]. unfold sub_bytes. rewrite zdrop_0 by lia. symmetry. apply ztake_all. lia.
  - right. right. left. constructor.
Qed.

(** The source's text run on a frequency counter: the dictionary it makes. *)
Example C58_example_run dec disk salvage fault float_repr argv :
  let b := [x01; x00; x00; x00; x00; x00; x00; x00] ++ zeros 8 ++ [xff; xff; xff; xff; xff; xff; xff; xff] in
  let w := mkW (heap0 ++ [CMem b]) (plain []) [] in
  let v := VView a1_26_FreqCnt (List.length heap0) 0 in
  exists w', f_call (call_n dec disk salvage fault float_repr argv globals functions 4) "atoparser.utils" "struct_to_dict" [v] [] w =
    EOk (VDict (S (List.length heap0))) w' /\
  cell_at w' (S (List.length heap0)) = Some (CDict [("maxfreq", VInt 1); ("cnt", VInt 0); ("ticks", VInt (-1))]).
Proof. eexists. split; vm_compute; reflexivity. Qed.
