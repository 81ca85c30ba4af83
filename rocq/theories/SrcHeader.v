(** * The header code of the source (structs/shared.py) does what the model says *)
From Coq Require Import List ZArith Lia Bool String.
From Coq Require Import Init.Byte.
From Coq Require Import ZifyBool.
From Verif Require Import PyBase Utf8 CTypes S_shared S_1_26 Model Parsers Json Gzip Reader Messages.
From Verif Require Import Spec BaseProofs LayoutProofs RepProofs DictProofs TableProofs HeaderProofs.
From Verif Require Import PySyntax PyEval Source PyProgram PyGenerator SpecSource SrcBase.
Import ListNotations.
Local Open Scope string_scope.
Local Open Scope list_scope.
Local Open Scope Z_scope.

(** ** Names that are not header fields *)

Definition not_fields : list string :=
  ["_major_version"; "_minor_version"; "_semantic_version"; "major_version"; "minor_version";
   "semantic_version"; "Record"; "SStat"; "TStat"; "CStat"; "CGChainer"; "supported_version";
   "__class__"; "check_compatibility"; "_fields_"; "fields_limiters"].

Lemma no_field_b :
  forallb (fun c => forallb (fun a => match field_at (hc_header c) a with None => true | Some _ => false end)
                            not_fields) versions = true.
Proof. vm_compute. reflexivity. Qed.

Lemma no_field c a : In c versions -> In a not_fields -> field_at (hc_header c) a = None.
Proof.
  intros Hc Ha. pose proof no_field_b as H. rewrite forallb_forall in H. specialize (H c Hc).
  rewrite forallb_forall in H. specialize (H a Ha). now destruct (field_at (hc_header c) a).
Qed.

Lemma header_wf c : In c versions -> wf_type (hc_header c) = true /\ sizeof (hc_header c) = 480.
Proof.
  intros Hc. split; [|apply header_class_size, Hc].
  destruct (class_types_ok c (hc_header c) Hc) as [H _]; [left; reflexivity|exact H].
Qed.

Ltac in_list := cbn [In]; repeat (first [left; reflexivity | right]).

Section Hdr.
Notation GA := (get_attr globals).

Lemma hdr_field F w v h a p : is_hdr w v h -> getattr (h_obj h) a = Ok p ->
  exists v', GA F v a w = EOk v' w /\ is_val w v' p.
Proof.
  intros (id & blk & attrs & -> & Hc & Hm & Hv & Hl & Ha) H. unfold getattr, h_obj in H. cbn [o_type o_buf] in H.
  destruct (field_at (hc_header (h_class h)) a) as [[fo ft]|] eqn:E; [|discriminate H]. injection H as <-.
  destruct (header_wf _ Hv) as [Hw Hs].
  destruct (view_field_val w (hc_header (h_class h)) blk 0 (h_buf h) a fo ft Hm) as (v & Hvf & Hval);
    [lia|lia|exact Hw|exact E|].
  exists v. cbn [get_attr]. rewrite Hc, Hvf. split; [reflexivity|].
  replace (sub_bytes 0 (sizeof (hc_header (h_class h))) (h_buf h)) with (h_buf h) in Hval; [exact Hval|].
  unfold sub_bytes. rewrite zdrop_0 by lia. symmetry. apply ztake_all. lia.
Qed.

Lemma hdr_int F w v h a z : is_hdr w v h -> getint (h_obj h) a = Ok z -> GA F v a w = EOk (VInt z) w.
Proof.
  intros Ho H. unfold getint in H. destruct (getattr (h_obj h) a) as [p|e] eqn:E; [|discriminate H].
  cbn in H. destruct p; try discriminate H. injection H as ->.
  destruct (hdr_field F w v h a _ Ho E) as (v' & Hv & Hval). cbn in Hval. now subst v'.
Qed.

(** An attribute that is not a field. *)
Lemma hdr_nonfield F w id blk h attrs a :
  cell_at w id = Some (CHdr (h_class h) blk attrs) -> field_at (hc_header (h_class h)) a = None ->
  GA F (VHdr id) a w =
    if is_property a then f_call F "atoparser.structs.shared" ("HeaderMixin." ++ a) [VHdr id] [] w
    else match assoc a attrs with
         | Some x => EOk x w
         | None =>
             if String.eqb a "__class__" then EOk (VHClass (h_class h)) w
             else if String.eqb a "check_compatibility" then EOk (VBound (VHdr id) a) w
             else match hclass_attr (h_class h) a with
                  | Some x => EOk x w
                  | None => attr_error a w
                  end
         end.
Proof. intros Hc Hf. cbn [get_attr]. rewrite Hc. unfold view_field. rewrite Hf. reflexivity. Qed.

Lemma cache_assoc c b a : assoc a (cache_attrs c b) = None \/
  a = "_major_version" \/ a = "_minor_version" \/ a = "_semantic_version".
Proof.
  unfold cache_attrs. destruct (getint _ _); [|left; reflexivity]. cbn [assoc].
  destruct (String.eqb_spec a "_major_version"); [tauto|].
  destruct (String.eqb_spec a "_minor_version"); [tauto|].
  destruct (String.eqb_spec a "_semantic_version"); tauto.
Qed.

Lemma hdr_class_attr F w v h a x : is_hdr w v h -> In a not_fields -> is_property a = false ->
  a <> "_major_version" -> a <> "_minor_version" -> a <> "_semantic_version" ->
  String.eqb a "__class__" = false -> String.eqb a "check_compatibility" = false ->
  hclass_attr (h_class h) a = Some x -> GA F v a w = EOk x w.
Proof.
  intros (id & blk & attrs & -> & Hc & Hm & Hv & Hl & Ha) Hin Hp N1 N2 N3 E1 E2 Hx.
  erewrite hdr_nonfield; [|exact Hc|apply no_field; assumption]. rewrite Hp, E1, E2, Hx.
  assert (assoc a attrs = None) as ->; [|reflexivity].
  destruct Ha as [-> | ->]; [reflexivity|]. destruct (cache_assoc (h_class h) (h_buf h) a) as [H|H]; [exact H|tauto].
Qed.

Lemma hdr_Record F w v h : is_hdr w v h -> GA F v "Record" w = EOk (VCType (hc_record (h_class h))) w.
Proof. intros H. eapply hdr_class_attr; try eassumption; try discriminate; try reflexivity. in_list. Qed.
Lemma hdr_SStat F w v h : is_hdr w v h -> GA F v "SStat" w = EOk (VCType (hc_sstat (h_class h))) w.
Proof. intros H. eapply hdr_class_attr; try eassumption; try discriminate; try reflexivity. in_list. Qed.
Lemma hdr_TStat F w v h : is_hdr w v h -> GA F v "TStat" w = EOk (VCType (hc_tstat (h_class h))) w.
Proof. intros H. eapply hdr_class_attr; try eassumption; try discriminate; try reflexivity. in_list. Qed.
Lemma hdr_CStat F w v h : is_hdr w v h ->
  GA F v "CStat" w = EOk (match hc_cstat (h_class h) with Some t => VCType t | None => VNone end) w.
Proof. intros H. eapply hdr_class_attr; try eassumption; try discriminate; try reflexivity. in_list. Qed.
Lemma hdr_CGChainer F w v h : is_hdr w v h ->
  GA F v "CGChainer" w = EOk (match hc_cstat (h_class h) with Some t => VClass "CGChainer" | None => VNone end) w.
Proof. intros H. eapply hdr_class_attr; try eassumption; try discriminate; try reflexivity. in_list. Qed.

Lemma hdr_class F w v h : is_hdr w v h -> GA F v "__class__" w = EOk (VHClass (h_class h)) w.
Proof.
  intros (id & blk & attrs & -> & Hc & Hm & Hv & Hl & Ha).
  erewrite hdr_nonfield; [|exact Hc|apply no_field; [assumption|in_list]].
  destruct Ha as [-> | ->]; [reflexivity|]. unfold cache_attrs. now destruct (getint _ _).
Qed.
Lemma hdr_check F w v h : is_hdr w v h -> GA F v "check_compatibility" w = EOk (VBound v "check_compatibility") w.
Proof.
  intros (id & blk & attrs & -> & Hc & Hm & Hv & Hl & Ha).
  erewrite hdr_nonfield; [|exact Hc|apply no_field; [assumption|in_list]].
  destruct Ha as [-> | ->]; [reflexivity|]. unfold cache_attrs. now destruct (getint _ _).
Qed.

(** A length field that this version's header lacks. *)
Lemma hdr_missing F w v h a e : is_hdr w v h -> getattr (h_obj h) a = Raise e -> is_property a = false ->
  assoc a (cache_attrs (h_class h) (h_buf h)) = None ->
  String.eqb a "__class__" = false -> String.eqb a "check_compatibility" = false ->
  hclass_attr (h_class h) a = None -> GA F v a w = EErr (XB e) w.
Proof.
  intros (id & blk & attrs & -> & Hc & Hm & Hv & Hl & Ha) H Hp Hn E1 E2 Hx.
  unfold getattr, h_obj in H. cbn [o_type o_buf] in H.
  destruct (field_at (hc_header (h_class h)) a) as [[fo ft]|] eqn:E; [discriminate H|]. injection H as <-.
  erewrite hdr_nonfield; [|exact Hc|exact E]. rewrite Hp, E1, E2, Hx.
  destruct Ha as [-> | ->]; [reflexivity|]. rewrite Hn. reflexivity.
Qed.

(** ** The version properties *)

Definition quiet (w w' : world) : Prop := grows w w' /\ w_file w' = w_file w /\ w_out w' = w_out w.

Lemma quiet_refl w : quiet w w.
Proof. split; [apply grows_refl|auto]. Qed.
Lemma quiet_trans a b c : quiet a b -> quiet b c -> quiet a c.
Proof. intros (G1 & F1 & O1) (G2 & F2 & O2). split; [eapply grows_trans; eassumption|split; congruence]. Qed.

(** The header's cache is filled. *)
Definition is_full (w : world) (v : value) (h : hobj) : Prop :=
  exists id blk, v = VHdr id /\ cell_at w id = Some (CHdr (h_class h) blk (cache_attrs (h_class h) (h_buf h))).

Definition aversion (h : hobj) : Z := u16_at (h_buf h) 4.
Lemma aversion_eq h : In (h_class h) versions -> getint (h_obj h) "aversion" = Ok (aversion h).
Proof. intros Hv. destruct (class_table _ Hv) as (vs & Ht). destruct h as [c b]. exact (aversion_value vs c Ht b). Qed.

Definition vtext (h : hobj) : string := version_text (major_of_aversion (aversion h)) (minor_of_aversion (aversion h)).

Lemma vtext_nonempty h : String.eqb (vtext h) "" = false.
Proof.
  unfold vtext, version_text. destruct (str_of_int (major_of_aversion (aversion h))); reflexivity.
Qed.

Lemma cache_eq h : In (h_class h) versions -> cache_attrs (h_class h) (h_buf h) =
  [("_major_version", VInt (major_of_aversion (aversion h)));
   ("_minor_version", VInt (minor_of_aversion (aversion h)));
   ("_semantic_version", VStr (vtext h))].
Proof. intros Hv. unfold cache_attrs. destruct h as [c b]. cbn [h_class h_buf] in *. rewrite (aversion_eq (mkHdr c b) Hv). reflexivity. Qed.


End Hdr.

Section Src.
Variable dec : list byte -> option (list byte).
Variable disk : list Z -> res (list byte).
Variable salvage : list byte -> list byte.
Variable fault : list byte -> exn.
Variable float_repr : Z -> list Z.
Variable argv : env.
Notation CN := (call_n dec disk salvage fault float_repr argv globals functions).
Notation GA := (get_attr globals).
Notation EV := (eval dec disk salvage fault float_repr globals).
Notation EX := (exec dec disk salvage fault float_repr globals).
Notation RB := (run_body dec disk salvage fault float_repr globals).

Lemma append_assoc a b c : ((a ++ b) ++ c = a ++ (b ++ c))%string.
Proof. induction a as [|x a IH]; cbn; [reflexivity|now rewrite IH]. Qed.

Lemma src_semantic_version n w v h : is_hdr w v h ->
  exists w', f_call (CN (S n)) SH "HeaderMixin.semantic_version" [v] [] w = EOk (VStr (vtext h)) w' /\
             quiet w w' /\ is_full w' v h.
Proof.
  intros Hh. pose proof Hh as (id & blk & attrs & -> & Hc & Hm & Hv & Hl & Ha).
  erewrite call_eq; [|reflexivity..]. unfold run_body. cbn [fd_body ss_HeaderMixin_semantic_version].
  pose proof (no_field _ "_major_version" Hv ltac:(in_list)) as N1.
  pose proof (no_field _ "_minor_version" Hv ltac:(in_list)) as N2.
  pose proof (no_field _ "_semantic_version" Hv ltac:(in_list)) as N3.
  destruct Ha as [-> | ->].
  - set (a1 := [("_major_version", VInt (major_of_aversion (aversion h)))]).
    set (a2 := a1 ++ [("_minor_version", VInt (minor_of_aversion (aversion h)))]).
    set (w1 := upd id (CHdr (h_class h) blk a1) w).
    set (w2 := upd id (CHdr (h_class h) blk a2) w1).
    set (w3 := upd id (CHdr (h_class h) blk (cache_attrs (h_class h) (h_buf h))) w2).
    assert (Hc1 : cell_at w1 id = Some (CHdr (h_class h) blk a1)) by (eapply cell_upd_eq; eassumption).
    assert (Hc2 : cell_at w2 id = Some (CHdr (h_class h) blk a2)) by (eapply cell_upd_eq; eassumption).
    assert (Hc3 : cell_at w3 id = Some (CHdr (h_class h) blk (cache_attrs (h_class h) (h_buf h))))
      by (eapply cell_upd_eq; eassumption).
    assert (Hm1 : mem w1 blk = Some (h_buf h)) by (eapply mem_upd; [eassumption|discriminate|assumption]).
    assert (Hm3 : mem w3 blk = Some (h_buf h)).
    { eapply mem_upd; [eassumption|discriminate|]. eapply mem_upd; [eassumption|discriminate|assumption]. }
    assert (Hav1 : GA (CN n) (VHdr id) "aversion" w1 = EOk (VInt (aversion h)) w1).
    { cbn [get_attr]. rewrite Hc1.
      pose proof (hdr_int (CN n) w (VHdr id) h "aversion" _ Hh (aversion_eq h Hv)) as G. cbn [get_attr] in G.
      rewrite Hc in G. unfold view_field, read_val in *. rewrite Hm1. rewrite Hm in G.
      destruct (field_at (hc_header (h_class h)) "aversion") as [[? ?]|] eqn:E.
      - injection G as ->. reflexivity.
      - exfalso. pose proof (aversion_eq h Hv) as A. unfold getint, getattr, h_obj in A. cbn [o_type] in A.
        rewrite E in A. discriminate A. }
    exists w3. split; [|split].
    + erewrite block_next; cycle 1.
      { ev. unfold getattr_default.
        erewrite hdr_nonfield; [|exact Hc|exact N3]. cbn [is_property existsb orb String.eqb Ascii.eqb Bool.eqb assoc].
        assert (hclass_attr (h_class h) "_semantic_version" = None) as ->.
        { unfold hclass_attr, class_attr. cbn [String.eqb Ascii.eqb Bool.eqb]. now destruct (hc_header (h_class h)). }
        unfold attr_error. ev.
        erewrite block_next; cycle 1.
        { ev. rewrite (hdr_int (CN n) w (VHdr id) h "aversion" _ Hh (aversion_eq h Hv)). ev. cbn [bin_val Z.leb Z.compare]. ev. cbn [bin_val]. ev.
          unfold set_attr. rewrite Hc, N1. cbn [dict_set]. reflexivity. }
        fold (major_of_aversion (aversion h)). fold a1. fold w1.
        erewrite block_next; cycle 1.
        { ev. rewrite Hav1. ev. cbn [bin_val]. ev. unfold set_attr. rewrite Hc1, N2. reflexivity. }
        fold (minor_of_aversion (aversion h)). change (dict_set a1 "_minor_version" ?x) with a2. fold w2.
        erewrite block_next; cycle 1.
        { ev. erewrite hdr_nonfield; [|exact Hc2|exact N1]. cbn [is_property existsb orb String.eqb Ascii.eqb Bool.eqb assoc a1 a2 app].
          ev.
          erewrite hdr_nonfield; [|exact Hc2|exact N2]. cbn [is_property existsb orb String.eqb Ascii.eqb Bool.eqb assoc a1 a2 app].
          ev. unfold set_attr. rewrite Hc2, N3. reflexivity. }
        reflexivity. }
      erewrite block_ret; cycle 1.
      { ev. match goal with |- context [upd id ?x w2] => assert (Hx : upd id x w2 = w3) end.
        { unfold w3. rewrite (cache_eq h Hv). unfold vtext, version_text. rewrite <- append_assoc. reflexivity. }
        rewrite Hx. erewrite hdr_nonfield; [|exact Hc3|exact N3].
        rewrite (cache_eq h Hv).
        cbn [is_property existsb orb String.eqb Ascii.eqb Bool.eqb assoc]. ev. reflexivity. }
      reflexivity.
    + split; [|split; reflexivity]. intros k c Hk. destruct (Nat.eq_dec id k) as [<- | Hne].
      * rewrite Hc in Hk. injection Hk as <-. eexists. split; [exact Hc3|]. right.
        exists (h_class h), blk, (h_buf h). auto.
      * exists c. split; [|left; reflexivity]. unfold w3, w2, w1. rewrite !cell_upd_neq by exact Hne. exact Hk.
    + exists id, blk. split; [reflexivity|exact Hc3].
  - exists w. split; [|split; [apply quiet_refl|exists id, blk; auto]].
    erewrite block_next; cycle 1.
    { ev. unfold getattr_default. erewrite hdr_nonfield; [|exact Hc|exact N3]. rewrite (cache_eq h Hv).
      cbn [is_property existsb orb String.eqb Ascii.eqb Bool.eqb assoc]. ev. rewrite vtext_nonempty. reflexivity. }
    erewrite block_ret; cycle 1.
    { ev. erewrite hdr_nonfield; [|exact Hc|exact N3]. rewrite (cache_eq h Hv).
      cbn [is_property existsb orb String.eqb Ascii.eqb Bool.eqb assoc]. ev. reflexivity. }
    reflexivity.
Qed.

Lemma hdr_semantic n w v h : is_hdr w v h ->
  exists w', GA (CN (S n)) v "semantic_version" w = EOk (VStr (vtext h)) w' /\ quiet w w' /\ is_full w' v h.
Proof.
  intros Hh. destruct (src_semantic_version n w v h Hh) as (w' & H & Q).
  pose proof Hh as (id & blk & attrs & -> & Hc & Hm & Hv & Hl & Ha).
  exists w'. split; [|exact Q].
  erewrite hdr_nonfield; [|exact Hc|apply no_field; [assumption|in_list]]. exact H.
Qed.

Lemma full_attr F w v h a x : In (h_class h) versions -> is_full w v h ->
  assoc a (cache_attrs (h_class h) (h_buf h)) = Some x -> In a not_fields -> is_property a = false ->
  GA F v a w = EOk x w.
Proof.
  intros Hv (id & blk & -> & Hc) Hx Hn Hp.
  erewrite hdr_nonfield; [|exact Hc|apply no_field; assumption]. rewrite Hp, Hx. reflexivity.
Qed.

Lemma hdr_in w v h : is_hdr w v h -> In (h_class h) versions.
Proof. intros (id & blk & attrs & _ & _ & _ & H & _). exact H. Qed.

Lemma src_major n w v h : is_hdr w v h ->
  exists w', GA (CN (S (S n))) v "major_version" w = EOk (VInt (major_of_aversion (aversion h))) w' /\ quiet w w'.
Proof.
  intros Hh. destruct (hdr_semantic n w v h Hh) as (w' & H & Q & Fu).
  pose proof (hdr_in _ _ _ Hh) as Hv0.
  pose proof Hh as (id & blk & attrs & Ev & Hc & Hm & Hv & Hl & Ha).
  exists w'. split; [|exact Q]. subst v.
  erewrite hdr_nonfield; [|exact Hc|apply no_field; [assumption|in_list]].
  cbn [is_property existsb orb String.eqb Ascii.eqb Bool.eqb append].
  erewrite call_eq; [|reflexivity..]. unfold run_body. cbn [fd_body ss_HeaderMixin_major_version].
  erewrite block_next; cycle 1. { ev. rewrite H. ev. reflexivity. }
  erewrite block_ret; cycle 1.
  { ev. erewrite (full_attr _ w' (VHdr id) h "_major_version"); [ev; reflexivity|exact Hv0|exact Fu| |in_list|reflexivity].
    rewrite (cache_eq h Hv). reflexivity. }
  reflexivity.
Qed.

Lemma src_minor n w v h : is_hdr w v h ->
  exists w', GA (CN (S (S n))) v "minor_version" w = EOk (VInt (minor_of_aversion (aversion h))) w' /\ quiet w w'.
Proof.
  intros Hh. destruct (hdr_semantic n w v h Hh) as (w' & H & Q & Fu).
  pose proof (hdr_in _ _ _ Hh) as Hv0.
  pose proof Hh as (id & blk & attrs & Ev & Hc & Hm & Hv & Hl & Ha).
  exists w'. split; [|exact Q]. subst v.
  erewrite hdr_nonfield; [|exact Hc|apply no_field; [assumption|in_list]].
  cbn [is_property existsb orb String.eqb Ascii.eqb Bool.eqb append].
  erewrite call_eq; [|reflexivity..]. unfold run_body. cbn [fd_body ss_HeaderMixin_minor_version].
  erewrite block_next; cycle 1. { ev. rewrite H. ev. reflexivity. }
  erewrite block_ret; cycle 1.
  { ev. erewrite (full_attr _ w' (VHdr id) h "_minor_version"); [ev; reflexivity|exact Hv0|exact Fu| |in_list|reflexivity].
    rewrite (cache_eq h Hv). reflexivity. }
  reflexivity.
Qed.

(** The version test of shared.py:52, 56 and utils.py:237. *)
Lemma src_at_least n md x k e w v h : is_hdr w v h -> assoc x e = Some v ->
  exists b w', EV (CN (S (S n))) md
    (EAnd (ECmp OpGe (EAttr (EName x) "major_version") (EInt 2))
          (ECmp OpGe (EAttr (EName x) "minor_version") (EInt k))) e w = EOk (VBool b) w' /\
    version_at_least_2 h k = Ok b /\ quiet w w'.
Proof.
  intros Hh Hx. pose proof (aversion_eq h (hdr_in _ _ _ Hh)) as Hav.
  assert (Hx' : name_value globals md e x = Some v) by (unfold name_value; now rewrite Hx). clear Hx.
  destruct (src_major n w v h Hh) as (w1 & H1 & Q1).
  assert (Hh1 : is_hdr w1 v h) by (eapply is_hdr_grows; [exact (proj1 Q1)|exact Hh]).
  destruct (src_minor n w1 v h Hh1) as (w2 & H2 & Q2).
  unfold version_at_least_2, major_version, minor_version. rewrite Hav. cbn [rbind].
  destruct (2 <=? major_of_aversion (aversion h)) eqn:Em.
  - exists (k <=? minor_of_aversion (aversion h)), w2. split; [|split; [reflexivity|eapply quiet_trans; eassumption]].
    ev. rewrite Hx'. ev. rewrite H1. ev. cbn [compare_val option_map]. rewrite Em. ev. rewrite H2. ev. reflexivity.
  - exists false, w1. split; [|split; [reflexivity|exact Q1]].
    ev. rewrite Hx'. ev. rewrite H1. ev. cbn [compare_val option_map]. rewrite Em. ev. reflexivity.
Qed.

End Src.

(** ** Reading header fields *)


Definition header_ints : list string :=
  ["magic"; "aversion"; "rawheadlen"; "rawreclen"; "sstatlen"; "tstatlen"; "pstatlen"; "cstatlen";
   "hertz"; "pagesize"; "supportflags"].

Definition int_or_none (t : ctype) (a : string) : bool :=
  match field_at t a with None => true | Some (_, TInt _ _) => true | _ => false end.

Lemma header_ints_b :
  forallb (fun c => forallb (fun a =>
     int_or_none (hc_header c) a && match hclass_attr c a with None => true | Some _ => false end &&
     negb (is_property a) && negb (String.eqb a "__class__") && negb (String.eqb a "check_compatibility") &&
     negb (String.eqb a "_major_version") && negb (String.eqb a "_minor_version") &&
     negb (String.eqb a "_semantic_version")) header_ints) versions = true.
Proof. vm_compute. reflexivity. Qed.

Lemma hdr_getint F w v h a : is_hdr w v h -> In a header_ints ->
  get_attr globals F v a w = match getint (h_obj h) a with Ok z => EOk (VInt z) w | Raise e => EErr (XB e) w end.
Proof.
  intros Hh Ha. pose proof (hdr_in _ _ _ Hh) as Hv. pose proof header_ints_b as T.
  rewrite forallb_forall in T. specialize (T _ Hv). rewrite forallb_forall in T. specialize (T _ Ha).
  rewrite !andb_true_iff, !negb_true_iff in T. destruct T as (((((((T1 & T2) & T3) & T4) & T5) & T6) & T7) & T8).
  destruct (getint (h_obj h) a) as [z|e] eqn:E.
  - now apply hdr_int with h.
  - unfold int_or_none in T1.
    assert (Eg : getattr (h_obj h) a = Raise e).
    { unfold getint in E. destruct (getattr (h_obj h) a) as [p|e'] eqn:G; cbn [rbind] in E; [|congruence].
      exfalso. unfold getattr, h_obj in G. cbn [o_type o_buf] in G.
      destruct (field_at (hc_header (h_class h)) a) as [[o t]|]; [|discriminate G].
      injection G as <-. destruct t; try discriminate T1. discriminate E. }
    eapply hdr_missing; try eassumption.
    + destruct (cache_assoc (h_class h) (h_buf h) a) as [H | [-> | [-> | ->]]]; [exact H|discriminate..].
    + destruct (hclass_attr (h_class h) a); [discriminate T2|reflexivity].
Qed.

Lemma header_always_b :
  forallb (fun c => forallb (fun a => match field_at (hc_header c) a with Some (_, TInt _ _) => true | _ => false end)
     ["magic"; "rawheadlen"; "rawreclen"; "sstatlen"]) versions = true.
Proof. vm_compute. reflexivity. Qed.

Lemma hdr_always h a : In (h_class h) versions -> In a ["magic"; "rawheadlen"; "rawreclen"; "sstatlen"] ->
  exists z, getint (h_obj h) a = Ok z.
Proof.
  intros Hv Ha. pose proof header_always_b as T. rewrite forallb_forall in T. specialize (T _ Hv).
  rewrite forallb_forall in T. specialize (T _ Ha). unfold getint, getattr, h_obj. cbn [o_type o_buf].
  destruct (field_at (hc_header (h_class h)) a) as [[o t]|]; [|discriminate T].
  destruct t; try discriminate T. cbn. eauto.
Qed.

(** ** check_compatibility (shared.py:41-61) *)

Lemma list_grows w w' n l : grows w w' -> cell_at w n = Some (CList l) -> cell_at w' n = Some (CList l).
Proof.
  intros G H. destruct (G _ _ H) as (c & Hc & [-> | (hc & blk & m & E & _)]); [exact Hc|discriminate E].
Qed.
Lemma dict_grows w w' n l : grows w w' -> cell_at w n = Some (CDict l) -> cell_at w' n = Some (CDict l).
Proof.
  intros G H. destruct (G _ _ H) as (c & Hc & [-> | (hc & blk & m & E & _)]); [exact Hc|discriminate E].
Qed.
Lemma obj_grows w w' n l : grows w w' -> cell_at w n = Some (CObj l) -> cell_at w' n = Some (CObj l).
Proof.
  intros G H. destruct (G _ _ H) as (c & Hc & [-> | (hc & blk & m & E & _)]); [exact Hc|discriminate E].
Qed.

Definition tup (s : string * Z * Z) : value := VTuple [VStr (fst (fst s)); VInt (snd (fst s)); VInt (snd s)].

Lemma repr_tups k w l : Forall (fun s => plain_string (fst (fst s)) = true) l ->
  omap (repr_val (S (S k)) w) (map tup l) = Some (map repr_tuple l).
Proof.
  induction 1 as [|[[nm a] b] l Hp Hl IH]; [reflexivity|]. cbn [map omap]. rewrite IH.
  unfold tup at 1. cbn [fst snd]. cbn [repr_val omap]. cbn [fst snd] in Hp. rewrite Hp.
  cbn [join_comma repr_tuple]. rewrite <- !app_assoc. reflexivity.
Qed.
Lemma join_tups l : join_comma (map repr_tuple l) = repr_tuples l.
Proof. induction l as [|s [|s' l] IH]; [reflexivity|reflexivity|]. cbn [map join_comma repr_tuples] in *. now rewrite <- IH. Qed.

Lemma repr_list k w id : repr_val (S k) w (VList id) =
  match cell_at w id with
  | Some (CList l) => match omap (repr_val k w) l with
                      | Some ts => Some (text "[" ++ join_comma ts ++ text "]")
                      | None => None
                      end
  | _ => None
  end.
Proof. reflexivity. Qed.

Lemma repr_sizes w id l : cell_at w id = Some (CList (map tup l)) ->
  Forall (fun s => plain_string (fst (fst s)) = true) l ->
  format_val w (VList id) = Some (VText (text "[" ++ repr_tuples l ++ text "]")).
Proof.
  intros Hc Hp. unfold format_val. rewrite repr_list, Hc.
  rewrite (repr_tups 7 w l Hp), join_tups. reflexivity.
Qed.

(** The exception that the model calls [e]: built in, or raised by the code with its message. *)

Section Src.
Variable dec : list byte -> option (list byte).
Variable disk : list Z -> res (list byte).
Variable salvage : list byte -> list byte.
Variable fault : list byte -> exn.
Variable float_repr : Z -> list Z.
Variable argv : env.
Notation CN := (call_n dec disk salvage fault float_repr argv globals functions).
Notation GA := (get_attr globals).
Notation EV := (eval dec disk salvage fault float_repr globals).
Notation EX := (exec dec disk salvage fault float_repr globals).
Notation RB := (run_body dec disk salvage fault float_repr globals).

(** The test of shared.py:58. *)
Definition any_test : expr := ECmp OpNe (ESub (EName "size") (EInt 1)) (ESub (EName "size") (EInt 2)).
Lemma any_sizes n w l sizes :
  eval_any (EV (CN n) SH) any_test "size" (map (fun x => fun _ => Some x) (map tup sizes)) l w =
  EOk (VBool (existsb (fun s => negb (snd (fst s) =? snd s)) sizes)) w.
Proof.
  induction sizes as [|[[nm a] b] r IH]; [reflexivity|]. cbn [map eval_any existsb fst snd].
  unfold tup at 1. unfold any_test at 1. ev. cbn [sub_val index_list nth_error zlen fst snd Z.ltb Z.compare].
  change (Z.to_nat 1) with 1%nat. change (Z.to_nat 2) with 2%nat. cbn [nth_error]. ev.
  cbn [compare_val equal_val option_map]. ev. destruct (a =? b) eqn:E; ev; [exact IH|reflexivity].
Qed.

(** [finish]ed calls. *)
Definition quiet_unit (w : world) (r : res unit) (e : er value) : Prop :=
  match r with
  | Ok _ => exists w', e = EOk VNone w' /\ quiet w w'
  | Raise x => exists w', e = EErr (xof x) w' /\ quiet w w'
  end.

Lemma getint_plain o a e : getint o a = Raise e -> xof e = XB e.
Proof.
  unfold getint, getattr. destruct (field_at (o_type o) a) as [[? t]|]; cbn; [|now intros [= <-]].
  destruct t as [| | |[]|]; cbn; intros [= <-]; reflexivity.
Qed.

Lemma quiet_push c w : quiet w (push c w).
Proof. split; [apply push_grows|split; reflexivity]. Qed.
Lemma quiet_upd w0 w n c d : quiet w0 w -> cell_at w n = Some d -> (next w0 <= n)%nat ->
  (forall b, d <> CMem b) -> quiet w0 (upd n c w).
Proof. intros (G & Hf & Ho) Hd Hn Hm. split; [eapply upd_grows; eassumption|split; assumption]. Qed.

Lemma append_eq w id l v F : cell_at w id = Some (CList l) ->
  call_method F (VList id) "append" [v] [] w = EOk VNone (upd id (CList (l ++ [v])) w).
Proof. intros H. cbn [call_method]. rewrite H. reflexivity. Qed.

Lemma src_check_compatibility n w v h : is_hdr w v h ->
  quiet_unit w (check_compatibility h) (f_call (CN (S (S (S n)))) SH "HeaderMixin.check_compatibility" [v] [] w).
Proof.
  intros Hh. pose proof (hdr_in _ _ _ Hh) as Hv.
  destruct (hdr_always h "rawheadlen" Hv ltac:(in_list)) as (z1 & E1).
  destruct (hdr_always h "rawreclen" Hv ltac:(in_list)) as (z2 & E2).
  destruct (hdr_always h "sstatlen" Hv ltac:(in_list)) as (z3 & E3).
  set (N := S (S n)).
  erewrite call_eq; [|reflexivity..]. unfold run_body. cbn [fd_body ss_HeaderMixin_check_compatibility].
  unfold check_compatibility. rewrite E1, E2, E3. cbn [rbind].
  set (l0 := [("Header", z1, sizeof (hc_header (h_class h))); ("Record", z2, sizeof (hc_record (h_class h)));
              ("SStat", z3, sizeof (hc_sstat (h_class h)))]).
  set (id := next w). set (w1 := push (CList (map tup l0)) w).
  erewrite block_next; cycle 1.
  { ev. rewrite (hdr_getint _ w v h "rawheadlen" Hh ltac:(in_list)), E1. ev.
    rewrite (hdr_class _ w v h Hh). ev.
    rewrite (hdr_getint _ w v h "rawreclen" Hh ltac:(in_list)), E2. ev.
    rewrite (hdr_Record _ w v h Hh). ev.
    rewrite (hdr_getint _ w v h "sstatlen" Hh ltac:(in_list)), E3. ev.
    rewrite (hdr_SStat _ w v h Hh). ev. rewrite alloc_eq. ev. reflexivity. }
  change (push _ w) with w1. change (next w) with id.
  assert (Q1 : quiet w w1) by apply quiet_push.
  assert (C1 : cell_at w1 id = Some (CList (map tup l0))) by apply cell_push_new.
  set (env1 := [("self", v); ("sizes", VList id)]).
  pose proof (is_hdr_grows _ _ _ _ (proj1 Q1) Hh) as Hh1.
  destruct (src_at_least dec disk salvage fault float_repr argv n SH "self" 3 env1 w1 v h Hh1 eq_refl) as (b23 & w2 & X23 & M23 & Q12).
  rewrite M23. cbn [rbind].
  pose proof (is_hdr_grows _ _ _ _ (proj1 Q12) Hh1) as Hh2.
  pose proof (list_grows _ _ _ _ (proj1 Q12) C1) as C2.
  assert (Q2 : quiet w w2) by (eapply quiet_trans; eassumption).
  (* the statement of shared.py:52-55 *)
  set (r2 := if b23
             then let? z := getint (h_obj h) "tstatlen" in Ok (l0 ++ [("TStat", z, sizeof (hc_tstat (h_class h)))])
             else let? z := getint (h_obj h) "pstatlen" in Ok (l0 ++ [("PStat", z, sizeof (hc_tstat (h_class h)))])).
  set (st2 := SIf (EAnd _ (ECmp OpGe (EAttr (EName "self") "minor_version") (EInt 3))) _ _).
  assert (S2 : match r2 with
               | Ok l1 => EX (CN N) SH None st2 env1 w1 = TDone ONext env1 (upd id (CList (map tup l1)) w2) /\
                          Forall (fun s => plain_string (fst (fst s)) = true) l1
               | Raise e => EX (CN N) SH None st2 env1 w1 = TDone (OExc (XB e)) env1 w2 /\ xof e = XB e
               end).
  { unfold r2, st2. cbn [exec]. change (eval dec disk salvage fault float_repr globals) with EV.
    unfold N. rewrite X23. cbn [with_val truthy]. fold N.
    destruct b23.
    - destruct (getint (h_obj h) "tstatlen") as [z|e] eqn:E; cbn [rbind].
      + split; [|unfold l0; cbn [app]; repeat constructor].
        erewrite block_next; cycle 1.
        { unfold env1. ev. ev.
          rewrite (hdr_getint _ w2 v h "tstatlen" Hh2 ltac:(in_list)), E. ev.
          rewrite (hdr_TStat _ w2 v h Hh2). ev. rewrite (append_eq _ _ _ _ _ C2). ev. reflexivity. }
        cbn [exec_block]. unfold l0. cbn [map app]. reflexivity.
      + split; [|eapply getint_plain, E].
        erewrite block_exc; [reflexivity|].
        unfold env1. ev. ev.
        rewrite (hdr_getint _ w2 v h "tstatlen" Hh2 ltac:(in_list)), E. ev. reflexivity.
    - destruct (getint (h_obj h) "pstatlen") as [z|e] eqn:E; cbn [rbind].
      + split; [|unfold l0; cbn [app]; repeat constructor].
        erewrite block_next; cycle 1.
        { unfold env1. ev. ev.
          rewrite (hdr_getint _ w2 v h "pstatlen" Hh2 ltac:(in_list)), E. ev.
          rewrite (hdr_TStat _ w2 v h Hh2). ev. rewrite (append_eq _ _ _ _ _ C2). ev. reflexivity. }
        cbn [exec_block]. unfold l0. cbn [map app]. reflexivity.
      + split; [|eapply getint_plain, E].
        erewrite block_exc; [reflexivity|].
        unfold env1. ev. ev.
        rewrite (hdr_getint _ w2 v h "pstatlen" Hh2 ltac:(in_list)), E. ev. reflexivity. }
  fold r2. clearbody st2. destruct r2 as [l1|e]; cbn [rbind]; destruct S2 as [S2 P2]; cycle 1.
  { erewrite block_exc; [|exact S2]. cbn [finish quiet_unit]. exists w2. rewrite P2. auto. }
  erewrite block_next; [|exact S2]. clear S2.
  set (w3 := upd id (CList (map tup l1)) w2).
  assert (C3 : cell_at w3 id = Some (CList (map tup l1))) by (eapply cell_upd_eq; eassumption).
  assert (Q3 : quiet w w3) by (eapply quiet_upd; [exact Q2|exact C2|unfold id; lia|discriminate]).
  pose proof (is_hdr_grows _ _ _ _ (proj1 Q3) Hh) as Hh3.
  destruct (src_at_least dec disk salvage fault float_repr argv n SH "self" 11 env1 w3 v h Hh3 eq_refl) as (b211 & w4 & X211 & M211 & Q34).
  rewrite M211. cbn [rbind].
  pose proof (is_hdr_grows _ _ _ _ (proj1 Q34) Hh3) as Hh4.
  pose proof (list_grows _ _ _ _ (proj1 Q34) C3) as C4.
  assert (Q4 : quiet w w4) by (eapply quiet_trans; eassumption).
  set (r3 := if b211
             then let? z := getint (h_obj h) "cstatlen" in
                  match hc_cstat (h_class h) with
                  | Some ct => Ok (l1 ++ [("CStat", z, sizeof ct)])
                  | None => Raise TypeError
                  end
             else Ok l1).
  set (st3 := SIf (EAnd _ (ECmp OpGe (EAttr (EName "self") "minor_version") (EInt 11))) _ _).
  assert (S3 : match r3 with
               | Ok l2 => exists w5, EX (CN N) SH None st3 env1 w3 = TDone ONext env1 w5 /\
                          quiet w w5 /\ cell_at w5 id = Some (CList (map tup l2)) /\
                          Forall (fun s => plain_string (fst (fst s)) = true) l2
               | Raise e => EX (CN N) SH None st3 env1 w3 = TDone (OExc (XB e)) env1 w4 /\ xof e = XB e
               end).
  { unfold r3, st3. cbn [exec]. change (eval dec disk salvage fault float_repr globals) with EV.
    unfold N. rewrite X211. cbn [with_val truthy]. fold N.
    destruct b211.
    - destruct (getint (h_obj h) "cstatlen") as [z|e] eqn:E; cbn [rbind].
      + destruct (hc_cstat (h_class h)) as [ct|] eqn:Ec.
        * exists (upd id (CList (map tup (l1 ++ [("CStat", z, sizeof ct)]))) w4).
          split; [|split; [eapply quiet_upd; [exact Q4|exact C4|unfold id; lia|discriminate]|]].
          -- erewrite block_next; cycle 1.
             { unfold env1. ev. ev.
               rewrite (hdr_getint _ w4 v h "cstatlen" Hh4 ltac:(in_list)), E. ev.
               rewrite (hdr_CStat _ w4 v h Hh4), Ec. ev. rewrite (append_eq _ _ _ _ _ C4). ev. reflexivity. }
             cbn [exec_block]. rewrite map_app. reflexivity.
          -- split; [eapply cell_upd_eq, C4|]. apply Forall_app. split; [exact P2|repeat constructor].
        * split; [|reflexivity]. erewrite block_exc; [reflexivity|].
          unfold env1. ev. ev.
          rewrite (hdr_getint _ w4 v h "cstatlen" Hh4 ltac:(in_list)), E. ev.
          rewrite (hdr_CStat _ w4 v h Hh4), Ec. ev. reflexivity.
      + split; [|eapply getint_plain, E].
        erewrite block_exc; [reflexivity|].
        unfold env1. ev. ev.
        rewrite (hdr_getint _ w4 v h "cstatlen" Hh4 ltac:(in_list)), E. ev. reflexivity.
    - exists w4. split; [reflexivity|]. split; [exact Q4|split; [exact C4|exact P2]]. }
  fold r3. clearbody st3. destruct r3 as [l2|e]; cbn [rbind]; cycle 1.
  { destruct S3 as [S3 P3]. erewrite block_exc; [|exact S3]. cbn [finish quiet_unit]. exists w4. rewrite P3. auto. }
  destruct S3 as (w5 & S3 & Q5 & C5 & P3).
  erewrite block_next; [|exact S3]. clear S3.
  assert (A : EV (CN N) SH (ECall (EName "any") [EGenExp any_test "size" (EName "sizes")] []) env1 w5 =
              EOk (VBool (existsb (fun s => negb (snd (fst s) =? snd s)) l2)) w5).
  { unfold env1. cbn [eval]. ev. unfold iterate, accesses, simple_accesses. rewrite C5. apply any_sizes. }
  destruct (existsb (fun s => negb (snd (fst s) =? snd s)) l2) eqn:Eb.
  - exists w5. split; [|exact Q5].
    erewrite block_exc; cycle 1.
    { cbn [exec]. fold any_test. rewrite A. cbn [with_val truthy]. erewrite block_exc; [reflexivity|].
      unfold env1. ev. rewrite (repr_sizes _ _ _ C5 P3). ev. reflexivity. }
    reflexivity.
  - exists w5. split; [|exact Q5].
    erewrite block_next; cycle 1.
    { cbn [exec]. fold any_test. rewrite A. cbn [with_val truthy exec_block]. reflexivity. }
    reflexivity.
Qed.
End Src.
