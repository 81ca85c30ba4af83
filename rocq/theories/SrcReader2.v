(** * parse_file of reader.py: running the source has the effects the model says

    First the entries that one sample adds to [samples]. *)
From Coq Require Import List ZArith Lia Bool String.
From Coq Require Import Init.Byte.
From Coq Require Import ZifyBool.
From Verif Require Import PyBase Utf8 CTypes S_shared S_1_26 S_2_11 Model Parsers Json Gzip Reader Messages.
From Verif Require Import Spec SpecDict BaseProofs LayoutProofs RepProofs DictProofs TableProofs HeaderProofs.
From Verif Require Import PySyntax PyEval Source PyProgram PyGenerator SpecSource SrcBase SrcHeader SrcUtils SrcStat SrcDict SrcCgroup SrcGen SrcGen2.
From Verif Require Import SpecSource2 SrcParse PropSource3 SrcReader.
Import ListNotations.
Local Open Scope string_scope.
Local Open Scope list_scope.
Local Open Scope Z_scope.

(** ** Worlds in which one list grew *)

Lemma samex_keeps k w w' l : samex k w w' -> cell_at w k = Some (CList l) -> keeps w w'.
Proof.
  intros (A & B & _) Hk n c Hn. pose proof (cell_lt _ _ _ Hn) as L.
  assert (K : n <> k -> cell_at w' n = Some c). { intros Hne. rewrite B by assumption. exact Hn. }
  destruct c; try (unfold next in *; lia); (exists (match cell_at w n with Some c => c | None => CList [] end)); rewrite Hn;
    (split; [apply K; intros ->; congruence|left; reflexivity]).
Qed.

Lemma samex_grows k w0 w w' l : grows w0 w -> samex k w w' -> cell_at w k = Some (CList l) -> (next w0 <= k)%nat -> grows w0 w'.
Proof.
  intros G S Hk L n c Hn. destruct (G n c Hn) as (c' & Hc' & Ok).
  exists c'. pose proof (cell_lt _ _ _ Hn) as Ln. split; [eapply samex_cell; [exact S|exact Hc'|lia]|].
  destruct Ok as [Ok|(hc & blk & m & E1 & E2 & E3)]; [left; exact Ok|]. right. exists hc, blk, m. split; [exact E1|]. split; [|exact E3].
  eapply samex_mem; [exact S|exact E2|]. intros ->. apply mem_cell in E2. congruence.
Qed.

Lemma samex_refl k w : samex k w w.
Proof. apply same_samex, same_refl. Qed.

Lemma loaded_next w : loaded w -> (6 <= next w)%nat.
Proof. intros H. specialize (H 5%nat _ eq_refl). apply cell_lt in H. lia. Qed.

Lemma loaded_samex k w w' : samex k w w' -> loaded w -> (6 <= k)%nat -> loaded w'.
Proof.
  intros S L K n c Hn. eapply samex_cell; [exact S|exact (L n c Hn)|].
  assert (n < 6)%nat; [|lia]. change 6%nat with (List.length heap0). apply nth_error_Some. rewrite Hn. discriminate.
Qed.

Lemma list_samex k w w' v ts l : samex k w w' -> cell_at w k = Some (CList l) -> v <> VList k -> is_list is_obj w v ts -> is_list is_obj w' v ts.
Proof.
  intros S Hk Hv (id & vs & -> & Hc & Ho). exists id, vs. split; [reflexivity|]. split; [eapply samex_cell; [exact S|exact Hc|congruence]|].
  eapply forall2_impl; [|exact Ho]. cbv beta. intros x o. eapply keeps_obj, samex_keeps; eassumption.
Qed.

(** The JSON values added to the list [sid] between [w] and [w']. *)
Definition added (sid : nat) (w w' : world) (es : list json) : Prop :=
  samex sid w w' /\
  forall vs, cell_at w sid = Some (CList vs) ->
    exists vs', cell_at w' sid = Some (CList (vs ++ vs')) /\
      Forall2 (fun j v => json_val j w' (next w) (next w') v) es vs' /\
      Forall (fun j => (jdepth j <= 20)%nat) es.

Lemma added_nil sid w : added sid w w [].
Proof. split; [apply samex_refl|]. intros vs H. exists []. rewrite app_nil_r. auto. Qed.

Lemma added_app sid w w1 w2 a b : (sid < next w)%nat -> added sid w w1 a -> added sid w1 w2 b -> added sid w w2 (a ++ b).
Proof.
  intros L (S1 & A1) (S2 & A2). split; [eapply samex_trans; eassumption|]. intros vs Hc.
  destruct (A1 vs Hc) as (va & C1 & F1 & D1). destruct (A2 _ C1) as (vb & C2 & F2 & D2).
  pose proof (proj1 S1) as N1. pose proof (proj1 S2) as N2.
  exists (va ++ vb). split; [rewrite app_assoc; exact C2|]. split; [|apply Forall_app; auto].
  apply Forall2_app.
  - eapply forall2_impl; [|exact F1]. cbv beta. intros j v Hj.
    eapply jin_wide; [apply le_n|exact N2|]. eapply jin_samex; [exact S2|apply le_n|left; lia|exact Hj].
  - eapply forall2_impl; [|exact F2]. cbv beta. intros j v. apply jin_wide; lia.
Qed.

(** Making a value and appending it. *)
Lemma added_one sid w w' j v vs : (sid < next w)%nat -> same w w' -> json_val j w' (next w) (next w') v -> (jdepth j <= 20)%nat ->
  cell_at w' sid = Some (CList vs) -> added sid w (upd sid (CList (vs ++ [v])) w') [j].
Proof.
  intros L S Hj D Hc.
  assert (S' : samex sid w (upd sid (CList (vs ++ [v])) w')).
  { eapply samex_trans; [apply same_samex, S|apply samex_upd]. }
  split; [exact S'|]. intros vs0 Hc0. pose proof (same_cell _ _ _ _ S Hc0) as E. assert (vs0 = vs) by congruence. subst vs0.
  exists [v]. split; [eapply cell_upd_eq, Hc|]. split; [|constructor; [exact D|constructor]].
  constructor; [|constructor]. rewrite next_upd.
  eapply jin_samex; [apply samex_upd|apply le_n|left; exact L|exact Hj].
Qed.

(** ** The parsers by the names of the formats *)

Lemma assoc_keyed {A B} (f : string -> B) k (d : list (string * A)) :
  assoc k (map (fun p => (fst p, f (fst p))) d) = match assoc k d with Some _ => Some (f k) | None => None end.
Proof.
  induction d as [|[k' a] d IH]; cbn [map assoc fst]; [reflexivity|].
  destruct (String.eqb_spec k k') as [->|Hne]; [reflexivity|exact IH].
Qed.

Lemma parsers_known : Forall (fun p => In ("parse_" ++ fst p, snd p) parser_functions)%string parsers_1_26.
Proof. 
  let x := eval cbv [parsers_1_26 PARSEABLES fold_left assoc parser_table dict_set String.eqb Ascii.eqb Bool.eqb] in parsers_1_26 in
    change parsers_1_26 with x.
  repeat (apply Forall_cons; [unfold parser_functions; cbn [In fst snd]; repeat (first [left; reflexivity | right])|]). apply Forall_nil.
Qed.

Lemma assoc_in {A} k (d : list (string * A)) x : assoc k d = Some x -> In (k, x) d.
Proof.
  induction d as [|[k' a] d IH]; cbn [assoc]; [discriminate|]. destruct (String.eqb_spec k k') as [->|Hne].
  - intros E. injection E as <-. left. reflexivity.
  - intros E. right. auto.
Qed.

Lemma parser_known p f : assoc p parsers_1_26 = Some f -> In ("parse_" ++ p, f)%string parser_functions.
Proof. intros H. apply assoc_in in H. pose proof parsers_known as K. rewrite Forall_forall in K. exact (K _ H). Qed.

(** ** Pieces of the source (reader.py:62-112) *)

Definition with_body : list stmt := match nth 2 (fd_body r_parse_file) SPass with SWith _ _ b => b | _ => [] end.
Definition else_body : list stmt := match nth 1 with_body SPass with SIf _ _ b => b | _ => [] end.
Definition sample_body : list stmt := match nth 1 else_body SPass with SFor _ _ b => b | _ => [] end.
Definition rows_part : list stmt := match nth 0 sample_body SPass with SIf _ a _ => a | _ => [] end.
Definition full_part : list stmt := match nth 0 sample_body SPass with SIf _ _ b => b | _ => [] end.
Definition parseable_body : list stmt := match nth 0 rows_part SPass with SFor _ _ b => b | _ => [] end.
Definition row_body : list stmt := match nth 0 parseable_body SPass with SFor _ _ b => b | _ => [] end.

(** The local variables inside the loop. *)
Record renv (sid : nat) (hv pv : value) (pp st sc : bool) (l : env) : Prop := mkRenv {
  re_samples : assoc "samples" l = Some (VList sid);
  re_header : assoc "header" l = Some hv;
  re_parsers : assoc "parsers" l = Some (VDict 4);
  re_parseables : assoc "parseables" l = Some pv;
  re_pretty : assoc "pretty_print" l = Some (VBool pp);
  re_tstats : assoc "show_tstats" l = Some (VBool st);
  re_cstats : assoc "show_cstats" l = Some (VBool sc);
  re_atoparser : assoc "atoparser" l = None;
  re_json : assoc "json" l = None;
  re_print : assoc "print" l = None }.

Lemma renv_set sid hv pv pp st sc l y v : renv sid hv pv pp st sc l ->
  existsb (String.eqb y) ["record"; "sstat"; "tstats"; "cgroups"; "parseable"; "sample"; "converted"] = true ->
  renv sid hv pv pp st sc (dict_set l y v).
Proof.
  intros H Hy. cbn [existsb] in Hy. destruct H.
  repeat (apply orb_prop in Hy as [Hy|Hy]); try discriminate Hy; apply String.eqb_eq in Hy; subst y;
    constructor; rewrite assoc_set; assumption.
Qed.

(** Only the variables [xs] may have changed. *)
Definition others (xs : list string) (l l' : env) : Prop := forall x, existsb (String.eqb x) xs = false -> assoc x l' = assoc x l.
Lemma others_refl xs l : others xs l l.
Proof. intros x _. reflexivity. Qed.
Lemma others_trans xs a b c : others xs a b -> others xs b c -> others xs a c.
Proof. intros A B x H. rewrite B, A by exact H. reflexivity. Qed.
Lemma others_set xs l y v : existsb (String.eqb y) xs = true -> others xs l (dict_set l y v).
Proof. intros H x Hx. rewrite assoc_set. destruct (String.eqb_spec x y) as [->|]; [congruence|reflexivity]. Qed.
Lemma others_wide xs ys l l' : forallb (fun x => existsb (String.eqb x) ys) xs = true -> others xs l l' -> others ys l l'.
Proof.
  intros H O x Hx. apply O. destruct (existsb (String.eqb x) xs) eqn:E; [|reflexivity].
  apply existsb_exists in E as (y & Hy & Ey). apply String.eqb_eq in Ey. subst y.
  rewrite forallb_forall in H. rewrite (H _ Hy) in Hx. discriminate Hx.
Qed.
Lemma renv_others sid hv pv pp st sc l l' : others ["record"; "sstat"; "tstats"; "cgroups"; "parseable"; "sample"; "converted"] l l' ->
  renv sid hv pv pp st sc l -> renv sid hv pv pp st sc l'.
Proof. intros O []. constructor; rewrite O by reflexivity; assumption. Qed.

Section Src.
Variable dec : list byte -> option (list byte).
Variable disk : list Z -> res (list byte).
Variable salvage : list byte -> list byte.
Variable fault : list byte -> exn.
Variable float_repr : Z -> list Z.
Variable argv : env.
Variable n : nat.
Notation CN := (call_n dec disk salvage fault float_repr argv globals functions).
Notation F := (CN (S (S (S (S (S n)))))).
Notation EV := (eval dec disk salvage fault float_repr globals F RD).
Notation EX := (exec dec disk salvage fault float_repr globals F RD None).
Notation ASSIGN := (assign dec disk salvage fault float_repr globals F RD).
Notation EFOR := (exec_for dec disk salvage fault float_repr globals F RD).

Variable sid : nat.
Variables hv pv : value.
Variables pp st sc : bool.
Notation RENV := (renv sid hv pv pp st sc).

(** The body of a [for] loop over a generator. *)
Definition gbody (t : target) (b : list stmt) (v : value) (l : env) (w : world) : tree :=
  tseq (ASSIGN t v l w) (fun o l w => match o with ONext => exec_block EX b l w | _ => TDone o l w end).

Lemma for_gen t it b l w m name gl w' : EV it l w = EOk (VGen m name gl) w' ->
  EX (SFor t it b) l w = tfor (f_gen F m name gl w') (gbody t b) l.
Proof. intros H. cbn [exec]. rewrite H. reflexivity. Qed.
Lemma for_err t it b l w x w' : EV it l w = EErr x w' -> EX (SFor t it b) l w = TDone (OExc x) l w'.
Proof. intros H. cbn [exec]. rewrite H. reflexivity. Qed.

Definition row_iter : expr := match nth 0 parseable_body SPass with SFor _ i _ => i | _ => ENone end.
Lemma parseable_body_eq : parseable_body = [SFor (TgName "sample") row_iter row_body].
Proof. reflexivity. Qed.

Definition row_entry (p : string) (m : row) : json := JDict (dict_set m "parseable" (JStr (text p))).

Lemma rows_loop p oe : forall rows w t l vs, tgives rows oe w t -> cell_at w sid = Some (CList vs) -> RENV l ->
  assoc "parseable" l = Some (VStr p) ->
  exists l' w', tfor t (gbody (TgName "sample") row_body) l =
      TDone (match oe with None => ONext | Some y => OExc (xof y) end) l' w' /\
    others ["sample"] l l' /\ added sid w w' (map (row_entry p) rows).
Proof.
  induction rows as [|m rows IH]; intros w t l vs T Hs Hl Hp; cbn [tgives] in T.
  - destruct T as (l0 & ->). exists l, w. split; [destruct oe; reflexivity|]. split; [apply others_refl|apply added_nil].
  - destruct T as (d & k & -> & Hd & _ & Hk). cbn [tfor].
    set (w1 := push (CDict d) w) in *. set (id := next w).
    assert (Lsid : (sid < id)%nat) by (eapply cell_lt, Hs).
    assert (C1 : cell_at w1 id = Some (CDict d)) by apply cell_push_new.
    assert (Cs1 : cell_at w1 sid = Some (CList vs)) by (apply cell_push, Hs).
    set (d' := dict_set d "parseable" (VStr p)). set (w2 := upd id (CDict d') w1).
    assert (C2 : cell_at w2 id = Some (CDict d')) by (eapply cell_upd_eq, C1).
    assert (Cs2 : cell_at w2 sid = Some (CList vs)) by (unfold w2; rewrite cell_upd_neq by lia; exact Cs1).
    set (w3 := upd sid (CList (vs ++ [VDict id])) w2).
    assert (E : gbody (TgName "sample") row_body (VDict id) l w1 = TDone ONext (dict_set l "sample" (VDict id)) w3).
    { unfold gbody. cbn [assign tseq row_body parseable_body rows_part sample_body else_body with_body nth fd_body r_parse_file].
      pose proof (re_samples _ _ _ _ _ _ _ Hl) as Hsam.
      erewrite block_next; cycle 1.
      { evx. rewrite (set_sub_dict w1 id d _ _ C1). reflexivity. }
      fold d'. fold w2.
      erewrite block_next; cycle 1.
      { evx. rewrite (append_eq w2 sid vs _ _ Cs2). reflexivity. }
      reflexivity. }
    rewrite E. cbn [tseq].
    assert (Kw : keeps w1 w3).
    { intros q c Hq. pose proof (cell_lt _ _ _ Hq) as Lq. assert (Ln : (q < next w3)%nat) by (unfold w3, w2; rewrite !next_upd; exact Lq).
      assert (Hne : forall c', cell_at w1 q = Some c' -> (forall x, c' <> CList x) -> (forall x, c' <> CDict x) -> cell_at w3 q = Some c').
      { intros c' Hc' N1 N2. assert (q <> sid) by (intros ->; apply (N1 vs); congruence). assert (q <> id) by (intros ->; apply (N2 d); congruence).
        unfold w3, w2. rewrite !cell_upd_neq by congruence. exact Hc'. }
      destruct c; try exact Ln; (eexists; split; [apply Hne; [exact Hq|discriminate|discriminate]|left; reflexivity]). }
    destruct (IH w3 (k None w3) (dict_set l "sample" (VDict id)) (vs ++ [VDict id]) (Hk w3 Kw)) as (l' & w' & E' & Hl' & A').
    + eapply cell_upd_eq, Cs2.
    + apply renv_set; [exact Hl|reflexivity].
    + rewrite assoc_set. exact Hp.
    + exists l', w'. split; [exact E'|]. split; [eapply others_trans; [apply (others_set _ _ "sample" (VDict id)); reflexivity|exact Hl']|].
      cbn [map]. apply (added_app sid w w3 w' [row_entry p m] (map (row_entry p) rows)); [exact Lsid| |exact A'].
      assert (Hd' : flat_row d' (dict_set m "parseable" (JStr (text p)))).
      { apply flat_set; [exact Hd|]. intros a b c. reflexivity. }
      apply (added_one sid w w2); [exact Lsid| | |pose proof (row_depth _ _ Hd'); unfold row_entry; lia|exact Cs2].
      * apply same_upd; [apply same_push|apply le_n].
      * eapply flat_json; [exact Hd'|exact C2|]. unfold w2, w1. rewrite next_upd, next_push. unfold id. lia.
Qed.

(** ** The formats (reader.py:97-100) *)

(** The objects of one sample, and the list they are added to. *)
Definition sample_at (h : hobj) (s : sample) (rv sv tv : value) (w : world) : Prop :=
  loaded w /\ (6 <= sid)%nat /\ (exists vs, cell_at w sid = Some (CList vs)) /\ is_hdr w hv h /\
  is_obj w rv (s_record s) /\ is_obj w sv (s_sstat s) /\ is_list is_obj w tv (s_tstats s) /\ tv <> VList sid.

Lemma sample_samex h s rv sv tv w w' es : added sid w w' es -> sample_at h s rv sv tv w -> sample_at h s rv sv tv w'.
Proof.
  intros (S & A) (H1 & H2 & (vs & H3) & H4 & H5 & H6 & H7 & H8).
  destruct (A vs H3) as (vs' & C & _). pose proof (samex_keeps _ _ _ _ S H3) as K.
  split; [eapply loaded_samex; eassumption|]. split; [exact H2|]. split; [eexists; exact C|].
  split; [eapply keeps_hdr; eassumption|]. split; [eapply keeps_obj; eassumption|]. split; [eapply keeps_obj; eassumption|].
  split; [eapply list_samex; eassumption|exact H8].
Qed.

Lemma formats_loop h s rv sv tv : typed (h_class h) s -> forall ps w l,
  sample_at h s rv sv tv w -> RENV l -> assoc "record" l = Some rv -> assoc "sstat" l = Some sv -> assoc "tstats" l = Some tv ->
  exists l' w', others ["parseable"; "sample"] l l' /\
    match parseable_rows parsers_1_26 ps h s with
    | Ok es => EFOR (TgName "parseable") (exec_block EX parseable_body) (map (fun x => fun _ => Some x) (map VStr ps)) l w =
                 TDone ONext l' w' /\ added sid w w' es
    | Raise e => EFOR (TgName "parseable") (exec_block EX parseable_body) (map (fun x => fun _ => Some x) (map VStr ps)) l w =
                 TDone (OExc (xof e)) l' w' /\ exists es, added sid w w' es
    end.
Proof.
  intros (Ty1 & Ty2 & Ty3 & _). induction ps as [|p ps IH]; intros w l Hw Hl Hr Hs Ht.
  - exists l, w. split; [apply others_refl|]. split; [reflexivity|apply added_nil].
  - cbn [map exec_for parseable_rows]. cbn [assign tseq].
    set (l1 := dict_set l "parseable" (VStr p)).
    assert (Hl1 : RENV l1) by (apply renv_set; [exact Hl|reflexivity]).
    assert (O1 : others ["parseable"; "sample"] l l1) by (apply others_set; reflexivity).
    assert (Hr1 : assoc "record" l1 = Some rv) by (rewrite O1; [exact Hr|reflexivity]).
    assert (Hs1 : assoc "sstat" l1 = Some sv) by (rewrite O1; [exact Hs|reflexivity]).
    assert (Ht1 : assoc "tstats" l1 = Some tv) by (rewrite O1; [exact Ht|reflexivity]).
    assert (Hp1 : assoc "parseable" l1 = Some (VStr p)) by (unfold l1; rewrite assoc_set; reflexivity).
    pose proof Hw as (W1 & W2 & (vs & W3) & W4 & W5 & W6 & W7 & W8).
    assert (C4 : cell_at w 4%nat = Some (CDict (map (fun q => (fst q, VFun PA ("parse_" ++ fst q)%string)) parsers_1_26))) by exact (W1 4%nat _ eq_refl).
    assert (Sub : sub_val (VDict 4) (VStr p) w = match assoc p parsers_1_26 with
        Some _ => EOk (VFun PA ("parse_" ++ p)%string) w | None => EErr (XB (KeyError p)) w end).
    { cbn [sub_val]. rewrite C4. rewrite (assoc_keyed (fun x => VFun PA ("parse_" ++ x)%string)). destruct (assoc p parsers_1_26); reflexivity. }
    destruct Hl1 as [L1 L2 L3 L4 L5 L6 L7 L8 L9 L10] eqn:EL. clear EL.
    destruct (assoc p parsers_1_26) as [f|] eqn:Ep.
    + pose proof (parser_known p f Ep) as Hin. clear C4. revert Hin Sub. generalize ("parse_" ++ p)%string. intros nm Hin Sub.
      assert (Ha : parser_args w hv rv sv tv h (s_record s) (s_sstat s) (s_tstats s)).
      { pose proof (hdr_in _ _ _ W4) as Hv. split; [exact W4|]. split; [exact W5|]. split; [exists (h_class h); auto|].
        split; [exact W6|]. split; [exists (h_class h); auto|]. split; [exact W7|].
        eapply Forall_impl; [|exact Ty3]. cbv beta. intros t Et. exists (h_class h). auto. }
      destruct (parser_gen dec disk salvage fault float_repr argv (S (S (S (S n)))) _ f w hv rv sv tv h (s_record s) (s_sstat s) (s_tstats s) Hin Ha)
        as (gl & Ec & G).
      inversion G as [name l0 rows e Ha' Ht'|k rows e|]; subst. clear G. specialize (Ht' w Ha).
      destruct (f h (s_record s) (s_sstat s) (s_tstats s)) as [rows oe]. cbn [fst snd] in Ht'.
      destruct (rows_loop p oe rows w _ l1 vs Ht' W3 Hl1 Hp1) as (l2 & w2 & E2 & O2 & A2).
      assert (Eb : exec_block EX parseable_body l1 w =
        TDone (match oe with None => ONext | Some y => OExc (xof y) end) l2 w2).
      { rewrite parseable_body_eq. cbn [exec_block]. erewrite for_gen; cycle 1.
        { cbn [row_iter parseable_body rows_part sample_body else_body with_body nth fd_body r_parse_file].
          evx. rewrite Sub. evx. cbn [Nat.add] in Ec. exact Ec. }
        rewrite E2. destruct oe; reflexivity. }
      rewrite Eb.
      assert (O2' : others ["parseable"; "sample"] l l2).
      { eapply others_trans; [exact O1|eapply others_wide; [|exact O2]; reflexivity]. }
      destruct oe as [y|]; cbn [tseq].
      * exists l2, w2. split; [exact O2'|]. split; [reflexivity|]. eexists. exact A2.
      * assert (Hw2 : sample_at h s rv sv tv w2) by (eapply sample_samex; eassumption).
        assert (Hl2 : RENV l2) by (eapply renv_others; [|exact Hl]; eapply others_wide; [|exact O2']; reflexivity).
        destruct (IH w2 l2 Hw2 Hl2) as (l3 & w3 & O3 & K).
        { rewrite O2' by reflexivity. exact Hr. } { rewrite O2' by reflexivity. exact Hs. } { rewrite O2' by reflexivity. exact Ht. }
        exists l3, w3. split; [eapply others_trans; eassumption|].
        assert (Lsid : (sid < next w)%nat) by (eapply cell_lt, W3).
        destruct (parseable_rows parsers_1_26 ps h s) as [more|e]; cbn [rbind].
        -- destruct K as (K1 & K2). split; [exact K1|]. eapply added_app; [exact Lsid|exact A2|exact K2].
        -- destruct K as (K1 & es & K2). split; [exact K1|]. eexists. eapply added_app; [exact Lsid|exact A2|exact K2].
    + exists l1, w. split; [exact O1|].
      assert (Eb : exec_block EX parseable_body l1 w = TDone (OExc (xof (KeyError p))) l1 w).
      { rewrite parseable_body_eq. cbn [exec_block]. erewrite for_err; cycle 1.
        { cbn [row_iter parseable_body rows_part sample_body else_body with_body nth fd_body r_parse_file].
          evx. rewrite Sub. reflexivity. }
        reflexivity. }
      rewrite Eb. split; [reflexivity|]. exists []. apply added_nil.
Qed.

(** ** The full conversion (reader.py:101-111) *)

(** A list comprehension of calls that each make a JSON value. *)
Lemma comp_makes {A} (conv : A -> res json) elt x e w0 vs (items : list A) :
  Forall2 (fun v a => forall w, same w0 w -> makes w (EV elt ((x, v) :: e) w) (conv a)) vs items ->
  forall w, same w0 w -> exists js ys w', rmap conv items = Ok js /\
    eval_comp EV elt x (map (fun v => fun _ => Some v) vs) e w = EOk ys w' /\ same w w' /\
    Forall2 (fun j v => json_val j w' (next w) (next w') v) js ys.
Proof.
  induction 1 as [|v a vs items H _ IH]; intros w Hw; cbn [map eval_comp rmap].
  - exists [], [], w. split; [reflexivity|]. split; [reflexivity|]. split; [apply same_refl|constructor].
  - destruct (H w Hw) as (j & y & w1 & E1 & E2 & S1 & J1). rewrite E1, E2. cbn [rbind ebind].
    destruct (IH w1 (same_trans _ _ _ Hw S1)) as (js & ys & w2 & E3 & E4 & S2 & J2). rewrite E3, E4. cbn [rbind ebind].
    exists (j :: js), (y :: ys), w2. split; [reflexivity|]. split; [reflexivity|]. split; [eapply same_trans; eassumption|].
    pose proof (same_next _ _ S1). pose proof (same_next _ _ S2). constructor.
    + eapply jin_wide; [apply le_n|eassumption|]. eapply jin_same; [exact S2|apply le_n|exact J1].
    + eapply forall2_impl; [|exact J2]. cbv beta. intros q u. apply jin_wide; lia.
Qed.

(** The entries of a dictionary [did] under construction. *)
Definition entry_away (did lo : nat) (w : world) (kj : string * json) (kv : string * value) : Prop :=
  fst kj = fst kv /\ exists a b, (lo <= a)%nat /\ (b <= next w)%nat /\ (b <= did \/ did < a)%nat /\ json_val (snd kj) w a b (snd kv).

Lemma away_samex did lo w w' d e : samex did w w' -> Forall2 (entry_away did lo w) d e -> Forall2 (entry_away did lo w') d e.
Proof.
  intros S. pose proof (proj1 S) as N. apply forall2_impl. intros kj kv (E & a & b & L1 & L2 & L3 & J). split; [exact E|]. exists a, b.
  split; [exact L1|]. split; [lia|]. split; [exact L3|]. eapply jin_samex; [exact S|exact L2|lia|exact J].
Qed.

Lemma away_set did lo w d e nm j v : Forall2 (entry_away did lo w) d e -> entry_away did lo w (nm, j) (nm, v) ->
  Forall2 (entry_away did lo w) (dict_set d nm j) (dict_set e nm v).
Proof.
  intros H (_ & Hv). induction H as [|[k1 j1] [k2 v2] d e [E K] H IH]; cbn [dict_set].
  - constructor; [split; [reflexivity|exact Hv]|constructor].
  - cbn [fst snd] in E, K. subst k2. destruct (String.eqb nm k1).
    + constructor; [split; [reflexivity|exact Hv]|exact H].
    + constructor; [split; [reflexivity|exact K]|exact IH].
Qed.

Lemma away_json did lo w d e : Forall2 (entry_away did lo w) d e -> cell_at w did = Some (CDict e) -> (lo <= did)%nat ->
  json_val (JDict d) w lo (next w) (VDict did).
Proof.
  intros H Hc L. cbn [json_val]. exists did, e. split; [reflexivity|]. split; [split; [exact L|eapply cell_lt, Hc]|]. split; [exact Hc|].
  apply all2_iff. eapply forall2_impl; [|exact H]. cbv beta. intros kj kv (E & a & b & L1 & L2 & _ & J). split; [exact E|].
  eapply jin_wide; [exact L1|exact L2|exact J].
Qed.

(** [converted[nm] = [struct_to_dict(stat) for stat in xs]] *)
Definition comp_expr (xs : string) : expr := EListComp (ECall (EAttr (EName "atoparser") "struct_to_dict") [EName "stat"] []) "stat" (EName xs).
Definition comp_stmt (flag nm xs : string) : stmt :=
  SIf (EName flag) [SAssign (TgSub (EName "converted") (EStr nm)) (comp_expr xs)] [].

Lemma comp_step {A} (conv : A -> res json) (flag : bool) fx nm xs id vs (items : list A) did lo w l d e :
  assoc fx l = Some (VBool flag) -> assoc xs l = Some (VList id) -> assoc "converted" l = Some (VDict did) -> assoc "atoparser" l = None ->
  cell_at w id = Some (CList vs) ->
  Forall2 (fun v a => forall w', same w w' -> makes w' (f_call F U "struct_to_dict" [v] [] w') (conv a)) vs items ->
  cell_at w did = Some (CDict e) -> (lo <= did)%nat -> Forall2 (entry_away did lo w) d e ->
  (forall a j, In a items -> conv a = Ok j -> (jdepth j <= 10)%nat) -> Forall (fun kj => (jdepth (snd kj) <= 11)%nat) d ->
  exists d' e' w',
    (if flag then let? js := rmap conv items in Ok (dict_set d nm (JList js)) else Ok d) = Ok d' /\
    EX (comp_stmt fx nm xs) l w = TDone ONext l w' /\ samex did w w' /\
    cell_at w' did = Some (CDict e') /\ Forall2 (entry_away did lo w') d' e' /\ Forall (fun kj => (jdepth (snd kj) <= 11)%nat) d'.
Proof.
  intros Hf Hx Hc Ha Hid Hm Hd Hlo He Hdep Hdd.
  assert (Ef : EV (EName fx) l w = EOk (VBool flag) w). { cbn [eval]. unfold name_value. rewrite Hf. reflexivity. }
  unfold comp_stmt. destruct flag.
  - destruct (comp_makes conv (ECall (EAttr (EName "atoparser") "struct_to_dict") [EName "stat"] []) "stat" l w vs items) with (w := w)
      as (js & ys & w1 & E1 & E2 & S1 & J1).
    { eapply forall2_impl; [|exact Hm]. cbv beta. intros v a K w' Hw'. specialize (K w' Hw').
      cbn [eval]. unfold name_value. cbn [assoc String.eqb Ascii.eqb Bool.eqb]. rewrite Ha. gname_one. cbn [ok_or_stuck ebind].
      rewrite mod_to_dict. cbn [ebind eval_list eval_kws ok_or_stuck call_value eval]. unfold name_value. cbn [assoc String.eqb Ascii.eqb Bool.eqb ok_or_stuck ebind].
      exact K. }
    { apply same_refl. }
    set (w2 := push (CList ys) w1). set (li := next w1).
    pose proof (same_cell _ _ _ _ S1 Hd) as Hd1. assert (Hd2 : cell_at w2 did = Some (CDict e)) by (apply cell_push, Hd1).
    set (e' := dict_set e nm (VList li)). set (w3 := upd did (CDict e') w2).
    assert (Lw : (did < next w)%nat) by (eapply cell_lt, Hd). pose proof (same_next _ _ S1) as N1.
    exists (dict_set d nm (JList js)), e', w3. rewrite E1. cbn [rbind]. split; [reflexivity|].
    split; [|split; [|split; [|split]]].
    + cbn [exec]. rewrite Ef. cbn [with_val truthy].
      cbn [exec_block]. cbn [exec].
      assert (Ec : EV (comp_expr xs) l w = EOk (VList li) w2).
      { unfold comp_expr. generalize dependent (ECall (EAttr (EName "atoparser") "struct_to_dict") [EName "stat"] []). intros elt E2'. 
        cbn [eval]. unfold name_value. rewrite Hx. cbn [ok_or_stuck ebind]. unfold iterate.
        cbn [accesses simple_accesses]. rewrite Hid. rewrite E2'. cbn [ebind]. rewrite alloc_eq. reflexivity. }
      rewrite Ec. cbn [with_val assign]. cbn [eval]. unfold name_value. rewrite Hc. cbn [ok_or_stuck with_val].
      rewrite (set_sub_dict w2 did e _ _ Hd2). reflexivity.
    + eapply samex_trans; [apply same_samex; eapply same_trans; [exact S1|apply same_push]|apply samex_upd].
    + eapply cell_upd_eq, Hd2.
    + apply away_set.
      * eapply away_samex; [|exact He]. eapply samex_trans; [apply same_samex; eapply same_trans; [exact S1|apply same_push]|apply samex_upd].
      * split; [reflexivity|]. exists (next w), (next w3). cbn [fst snd].
        assert (N3 : next w3 = S (next w1)) by (unfold w3, w2; rewrite next_upd, next_push; reflexivity).
        split; [lia|]. split; [lia|]. split; [right; lia|].
        cbn [json_val]. exists li, ys. split; [reflexivity|]. split; [unfold li; lia|].
        split; [unfold w3; rewrite cell_upd_neq by (unfold li; lia); apply cell_push_new|].
        apply all2_iff. eapply forall2_impl; [|exact J1]. cbv beta. intros j v K.
        eapply jin_wide; [apply le_n| |]; [shelve|].
        eapply jin_samex; [apply samex_upd| | |]; [shelve|shelve|].
        eapply jin_same; [apply same_push|apply le_n|exact K].
        Unshelve. all: unfold w2; rewrite ?next_push; lia.
    + apply dict_set_bound; [exact Hdd|]. apply jlist_bound. clear - E1 Hdep. revert js E1.
      induction items as [|a items IH]; intros js; cbn [rmap].
      * intros E. injection E as <-. constructor.
      * destruct (conv a) as [j|] eqn:Ea; cbn [rbind]; [|discriminate]. destruct (rmap conv items) as [r|]; cbn [rbind]; [|discriminate].
        intros E. injection E as <-. constructor; [eapply Hdep; [left; reflexivity|exact Ea]|]. apply IH; [|reflexivity].
        intros b jb Hb. apply Hdep. right. exact Hb.
  - exists d, e, w. split; [reflexivity|]. split; [|split; [apply samex_refl|split; [exact Hd|split; [exact He|exact Hdd]]]].
    cbn [exec]. rewrite Ef. reflexivity.
Qed.

Lemma full_part_eq : full_part =
  [SAssign (TgName "converted") (EDict [(EStr "header", ECall (EAttr (EName "atoparser") "struct_to_dict") [EName "header"] []);
                                        (EStr "record", ECall (EAttr (EName "atoparser") "struct_to_dict") [EName "record"] []);
                                        (EStr "sstat", ECall (EAttr (EName "atoparser") "struct_to_dict") [EName "sstat"] [])]);
   comp_stmt "show_tstats" "tstat" "tstats"; comp_stmt "show_cstats" "cgroup" "cgroups";
   SExpr (ECall (EAttr (EName "samples") "append") [EName "converted"] [])].
Proof. reflexivity. Qed.

Lemma full_runs h s rv sv tv cv w l : typed (h_class h) s -> sample_at h s rv sv tv w -> is_list is_chain w cv (s_cgroups s) -> RENV l ->
  assoc "record" l = Some rv -> assoc "sstat" l = Some sv -> assoc "tstats" l = Some tv -> assoc "cgroups" l = Some cv ->
  exists j l' w', full_sample st sc h s = Ok j /\ exec_block EX full_part l w = TDone ONext l' w' /\
    others ["converted"] l l' /\ added sid w w' [j].
Proof.
  intros (Ty1 & Ty2 & Ty3 & Ty4) (W1 & W2 & (vs & W3) & W4 & W5 & W6 & W7 & W8) Hcg Hl Hr Hs Ht Hg.
  pose proof (hdr_in _ _ _ W4) as Hv.
  assert (Fr : fine (o_type (s_record s)) /\ is_struct (o_type (s_record s)) = true).
  { rewrite Ty1. apply (class_fine (h_class h)); [exact Hv|]. unfold class_types. cbn [app In]. tauto. }
  assert (Fs : fine (o_type (s_sstat s)) /\ is_struct (o_type (s_sstat s)) = true).
  { rewrite Ty2. apply (class_fine (h_class h)); [exact Hv|]. unfold class_types. cbn [app In]. tauto. }
  assert (Fh : fine (hc_header (h_class h))). { apply (class_fine (h_class h)); [exact Hv|]. unfold class_types. cbn [app In]. tauto. }
  destruct Hl as [L1 L2 L3 L4 L5 L6 L7 L8 L9 L10].
  assert (Lsid : (sid < next w)%nat) by (eapply cell_lt, W3).
  destruct (src_dict_hdr dec disk salvage fault float_repr argv (S (S (S (S (S n))))) w hv h W4) as (jh & vh & w1 & Eh & Ch & S1 & J1);
    [unfold max_depth; lia|].
  assert (W5' : is_obj w1 rv (s_record s)) by (eapply is_obj_grows; [apply same_is_grows, S1|exact W5]).
  destruct (src_dict_obj dec disk salvage fault float_repr argv (S (S (S (S (S n))))) w1 rv _ W5' (proj1 Fr) (proj2 Fr)) as (jr & vr & w2 & Er & Cr & S2 & J2);
    [unfold max_depth; lia|].
  pose proof (same_trans _ _ _ S1 S2) as S12.
  assert (W6' : is_obj w2 sv (s_sstat s)) by (eapply is_obj_grows; [apply same_is_grows, S12|exact W6]).
  destruct (src_dict_obj dec disk salvage fault float_repr argv (S (S (S (S (S n))))) w2 sv _ W6' (proj1 Fs) (proj2 Fs)) as (js & vs3 & w3 & Es & Cs & S3 & J3);
    [unfold max_depth; lia|].
  pose proof (same_trans _ _ _ S12 S3) as S123.
  set (did := next w3). set (e0 := [("header", vh); ("record", vr); ("sstat", vs3)]).
  set (w4 := push (CDict e0) w3). set (l1 := dict_set l "converted" (VDict did)).
  assert (E1 : EX (hd SPass full_part) l w = TDone ONext l1 w4).
  { rewrite full_part_eq. cbn [hd]. change U with "atoparser.utils" in Ch, Cr, Cs. evx.
    change U with "atoparser.utils". rewrite Ch. evx. change U with "atoparser.utils". rewrite Cr. evx. change U with "atoparser.utils". rewrite Cs. evx.
    rewrite alloc_eq. reflexivity. }
  pose proof (same_trans _ _ _ S123 (same_push (CDict e0) w3)) as S4. fold w4 in S4.
  assert (C4 : cell_at w4 did = Some (CDict e0)) by apply cell_push_new.
  set (d0 := [("header", jh); ("record", jr); ("sstat", js)]).
  pose proof (same_next _ _ S1) as N1. pose proof (same_next _ _ S2) as N2. pose proof (same_next _ _ S3) as N3.
  assert (N4 : next w4 = S did) by (unfold w4; rewrite next_push; reflexivity).
  assert (A0 : Forall2 (entry_away did (next w) w4) d0 e0).
  { assert (M : forall nm j v w' w'', same w w' -> same w' w'' -> same w'' w4 -> (next w'' <= did)%nat -> json_val j w'' (next w') (next w'') v ->
      entry_away did (next w) w4 (nm, j) (nm, v)).
    { intros nm j v w' w'' Sa Sb Sc Ld J. split; [reflexivity|]. exists (next w'), (next w''). pose proof (same_next _ _ Sa). pose proof (same_next _ _ Sc).
      split; [assumption|]. split; [assumption|]. split; [left; exact Ld|]. eapply jin_same; [exact Sc|apply le_n|exact J]. }
    pose proof (same_push (CDict e0) w3) as S34. fold w4 in S34.
    constructor; [|constructor; [|constructor; [|constructor]]].
    - apply (M "header" jh vh w w1 (same_refl w) S1); [|unfold did; lia|exact J1]. eapply same_trans; [exact S2|]. eapply same_trans; eassumption.
    - apply (M "record" jr vr w1 w2 S1 S2); [|unfold did; lia|exact J2]. eapply same_trans; eassumption.
    - apply (M "sstat" js vs3 w2 w3 S12 S3 S34); [unfold did; lia|exact J3]. }
  assert (D0 : Forall (fun kj => (jdepth (snd kj) <= 11)%nat) d0).
  { constructor; [|constructor; [|constructor; [|constructor]]]; cbn [snd].
    - pose proof (obj_depth (h_obj h) jh Fh Eh). lia.
    - pose proof (obj_depth _ _ (proj1 Fr) Er). lia.
    - pose proof (obj_depth _ _ (proj1 Fs) Es). lia. }
  assert (O1 : others ["converted"] l l1) by (apply others_set; reflexivity).
  assert (Hat : forall x, existsb (String.eqb x) ["converted"] = false -> assoc x l1 = assoc x l) by exact O1.
  (* tstats *)
  destruct W7 as (tid & tvs & -> & Ct & Ho).
  assert (St : forall w' w'', same w w' -> samex did w' w'' -> same w w'').
  { intros w' w'' A B. eapply samex_same; [exact A|exact B|unfold did; lia]. }
  assert (Mt : forall w', same w w' -> Forall2 (fun v a => forall w'', same w' w'' -> makes w'' (f_call F U "struct_to_dict" [v] [] w'') (struct_to_dict a)) tvs (s_tstats s)).
  { intros w' Sw. clear - Ho Ty3 Hv Sw. revert Ty3. induction Ho as [|v o tvs os Hvo Ho IH]; intros Ty3; constructor.
    - intros w'' Sw'. destruct (class_fine (h_class h) (hc_tstat (h_class h)) Hv) as [A B]. { unfold class_types. cbn [app In]. tauto. }
      rewrite <- (Forall_inv Ty3) in A, B.
      apply src_dict_obj; [|exact A|exact B|unfold max_depth; lia].
      eapply is_obj_grows; [exact (same_is_grows _ _ (same_trans _ _ _ Sw Sw'))|exact Hvo].
    - apply IH. exact (Forall_inv_tail Ty3). }
  destruct (comp_step struct_to_dict st "show_tstats" "tstat" "tstats" tid tvs (s_tstats s) did (next w) w4 l1 d0 e0) as
    (d1 & e1 & w5 & X1 & X2 & X3 & X4 & X5 & X6).
  { rewrite Hat by reflexivity. exact L6. } { rewrite Hat by reflexivity. exact Ht. } { unfold l1. rewrite assoc_set. reflexivity. }
  { rewrite Hat by reflexivity. exact L8. } { eapply same_cell; eassumption. } { apply Mt, S4. } { exact C4. } { unfold did; lia. } { exact A0. }
  { intros a j Hin Ea. rewrite Forall_forall in Ty3. pose proof (Ty3 _ Hin) as Ta.
    destruct (class_fine (h_class h) (hc_tstat (h_class h)) Hv) as [A B]. { unfold class_types. cbn [app In]. tauto. }
    rewrite <- Ta in A. pose proof (obj_depth _ _ A Ea). lia. }
  { exact D0. }
  pose proof (St _ _ S4 X3) as S5.
  (* cgroups *)
  destruct Hcg as (cid & cvs & -> & Cc & Hc).
  assert (Mc : forall w', same w w' -> Forall2 (fun v a => forall w'', same w' w'' -> makes w'' (f_call F U "struct_to_dict" [v] [] w'') (chainer_to_dict a)) cvs (s_cgroups s)).
  { intros w' Sw. clear - Hc Ty4 Hv Sw. revert Ty4. induction Hc as [|v o cvs os Hvo Hc IH]; intros Ty4; constructor.
    - intros w'' Sw'. destruct (Forall_inv Ty4) as (ct & k & Ec & E1 & E2).
      destruct (class_fine (h_class h) ct Hv) as [A B]. { unfold class_types. rewrite Ec. cbn [app In]. tauto. }
      rewrite <- E1 in A, B.
      apply (src_dict_chain dec disk salvage fault float_repr argv (S (S (S (S n)))) w'' v o sh_pid_t k); [|exact A|exact B|exact E2|reflexivity|discriminate|unfold max_depth; lia].
      eapply is_chain_grows; [exact (same_is_grows _ _ (same_trans _ _ _ Sw Sw'))|exact Hvo].
    - apply IH. exact (Forall_inv_tail Ty4). }
  destruct (comp_step chainer_to_dict sc "show_cstats" "cgroup" "cgroups" cid cvs (s_cgroups s) did (next w) w5 l1 d1 e1) as
    (d2 & e2 & w6 & Y1 & Y2 & Y3 & Y4 & Y5 & Y6).
  { rewrite Hat by reflexivity. exact L7. } { rewrite Hat by reflexivity. exact Hg. } { unfold l1. rewrite assoc_set. reflexivity. }
  { rewrite Hat by reflexivity. exact L8. } { eapply same_cell; eassumption. } { apply Mc, S5. } { exact X4. } { unfold did; lia. } { exact X5. }
  { intros a j Hin Ea. rewrite Forall_forall in Ty4. destruct (Ty4 _ Hin) as (ct & k & Ec & E2 & _).
    destruct (class_fine (h_class h) ct Hv) as [A B]. { unfold class_types. rewrite Ec. cbn [app In]. tauto. }
    rewrite <- E2 in A. pose proof (chain_depth _ _ A Ea). lia. }
  { exact X6. }
  pose proof (St _ _ S5 Y3) as S6.
  pose proof (same_cell _ _ _ _ S6 W3) as C6.
  exists (JDict d2), l1, (upd sid (CList (vs ++ [VDict did])) w6). split; [|split; [|split; [exact O1|]]].
  - unfold full_sample. rewrite Eh, Er, Es. cbn [rbind]. fold d0. rewrite X1. cbn [rbind]. rewrite Y1. reflexivity.
  - rewrite full_part_eq in E1 |- *. cbn [hd] in E1. erewrite block_next by exact E1. erewrite block_next by exact X2. erewrite block_next by exact Y2.
    erewrite block_next; cycle 1.
    { assert (Z1 : assoc "samples" l1 = Some (VList sid)) by (rewrite Hat by reflexivity; exact L1).
      assert (Z2 : assoc "converted" l1 = Some (VDict did)) by (unfold l1; rewrite assoc_set; reflexivity).
      clearbody l1. evx. rewrite (append_eq w6 sid vs _ _ C6). reflexivity. }
    reflexivity.
  - apply added_one; [exact Lsid|exact S6| |pose proof (jdict_bound _ _ Y6); lia|exact C6].
    eapply away_json; [exact Y5|exact Y4|unfold did; lia].
Qed.
End Src.
