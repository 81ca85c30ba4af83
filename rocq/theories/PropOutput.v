(** * C51: what the output determines *)
From Coq Require Import List ZArith Lia Bool String.
From Coq Require Import Init.Byte.
From Verif Require Import PyBase Utf8 CTypes S_shared Model Json Gzip Reader FloatRepr Inflate.
From Verif Require Import Spec SpecDict SpecLog SpecReader SpecJson SpecFloat SpecFormat SpecFormatTables SpecDocument BaseProofs LayoutProofs RepProofs DictProofs TableProofs HeaderProofs GenProofs SizedProofs ReaderProofs.
From Verif Require Import RunProofs JsonProofs LogBuild PropHeader PropStruct PropLog PropReader PropFloat PropFormat.
Import ListNotations.
Local Open Scope string_scope.
Local Open Scope list_scope.
Local Open Scope Z_scope.

(** Equal dictionaries: every value of the format that is shown (not reserved, slots below their
    counters) is in both images. *)
Theorem C51_dictionary_determines_fields vs c q t b b' : class_for vs c -> part_type c q = Some t ->
  part_size vs q = Some (zlen b) -> part_size vs q = Some (zlen b') ->
  struct_to_dict (mkObj t b) = struct_to_dict (mkObj t b') ->
  forall p ix x, json_scalar x -> (entry_is q (vs_name vs) b p ix x <-> entry_is q (vs_name vs) b' p ix x).
Proof.
  intros Hc Ht Hb Hb' E p ix x Hx.
  destruct (C51_dictionary_exact vs c q t b Hc Ht Hb) as (d & D & K).
  destruct (C51_dictionary_exact vs c q t b' Hc Ht Hb') as (d' & D' & K').
  rewrite D, D' in E. injection E as <-. rewrite <- (K p ix x Hx). apply K', Hx.
Qed.

(** Equal documents: as many samples, and each with the same values under the same paths. *)
Theorem C51_output_determines_log dec disk salvage fault path stored vs hb ss p q pretty st sc
    path' stored' vs' hb' ss' p' q' pretty' st' sc' t tree :
  disk path = Ok stored -> delivers path stored p ->
  wf_log dec vs hb ss -> log_bytes hb ss = p ++ q -> header_size <= zlen p ->
  disk path' = Ok stored' -> delivers path' stored' p' ->
  wf_log dec vs' hb' ss' -> log_bytes hb' ss' = p' ++ q' -> header_size <= zlen p' ->
  parse_file dec disk salvage fault repr32 path [] pretty st sc = Ok t ->
  parse_file dec disk salvage fault repr32 path' [] pretty' st' sc' = Ok t ->
  json_doc t = Some tree ->
  Forall2 (fun s s' => forall p ix x, json_scalar x ->
             (sample_entry_is (vs_name vs) hb s st sc p ix x <-> sample_entry_is (vs_name vs') hb' s' st' sc' p ix x))
    (at_most_default (complete (zlen p - header_size) ss)) (at_most_default (complete (zlen p' - header_size) ss')).
Proof.
  intros Hd Hdel Hw E Hp Hd' Hdel' Hw' E' Hp' P P' D.
  destruct (C49_output_determines_entries dec disk salvage fault path stored vs hb ss p q pretty st sc
    path' stored' vs' hb' ss' p' q' pretty' st' sc' t tree Hd Hdel Hw E Hp Hd' Hdel' Hw' E' Hp' P P' D) as (c & c' & js & Hcf & Hcf' & F & F').
  assert (K : forall vs hb ss c st sc k js, class_for vs c -> Forall (wf_sample dec vs) ss ->
     Forall2 (full_entry c hb st sc) (at_most_default (complete k ss)) js ->
     Forall2 (fun s j => forall p ix x, json_scalar x -> (json_path j p ix = Some x <-> sample_entry_is (vs_name vs) hb s st sc p ix x))
            (at_most_default (complete k ss)) js).
  { clear. intros vs hb ss c st sc k js Hcf Hws Fj. pose proof (class_for_table _ _ Hcf) as Hc.
    assert (Forall (wf_sample dec vs) (at_most_default (complete k ss))) as Hf by (apply firstn_wf, complete_wf, Hws).
    revert Hf. induction Fj as [|s j l js H _ IH]; intros Hf; [constructor|]. inversion Hf as [|? ? Hs Hr]; subst.
    constructor; [|auto]. apply (full_entry_is vs c); [exact Hc| |exact H].
    destruct Hs as (_ & _ & _ & _ & _ & _ & _ & _ & W). destruct (vs_cstat vs); [exact I|apply W]. }
  apply (K vs hb ss c st sc _ _ Hcf (proj2 (proj2 Hw))) in F. apply (K vs' hb' ss' c' st' sc' _ _ Hcf' (proj2 (proj2 Hw'))) in F'.
  clear -F F'. revert F'. generalize (at_most_default (complete (zlen p' - header_size) ss')). intros m F'.
  revert m F'. induction F as [|s j l js H _ IH]; intros m F'; inversion F' as [|s' j' m' js' H' F'']; subst; constructor; [|apply IH; assumption].
  intros p0 ix x Hx. rewrite <- (H p0 ix x Hx). apply H', Hx.
Qed.

(** ** A case

    For every version and number of samples there is a log whose document is JSON: floats whose
    bytes are small are finite, and only the system statistics have floats. *)
Fixpoint no_floats (t : ctype) : bool :=
  match t with
  | TFloat => false
  | TArr e _ => no_floats e
  | TStruct _ fs _ => forallb (fun f => no_floats (snd f)) fs
  | _ => true
  end.
Definition small (x : byte) : Prop := bval x < 127.

Lemma small_float b : zlen b = 4 -> Forall small b -> finite32 (u32_at b 0).
Proof.
  intros L H. destruct b as [|a [|b [|c [|d [|]]]]]; try discriminate L;
    [|exfalso; unfold zlen in L; cbn [List.length] in L; lia].
  inversion_clear H as [|? ? Ha H']. inversion_clear H' as [|? ? Hb H]. inversion_clear H as [|? ? Hc H']. inversion_clear H' as [|? ? Hd _].
  unfold finite32, u32_at, u16_at, at8. change (nth (Z.to_nat 0) [a; b; c; d] x00) with a. change (nth (Z.to_nat (0 + 1)) [a; b; c; d] x00) with b.
  change (nth (Z.to_nat (0 + 2)) [a; b; c; d] x00) with c. change (nth (Z.to_nat (0 + 2 + 1)) [a; b; c; d] x00) with d.
  unfold small in *. pose proof (bval_range a). pose proof (bval_range b). pose proof (bval_range c). pose proof (bval_range d).
  assert (bval a + 256 * bval b + 65536 * (bval c + 256 * bval d) < 127 * 16777216) by lia.
  set (u := bval a + 256 * bval b + 65536 * (bval c + 256 * bval d)) in *.
  assert (0 <= u) by (unfold u; lia). assert (u / 8388608 < 254) by (apply Z.div_lt_upper_bound; lia).
  assert (0 <= u / 8388608) by (apply Z.div_pos; lia). rewrite Z.mod_small by lia. lia.
Qed.

Lemma dict_of_finite t : wf_type t = true -> dictable t = true -> forall v b, rep (base t) v b ->
  no_floats t = true \/ Forall small b -> all_floats finite32 (dict_of (base t) v).
Proof.
  induction t as [sg sz| | |e n IH|name fs lims IH] using ctype_rect'; intros W D v b R Q; cbn [base] in *.
  - destruct R as (z & -> & _). exact I.
  - destruct R as (x & -> & L & <-). destruct Q as [Q|Q]; [discriminate Q|]. apply small_float; assumption.
  - destruct R as (c & -> & _). exact I.
  - cbn [wf_type] in W. apply andb_prop in W as [_ W].
    assert (base e = e) as B by (destruct e; reflexivity || discriminate D).
    assert (dictable e = true) as De by (destruct e; exact D || reflexivity || discriminate D).
    rewrite B in IH. eapply IH; eassumption.
  - apply rep_struct in R. destruct R as (vs & -> & R). rewrite dict_of_struct.
    pose proof (wf_struct _ _ _ W) as [_ Wf]. cbn [dictable] in D. apply andb_prop in D as [D _]. rewrite forallb_forall in D.
    apply all_floats_dict.
    assert (forall lims0 vs0 fs' ws al off b, (forall f, In f fs' -> In f fs) -> rep_fields al fs' ws off b ->
            forallb (fun f => no_floats (snd f)) fs' = true \/ Forall small b ->
            Forall (fun p => all_floats finite32 (snd p)) (dict_fields lims0 vs0 fs' ws)) as G.
    { clear R Q. intros lims0 vs0. induction fs' as [|[n ft] fs' IHf]; intros ws al off b0 Hi R' Q.
      - destruct ws; [constructor|destruct R'].
      - destruct ws as [|[n' w] ws]; [destruct R'|]. destruct R' as (_ & pad & fb & rest & -> & _ & _ & R1 & R2).
        assert (Q1 : no_floats ft = true \/ Forall small fb).
        { destruct Q as [Q|Q]; [left; cbn [forallb snd] in Q; apply andb_prop in Q; tauto|right].
          apply Forall_app in Q as [_ Q]. apply Forall_app in Q. tauto. }
        assert (Q2 : forallb (fun f => no_floats (snd f)) fs' = true \/ Forall small rest).
        { destruct Q as [Q|Q]; [left; cbn [forallb snd] in Q; apply andb_prop in Q; tauto|right].
          apply Forall_app in Q as [_ Q]. apply Forall_app in Q. tauto. }
        cbn [dict_fields]. assert (forall f, In f fs' -> In f fs) as Hi' by (intros; apply Hi; right; assumption).
        destruct (placeholder (n, ft)) eqn:P; [cbn [app]; eapply IHf; eassumption|]. cbn [app].
        constructor; [|eapply IHf; eassumption]. cbn [snd].
        assert (In (n, ft) fs) as Hf by (apply Hi; left; reflexivity).
        rewrite Forall_forall in IH. pose proof (IH _ Hf) as IHt. cbn [snd] in IHt.
        specialize (Wf _ _ Hf). specialize (D _ Hf). cbn [snd] in D. specialize (IHt Wf D).
        destruct ft as [sg sz| | |e cap|nm fs2 l2]; cbn [base] in IHt.
        + destruct w; eapply IHt; eassumption.
        + destruct w; eapply IHt; eassumption.
        + destruct w; eapply IHt; eassumption.
        + destruct (is_char e) eqn:Ec.
          * destruct e; try discriminate Ec. destruct R1 as (s & -> & _). exact I.
          * apply rep_array in R1; [|exact Ec]. destruct R1 as (l & bs & -> & Hn & -> & F2). cbn [no_floats] in *.
            assert (Forall (fun v => all_floats finite32 (dict_of e v)) l) as FK.
            { clear - IHt F2 Q1. induction F2 as [|v bv l bs Hv F2 IH]; constructor.
              - eapply IHt; [exact Hv|]. destruct Q1 as [Q1|Q1]; [auto|]. cbn [List.concat] in Q1. apply Forall_app in Q1. tauto.
              - apply IH. destruct Q1 as [Q1|Q1]; [auto|]. cbn [List.concat] in Q1. apply Forall_app in Q1. tauto. }
            assert (forall l', Forall (fun v => all_floats finite32 (dict_of e v)) l' -> all_floats finite32 (JList (map (dict_of e) l'))) as FJ.
            { intros l' Hl'. apply all_floats_list. rewrite Forall_map. exact Hl'. }
            destruct (count_for lims0 vs0 n); apply FJ; [apply Forall_ztake|]; exact FK.
        + destruct w; eapply IHt; eassumption. }
    eapply G; eauto.
Qed.

Lemma only_sstat_floats c : In c versions -> no_floats (hc_header c) = true /\ no_floats (hc_record c) = true.
Proof.
  intros H. assert (K : forallb (fun c => no_floats (hc_header c) && no_floats (hc_record c)) versions = true) by (vm_compute; reflexivity).
  rewrite forallb_forall in K. apply andb_prop, K, H.
Qed.

Lemma small_zeros n : Forall small (zeros n).
Proof. unfold zeros. apply Forall_forall. intros x H. apply repeat_spec in H. subst x. reflexivity. Qed.

Example C51_output_example vs n salvage fault : In vs spec_versions ->
  exists hb ss t tree path', wf_log zdecompress vs hb ss /\ zlen ss = Z.of_nat n /\ path' <> log_name /\
    (let disk := fun _ => Ok (log_bytes hb ss) in
     disk log_name = Ok (log_bytes hb ss) /\ delivers log_name (log_bytes hb ss) (log_bytes hb ss) /\
     delivers path' (log_bytes hb ss) (log_bytes hb ss) /\
     parse_file zdecompress disk salvage fault repr32 log_name [] true false false = Ok t /\
     parse_file zdecompress disk salvage fault repr32 path' [] true false false = Ok t /\ json_doc t = Some tree).
Proof.
  intros H. pose proof (example_log_wf vs n H) as Hw. pose proof (example_log_len vs n) as L.
  set (hb := make_header vs) in *. set (disk := fun _ : list Z => Ok (log_bytes hb (example_log vs n))).
  set (path' := [98; 46; 108; 111; 103]).
  assert (Np : ~ gz_path path') by (intros X; apply uses_gzip_spec in X; vm_compute in X; discriminate X).
  assert (zlen hb = header_size) as Lh by apply Hw.
  assert (LL : zlen (log_bytes hb (example_log vs n)) - header_size = zlen (samples_bytes (example_log vs n))) by (unfold log_bytes; rewrite zlen_app; lia).
  destruct (C49_document zdecompress disk salvage fault log_name _ vs hb (example_log vs n) (log_bytes hb (example_log vs n)) [] true false false
     eq_refl (or_intror (conj log_name_plain eq_refl)) Hw) as (c & js & t & Hcf & F & P & D).
  { rewrite app_nil_r. reflexivity. }
  { pose proof (zlen_nonneg (samples_bytes (example_log vs n))). lia. }
  rewrite LL, complete_all in F.
  assert (all_floats finite32 (JList js)) as Fin.
  { apply all_floats_list. pose proof (class_for_table _ _ Hcf) as Hc. destruct (table_class _ _ Hc) as [_ Hv].
    destruct (only_sstat_floats c Hv) as [N1 N2].
    assert (S : Forall (fun s => Forall small (ls_sstat s)) (at_most_default (example_log vs n))).
    { apply firstn_wf. apply Forall_forall. intros s Hs.
      unfold example_log in Hs. apply in_map_iff in Hs as (i & <- & _). cbn [example_sample make_sample ls_sstat].
      apply Forall_app. split; [repeat constructor; reflexivity|apply small_zeros]. }
    clear -F S N1 N2 Hv. revert S. induction F as [|s j l js Hj F IH]; intros S; constructor.
    - inversion S as [|? ? S1 _]; subst. destruct Hj as (jh & jr & js' & jts & jgs & (vh & Rh & ->) & (vr & Rr & ->) & (vs' & Rs & ->) & _ & _ & ->).
      assert (K : forall t v b, In t (class_types c) -> rep t v b -> no_floats t = true \/ Forall small b -> all_floats finite32 (dict_of t v)).
      { intros t v b Ht R Q. destruct (class_types_ok c t Hv Ht) as (W & Dt & St).
        assert (base t = t) as B by (destruct t; try discriminate St; reflexivity).
        rewrite <- B. apply (dict_of_finite t W Dt v b); [rewrite B; exact R|exact Q]. }
      apply all_floats_dict. cbn [app]. repeat apply Forall_cons; cbn [snd]; [| | |constructor].
      + eapply K; [left; reflexivity|exact Rh|left; exact N1].
      + eapply K; [right; left; reflexivity|exact Rr|left; exact N2].
      + eapply K; [right; right; left; reflexivity|exact Rs|right; exact S1].
    - apply IH. inversion S; assumption. }
  unfold document in D. destruct (json_doc t) as [tree|] eqn:J; [|contradiction].
  exists hb, (example_log vs n), t, tree, path'. split; [exact Hw|]. split; [exact L|]. split; [discriminate|].
  cbv zeta. fold disk. split; [reflexivity|]. split; [exact (or_intror (conj log_name_plain eq_refl))|].
  split; [exact (or_intror (conj Np eq_refl))|]. split; [exact P|]. split; [|exact J].
  rewrite <- P. symmetry. eapply (C39_same_output zdecompress disk salvage fault repr32 log_name path');
    [reflexivity|exact (or_intror (conj log_name_plain eq_refl))|reflexivity|exact (or_intror (conj Np eq_refl))|left; reflexivity].
Qed.
