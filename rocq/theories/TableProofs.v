(** * Facts about the shipped struct tables

    The tables are finite, so these are decided by computation and then lifted to statements
    about every version. *)
From Coq Require Import List ZArith Lia Bool String.
From Coq Require Import Init.Byte.
From Verif Require Import PyBase Utf8 CTypes S_shared S_1_26 S_2_11 S_2_12 Model Spec SpecDict
  BaseProofs LayoutProofs RepProofs DictProofs.
Import ListNotations.
Open Scope list_scope.
Open Scope Z_scope.

(** Every struct type of a class. *)
Definition class_types (c : hclass) : list ctype :=
  [hc_header c; hc_record c; hc_sstat c; hc_tstat c] ++
  match hc_cstat c with Some t => [t] | None => [] end.

Lemma all_types_ok_b :
  forallb (fun c => forallb (fun t => wf_type t && dictable t && is_struct t) (class_types c)) versions = true.
Proof. vm_compute. reflexivity. Qed.

Lemma class_types_ok c t : In c versions -> In t (class_types c) ->
  wf_type t = true /\ dictable t = true /\ is_struct t = true.
Proof.
  intros Hc Ht. pose proof all_types_ok_b as H.
  rewrite forallb_forall in H. specialize (H c Hc). rewrite forallb_forall in H. specialize (H t Ht).
  rewrite !andb_true_iff in H. tauto.
Qed.

(** The class of each version. *)
Definition table : list (vspec * hclass) := combine spec_versions versions.

Definition opt_size (c : hclass) : option Z := option_map sizeof (hc_cstat c).

Lemma table_sizes_b :
  forallb (fun p : vspec * hclass =>
    let (vs, c) := p in
    String.eqb (hc_version c) (vs_name vs) && (sizeof (hc_header c) =? header_size) &&
    (sizeof (hc_record c) =? vs_rec vs) && (sizeof (hc_sstat c) =? vs_sstat vs) &&
    (sizeof (hc_tstat c) =? vs_tstat vs) &&
    match opt_size c, vs_cstat vs with Some a, Some b => a =? b | None, None => true | _, _ => false end)
  table = true.
Proof. vm_compute. reflexivity. Qed.

Lemma table_sizes vs c : In (vs, c) table ->
  hc_version c = vs_name vs /\ sizeof (hc_header c) = header_size /\ sizeof (hc_record c) = vs_rec vs /\
  sizeof (hc_sstat c) = vs_sstat vs /\ sizeof (hc_tstat c) = vs_tstat vs /\
  match vs_cstat vs with
  | Some n => exists t, hc_cstat c = Some t /\ sizeof t = n
  | None => hc_cstat c = None
  end.
Proof.
  intros H. pose proof table_sizes_b as T. rewrite forallb_forall in T. specialize (T _ H). cbv beta iota in T.
  rewrite !andb_true_iff, !Z.eqb_eq, String.eqb_eq in T. destruct T as (((((H1 & H2) & H3) & H4) & H5) & H6).
  repeat (split; [assumption|]). unfold opt_size in H6.
  destruct (hc_cstat c) as [t|], (vs_cstat vs) as [n|]; cbn [option_map] in H6; try discriminate; auto.
  exists t. rewrite Z.eqb_eq in H6. auto.
Qed.

Lemma table_spec vs : In vs spec_versions -> exists c, In (vs, c) table.
Proof.
  intros H. unfold spec_versions in H. cbn [In] in H.
  repeat (destruct H as [<-|H]; [eexists; unfold table; cbn [combine spec_versions versions In]; auto 20|]).
  destruct H.
Qed.

Lemma table_class vs c : In (vs, c) table -> In vs spec_versions /\ In c versions.
Proof. intros H. split; [eapply in_combine_l|eapply in_combine_r]; exact H. Qed.

Lemma class_table c : In c versions -> exists vs, In (vs, c) table.
Proof.
  intros H. unfold versions in H. cbn [In] in H.
  repeat (destruct H as [<-|H]; [eexists; unfold table; cbn [combine spec_versions versions In]; auto 20|]).
  destruct H.
Qed.

Definition kind_type (k : kind) : ctype :=
  match k with U16 => TInt false 2 | U32 => TInt false 4 | I32 => TInt true 4 | I64 => TInt true 8 end.

Definition int_field_is (t : ctype) (n : string) (off : Z) (ft : ctype) : bool :=
  match field_at t n, ft with
  | Some (o, TInt sg sz), TInt sg' sz' => (o =? off) && Bool.eqb sg sg' && (sz =? sz')
  | _, _ => false
  end.

Lemma int_field_is_spec t n off k : int_field_is t n off (kind_type k) = true ->
  field_at t n = Some (off, kind_type k).
Proof.
  unfold int_field_is. destruct (field_at t n) as [[o [sg sz| | | |]]|]; try discriminate.
  destruct k; cbn [kind_type]; rewrite !andb_true_iff, !Z.eqb_eq, eqb_true_iff; intros [[-> ->] ->]; reflexivity.
Qed.

Lemma getint_kind t b n off k : 0 <= off -> field_at t n = Some (off, kind_type k) ->
  getint (mkObj t b) n = Ok (num_at k b off).
Proof.
  intros Ho H. destruct k; cbn [kind_type] in H; rewrite (getint_field _ _ _ _ _ _ H); f_equal; cbn [num_at].
  - apply int_at_u16; lia.
  - apply int_at_u32; lia.
  - apply int_at_i32; lia.
  - apply int_at_i64; lia.
Qed.

Lemma getattr_kind t b n off k : 0 <= off -> field_at t n = Some (off, kind_type k) ->
  getattr (mkObj t b) n = Ok (PInt (num_at k b off)).
Proof.
  intros Ho H. rewrite (getattr_field _ _ _ _ _ H). f_equal. destruct k; cbn [kind_type fetch num_at]; f_equal.
  - apply (int_at_u16 off b Ho).
  - apply (int_at_u32 off b Ho).
  - apply (int_at_i32 off b Ho).
  - apply (int_at_i64 off b Ho).
Qed.

Definition fields_ok (t : ctype) (l : list (string * Z * kind)) : bool :=
  forallb (fun x => (0 <=? snd (fst x)) && int_field_is t (fst (fst x)) (snd (fst x)) (kind_type (snd x))) l.

Lemma fields_ok_spec t l n off k : fields_ok t l = true -> In (n, off, k) l ->
  0 <= off /\ field_at t n = Some (off, kind_type k).
Proof.
  unfold fields_ok. rewrite forallb_forall. intros H Hi. specialize (H _ Hi). cbn [fst snd] in H.
  rewrite andb_true_iff, Z.leb_le in H. destruct H as [H1 H2]. split; [lia|].
  apply int_field_is_spec. exact H2.
Qed.

Lemma table_fields_b :
  forallb (fun p : vspec * hclass => let (vs, c) := p in
    fields_ok (hc_header c) (header_fields vs) && fields_ok (hc_record c) (record_fields vs)) table = true.
Proof. vm_compute. reflexivity. Qed.

Lemma table_fields vs c : In (vs, c) table ->
  fields_ok (hc_header c) (header_fields vs) = true /\ fields_ok (hc_record c) (record_fields vs) = true.
Proof.
  intros H. pose proof table_fields_b as T. rewrite forallb_forall in T. specialize (T _ H). cbv beta iota in T.
  rewrite andb_true_iff in T. exact T.
Qed.

Lemma header_field_at vs c n off k : In (vs, c) table -> In (n, off, k) (header_fields vs) ->
  0 <= off /\ field_at (hc_header c) n = Some (off, kind_type k).
Proof. intros H. apply fields_ok_spec. apply table_fields. exact H. Qed.

Lemma record_field_at vs c n off k : In (vs, c) table -> In (n, off, k) (record_fields vs) ->
  0 <= off /\ field_at (hc_record c) n = Some (off, kind_type k).
Proof. intros H. apply fields_ok_spec. apply table_fields. exact H. Qed.

Lemma header_getint vs c b n off k : In (vs, c) table -> In (n, off, k) (header_fields vs) ->
  getint (mkObj (hc_header c) b) n = Ok (num_at k b off).
Proof. intros H Hi. destruct (header_field_at _ _ _ _ _ H Hi). apply getint_kind; assumption. Qed.

Lemma record_getint vs c b n off k : In (vs, c) table -> In (n, off, k) (record_fields vs) ->
  getint (mkObj (hc_record c) b) n = Ok (num_at k b off).
Proof. intros H Hi. destruct (record_field_at _ _ _ _ _ H Hi). apply getint_kind; assumption. Qed.

(** The fields common to all versions. *)
Ltac in_fields := unfold header_fields; apply in_or_app; left; cbn [In]; tauto.

Lemma in_hdr_aversion vs : In ("aversion"%string, 4, U16) (header_fields vs).
Proof. in_fields. Qed.
Lemma in_hdr_magic vs : In ("magic"%string, 0, U32) (header_fields vs).
Proof. in_fields. Qed.
Lemma in_hdr_rawheadlen vs : In ("rawheadlen"%string, 10, U16) (header_fields vs).
Proof. in_fields. Qed.
Lemma in_hdr_rawreclen vs : In ("rawreclen"%string, 12, U16) (header_fields vs).
Proof. in_fields. Qed.
Lemma in_hdr_sstatlen vs : In ("sstatlen"%string, 28, U32) (header_fields vs).
Proof. in_fields. Qed.

Lemma h_obj_mk c b : h_obj (mkHdr c b) = mkObj (hc_header c) b.
Proof. reflexivity. Qed.

(** The dictionary of header classes. *)
Lemma header_by_version_b :
  map fst header_by_version = map vs_name spec_versions /\ map snd header_by_version = versions.
Proof. split; vm_compute; reflexivity. Qed.

Lemma names_nodup : NoDup (map vs_name spec_versions).
Proof. apply nodup_str_NoDup. vm_compute. reflexivity. Qed.

Lemma combine_map_fst_snd {A B} (l : list (A * B)) : combine (map fst l) (map snd l) = l.
Proof. induction l as [|[a b] l IH]; cbn [map combine fst snd]; congruence. Qed.

Lemma combine_map_l {A B C} (f : A -> B) (l : list A) (m : list C) :
  combine (map f l) m = map (fun p => (f (fst p), snd p)) (combine l m).
Proof. revert m. induction l as [|a l IH]; intros [|c m]; cbn [map combine fst snd]; congruence. Qed.

Lemma header_by_version_table :
  header_by_version = map (fun p => (vs_name (fst p), snd p)) table.
Proof.
  destruct header_by_version_b as [H1 H2].
  rewrite <- (combine_map_fst_snd header_by_version), H1, H2. apply combine_map_l.
Qed.

Lemma assoc_version vs c : In (vs, c) table -> assoc (vs_name vs) header_by_version = Some c.
Proof.
  intros H. apply assoc_in.
  - rewrite (proj1 header_by_version_b). exact names_nodup.
  - rewrite header_by_version_table. apply in_map_iff. exists (vs, c). auto.
Qed.

Lemma assoc_version_none v : (forall vs, In vs spec_versions -> vs_name vs <> v) ->
  assoc v header_by_version = None.
Proof.
  intros H. apply assoc_none. rewrite (proj1 header_by_version_b), in_map_iff. intros (vs & E & Hi).
  exact (H vs Hi E).
Qed.

(** The latest version. *)
Definition latest : vspec := mkVS "2.12" 2 12 96 1064016 968 (Some 432).

Lemma latest_in : In (latest, a2_12_class) table.
Proof. unfold table. cbn [combine spec_versions versions In]. auto 20. Qed.

Lemma default_class_is : default_class = a2_12_class.
Proof. reflexivity. Qed.
Lemma default_version_is : default_version = "2.12"%string.
Proof. reflexivity. Qed.

(** utsname *)
Lemma utsname_at_b :
  forallb (fun c => match field_at (hc_header c) "utsname" with
                    | Some (o, u) =>
                        (o =? 36) && (sizeof u =? 390) && is_struct u &&
                        forallb (fun x => match field_at u (fst x) with
                                          | Some (o', TArr TChar 65) => 36 + o' =? snd x
                                          | _ => false
                                          end) utsname_fields
                    | None => false
                    end) versions = true.
Proof. vm_compute. reflexivity. Qed.

Lemma utsname_at c b n off : In c versions -> In (n, off) utsname_fields ->
  exists u, getattr (mkObj (hc_header c) b) "utsname" = Ok (PObj u) /\
            getattr u n = Ok (PBytes (until_nul (sub_bytes off 65 b))).
Proof.
  intros Hc Hn. pose proof utsname_at_b as T. rewrite forallb_forall in T. specialize (T c Hc).
  destruct (field_at (hc_header c) "utsname") as [[o u]|] eqn:E; [|discriminate].
  rewrite !andb_true_iff, !Z.eqb_eq, forallb_forall in T. destruct T as (((-> & Hs) & Hst) & T).
  specialize (T _ Hn). cbn [fst snd] in T.
  destruct (field_at u n) as [[o' [| | |[]|]]|] eqn:F; try discriminate.
  destruct (Z.eq_dec n0 65) as [->|]; [|destruct n0 as [|p|]; try discriminate; do 7 (destruct p; try discriminate); congruence].
  apply Z.eqb_eq in T.
  rewrite (getattr_field _ _ _ _ _ E). unfold fetch. destruct u; try discriminate.
  eexists. split; [reflexivity|]. rewrite (getattr_field _ _ _ _ _ F). unfold fetch. rewrite Hs.
  assert (0 <= o' /\ o' + 65 <= 390) as [B1 B2].
  { destruct (class_types_ok c (hc_header c) Hc) as (W & _ & _); [left; reflexivity|].
    destruct (field_in_struct _ _ _ _ W (field_at_layout _ _ _ _ E)) as (_ & _ & _ & W' & _).
    destruct (field_in_struct _ _ _ _ W' (field_at_layout _ _ _ _ F)) as (D1 & _ & D2 & _).
    rewrite Hs in D2. cbn [sizeof] in D2. lia. }
  rewrite sub_bytes_sub by (cbn [sizeof]; lia). rewrite T. reflexivity.
Qed.
