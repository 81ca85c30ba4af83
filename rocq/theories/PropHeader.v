(** * Theorems C01-C08: the file header *)
From Coq Require Import List ZArith Lia Bool String.
From Coq Require Import Init.Byte.
From Coq Require Import ZifyBool.
From Verif Require Import PyBase Utf8 CTypes S_shared S_1_26 S_2_11 S_2_12 Model Spec SpecDict SpecLog
  BaseProofs LayoutProofs RepProofs DictProofs TableProofs HeaderProofs GenProofs RunProofs InflateProofs LogBuild.
Import ListNotations.
Open Scope list_scope.
Open Scope Z_scope.

(** ** Relating classes and versions *)

Lemma class_for_table vs c : class_for vs c -> In (vs, c) table.
Proof.
  intros (Hv & Hc & Hn). destruct (class_table _ Hc) as (ws & Hw).
  destruct (table_sizes _ _ Hw) as (E & _). rewrite E in Hn.
  destruct (table_class _ _ Hw) as (Hws & _).
  assert (ws = vs) as ->; [|exact Hw].
  assert (forall l : list vspec, NoDup (map vs_name l) -> forall a b, In a l -> In b l -> vs_name a = vs_name b -> a = b) as K.
  { clear. induction l as [|x l IH]; cbn; intros N a b Ha Hb E; [tauto|]. inversion N as [|? ? N1 N2]; subst.
    destruct Ha as [->|Ha], Hb as [->|Hb]; [reflexivity| | |eauto].
    - exfalso. apply N1. rewrite E. apply in_map. exact Hb.
    - exfalso. apply N1. rewrite <- E. apply in_map. exact Ha. }
  apply (K spec_versions names_nodup); auto.
Qed.

Lemma table_class_for vs c : In (vs, c) table -> class_for vs c.
Proof. intros H. destruct (table_class _ _ H). destruct (table_sizes _ _ H) as (E & _). split; auto. Qed.

Lemma class_for_exists vs : In vs spec_versions -> exists c, class_for vs c.
Proof. intros H. destruct (table_spec _ H) as (c & K). exists c. apply table_class_for, K. Qed.

(** ** C01 *)

Lemma header_complete_b :
  forallb (fun p : vspec * hclass => let (vs, c) := p in
    forallb (fun n => existsb (String.eqb n) ("utsname"%string :: map (fun x => fst (fst x)) (header_fields vs))
                      || str_contains "future" n)
            (map fst (struct_fields (hc_header c)))) table = true.
Proof. vm_compute. reflexivity. Qed.

Lemma header_complete vs c n : In (vs, c) table -> In n (map fst (struct_fields (hc_header c))) ->
  n = "utsname"%string \/ (exists off k, In (n, off, k) (header_fields vs)) \/ has_future n.
Proof.
  intros H Hn. pose proof header_complete_b as B. rewrite forallb_forall in B. specialize (B _ H).
  rewrite forallb_forall in B. specialize (B _ Hn). apply orb_true_iff in B. destruct B as [B|B].
  - apply existsb_exists in B. destruct B as (m & Hm & E). apply String.eqb_eq in E. subst m.
    destruct Hm as [<-|Hm]; [left; reflexivity|]. right. left. apply in_map_iff in Hm.
    destruct Hm as ([[m off] k] & E & K). cbn in E. subst m. exists off, k. exact K.
  - right. right. apply str_contains_spec in B. exact B.
Qed.

Theorem C01_header_read_exactly vs hb rest :
  In vs spec_versions -> atop_header vs hb ->
  exists h,
    get_header true (plain (hb ++ rest)) = (Ok h, plain rest) /\
    hc_version (h_class h) = vs_name vs /\
    (forall n off k, In (n, off, k) (header_fields vs) ->
       getattr (h_obj h) n = Ok (PInt (num_at k hb off))) /\
    (exists u, getattr (h_obj h) "utsname" = Ok (PObj u) /\
       forall n off, In (n, off) utsname_fields ->
       exists s, getattr u n = Ok (PBytes s) /\ c_string s (ztake 65 (zdrop off hb))) /\
    (forall n, In n (map fst (struct_fields (hc_header (h_class h)))) ->
       n = "utsname"%string \/ (exists off k, In (n, off, k) (header_fields vs)) \/ has_future n) /\
    (forall v, rep (hc_header (h_class h)) v hb -> shows v (PObj (h_obj h))) /\
    (exists v, rep (hc_header (h_class h)) v hb).
Proof.
  intros Hvs (Hlen & Hmag & Hver & Hsz). destruct (table_spec _ Hvs) as (c & Hc).
  destruct (table_class _ _ Hc) as (_ & Hcv).
  unfold header_size in Hlen.
  assert (magic_of (hb ++ rest) = magic_number) as M1.
  { unfold magic_of in *. rewrite u32_app_l by lia. exact Hmag. }
  assert (aversion_of (hb ++ rest) = aversion_of hb) as A1 by (unfold aversion_of; rewrite u16_app_l by lia; reflexivity).
  assert (is_version vs (hb ++ rest)) as V1.
  { unfold is_version, major_of, minor_of in *. rewrite A1. exact Hver. }
  assert (sizes_match_b vs (hb ++ rest) = true) as S1.
  { apply sizes_match_b_spec. unfold sizes_match in *. rewrite !u16_app_l, !u32_app_l, i32_app_l by lia. exact Hsz. }
  pose proof (get_header_supported true vs c (hb ++ rest) Hc M1 V1) as G. rewrite S1, orb_true_r in G.
  rewrite padded_exact in G by exact Hlen. rewrite zdrop_exact in G by exact Hlen.
  destruct (table_sizes _ _ Hc) as (Nm & Hs & _).
  destruct (class_types_ok c (hc_header c) Hcv (or_introl eq_refl)) as (W & _ & St).
  exists (mkHdr c hb). cbn [h_class]. split; [exact G|]. split; [exact Nm|]. split; [|split; [|split; [|split]]].
  - intros n off k Hn. destruct (header_field_at _ _ _ _ _ Hc Hn) as (P & F). apply getattr_kind; assumption.
  - pose proof (utsname_at c hb "sysname" 36 Hcv (or_introl eq_refl)) as (u & Hu & _). exists u. split; [exact Hu|].
    intros n off Hn. destruct (utsname_at c hb n off Hcv Hn) as (u' & Hu' & K).
    rewrite Hu in Hu'. injection Hu' as <-. eexists. split; [exact K|]. apply until_nul_c_string.
  - intros n Hn. eapply header_complete; eassumption.
  - intros v Hr. pose proof (rep_shows _ _ _ W Hr) as K. destruct (hc_header c) eqn:E; try discriminate St.
    unfold h_obj. cbn [h_class h_buf]. rewrite E. exact K.
  - apply image_total; [exact W|]. rewrite Hs. exact Hlen.
Qed.

(** ** C02 *)

Theorem C02_not_atop_rejected check b :
  magic_of b <> magic_number ->
  fst (get_header check (plain b)) = Raise (ValueError (BadMagic (magic_of b))).
Proof.
  intros H. rewrite get_header_plain. cbn [fst]. rewrite get_header_bad_magic by (rewrite magic_padded; exact H).
  rewrite magic_padded. reflexivity.
Qed.

(** ** C03 *)

Theorem C03_version_from_aversion h :
  In (h_class h) versions ->
  let a := u16_at (h_buf h) 4 in
  getattr (h_obj h) "aversion" = Ok (PInt a) /\ 0 <= a < 65536 /\
  major_version h = Ok (a / 256 mod 128) /\
  minor_version h = Ok (a mod 256) /\
  semantic_version h = Ok (dotted (a / 256 mod 128) (a mod 256)).
Proof.
  intros Hc a. destruct (class_table _ Hc) as (vs & Ht). destruct h as [c b]. cbn [h_class h_buf] in *.
  destruct (header_field_at _ _ _ _ _ Ht (in_hdr_aversion vs)) as (P & F).
  split; [apply (getattr_kind _ _ _ _ U16); assumption|]. split; [apply u16_range|].
  split; [apply (major_version_spec _ _ Ht)|]. split; [apply (minor_version_spec _ _ Ht)|].
  apply (semantic_version_spec _ _ Ht).
Qed.

Theorem C03_bit15_ignored h1 h2 :
  In (h_class h1) versions -> In (h_class h2) versions ->
  u16_at (h_buf h1) 4 mod 32768 = u16_at (h_buf h2) 4 mod 32768 ->
  semantic_version h1 = semantic_version h2 /\
  major_version h1 = major_version h2 /\ minor_version h1 = minor_version h2.
Proof.
  intros H1 H2 E. destruct (C03_version_from_aversion h1 H1) as (_ & R1 & A1 & B1 & S1).
  destruct (C03_version_from_aversion h2 H2) as (_ & R2 & A2 & B2 & S2).
  rewrite A1, A2, B1, B2, S1, S2.
  assert (u16_at (h_buf h1) 4 / 256 mod 128 = u16_at (h_buf h2) 4 / 256 mod 128 /\
          u16_at (h_buf h1) 4 mod 256 = u16_at (h_buf h2) 4 mod 256) as [-> ->]; [|auto].
  revert R1 R2 E. generalize (u16_at (h_buf h1) 4), (u16_at (h_buf h2) 4). intros x y _ _ E. split.
  - assert (forall z, z / 256 mod 128 = (z mod 32768) / 256) as K.
    { intros z. rewrite (Z.mod_eq z 32768), (Z.mod_eq (z / 256) 128), Z.div_div by lia.
      replace (z - 32768 * (z / 32768)) with (z + (- 128 * (z / 32768)) * 256) by lia.
      rewrite Z.div_add by lia. change (256 * 128) with 32768. lia. }
    rewrite !K, E. reflexivity.
  - assert (forall z, z mod 256 = (z mod 32768) mod 256) as K.
    { intros z. rewrite (Z.mod_eq z 32768) by lia.
      replace (z - 32768 * (z / 32768)) with (z + (- 128 * (z / 32768)) * 256) by lia.
      rewrite Z.mod_add by lia. reflexivity. }
    rewrite (K x), (K y), E. reflexivity.
Qed.

Theorem C03_version_text_injective h1 h2 s :
  In (h_class h1) versions -> In (h_class h2) versions ->
  semantic_version h1 = Ok s -> semantic_version h2 = Ok s ->
  major_version h1 = major_version h2 /\ minor_version h1 = minor_version h2.
Proof.
  intros H1 H2 E1 E2. destruct (C03_version_from_aversion h1 H1) as (_ & R1 & A1 & B1 & S1).
  destruct (C03_version_from_aversion h2 H2) as (_ & R2 & A2 & B2 & S2).
  rewrite S1 in E1. rewrite S2 in E2. rewrite <- E1 in E2. injection E2 as E2.
  apply dotted_inj in E2.
  - destruct E2 as [E2 E3]. rewrite A1, A2, B1, B2, E2, E3. auto.
  - pose proof (Z.mod_pos_bound (u16_at (h_buf h2) 4 / 256) 128). lia.
  - apply Z.mod_pos_bound. lia.
  - pose proof (Z.mod_pos_bound (u16_at (h_buf h1) 4 / 256) 128). lia.
  - apply Z.mod_pos_bound. lia.
Qed.

(** ** C04 *)

Theorem C04_class_choice check b h f' :
  get_header check (plain b) = (Ok h, f') ->
  In (h_class h) versions /\
  (forall vs, In vs spec_versions -> is_version vs b -> hc_version (h_class h) = vs_name vs) /\
  (unsupported b -> hc_version (h_class h) = "2.12"%string) /\
  h_buf h = ztake 480 b ++ zeros (480 - zlen b).
Proof.
  intros H. destruct (get_header_cases check b) as [(M & E)|(M & c & Ch & [(E & _)|(_ & e & _ & E)])];
    rewrite E in H; try discriminate H.
  injection H as <- <-. cbn [h_class h_buf]. split; [eapply chosen_in; exact Ch|].
  split; [|split; [|reflexivity]].
  - intros vs Hvs Hv. destruct Ch as [(ws & Hw & Hwv)|(N & ->)]; [|exfalso; eapply N; eassumption].
    destruct (table_class _ _ Hw) as (Hws & _). rewrite (is_version_unique vs ws b Hvs Hws Hv Hwv).
    apply (table_sizes _ _ Hw).
  - intros U. destruct Ch as [(ws & Hw & Hwv)|(_ & ->)]; [|reflexivity].
    destruct (table_class _ _ Hw) as (Hws & _). exfalso. exact (U _ Hws Hwv).
Qed.

(** The same in terms of the version text of the returned header, and version names identify classes. *)
Theorem C04_class_by_version_text check b h f' v :
  get_header check (plain b) = (Ok h, f') -> semantic_version h = Ok v ->
  (In v (map hc_version versions) -> hc_version (h_class h) = v) /\
  (~ In v (map hc_version versions) -> hc_version (h_class h) = "2.12"%string).
Proof.
  intros H Hv. destruct (C04_class_choice _ _ _ _ H) as (Hc & Hs & Hu & Hb).
  destruct (C03_version_from_aversion h Hc) as (_ & _ & _ & _ & S). rewrite S in Hv. injection Hv as <-.
  assert (u16_at (h_buf h) 4 = aversion_of b) as ->.
  { rewrite Hb. change (ztake 480 b ++ zeros (480 - zlen b)) with (padded b). apply aversion_padded. }
  change (aversion_of b / 256 mod 128) with (major_of b). change (aversion_of b mod 256) with (minor_of b).
  split; intros K.
  - apply in_map_iff in K. destruct K as (c & E & Hcc). destruct (class_table _ Hcc) as (vs & Ht).
    destruct (table_sizes _ _ Ht) as (E2 & _). destruct (table_class _ _ Ht) as (Hvs & _).
    rewrite <- E, E2. apply Hs; [exact Hvs|]. apply is_version_name; [exact Hvs|]. congruence.
  - apply Hu. intros vs Hvs Hv. apply K. destruct (table_spec _ Hvs) as (c & Ht).
    apply is_version_name in Hv; [|exact Hvs]. rewrite <- Hv. destruct (table_sizes _ _ Ht) as (E2 & _).
    rewrite <- E2. apply in_map. apply (table_class _ _ Ht).
Qed.

Theorem C04_version_names_distinct : NoDup (map hc_version versions).
Proof. apply nodup_str_NoDup. vm_compute. reflexivity. Qed.

(** ** C05 *)

Theorem C05_compatibility_exact vs b :
  In vs spec_versions -> magic_of b = magic_number -> is_version vs b ->
  ((exists h, fst (get_header true (plain b)) = Ok h) <-> sizes_match vs b) /\
  (~ sizes_match vs b -> exists sizes, fst (get_header true (plain b)) = Raise (ValueError (Incompatible sizes))) /\
  (exists h, fst (get_header false (plain b)) = Ok h).
Proof.
  intros Hvs M V. destruct (table_spec _ Hvs) as (c & Hc).
  pose proof (get_header_supported true vs c b Hc M V) as G. cbn [negb orb] in G.
  pose proof (get_header_supported false vs c b Hc M V) as G2. cbn [negb orb] in G2.
  split; [|split].
  - destruct (sizes_match_b vs b) eqn:E.
    + split; [intros _; apply sizes_match_b_spec; exact E|]. intros _. rewrite G. eexists. reflexivity.
    + destruct G as (l & G). rewrite G. split; [intros (h & K); discriminate|].
      intros K. apply sizes_match_b_spec in K. congruence.
  - intros N. destruct (sizes_match_b vs b) eqn:E; [apply sizes_match_b_spec in E; tauto|].
    destruct G as (l & G). rewrite G. exists l. reflexivity.
  - rewrite G2. eexists. reflexivity.
Qed.

(** ** C06 *)

(** What does hold: exactly one other exception, on exactly these headers. *)
Theorem C06_exact_exceptions b e :
  fst (get_header true (plain b)) = Raise e ->
  (exists v, e = ValueError v) \/
  (e = AttributeError "pstatlen" /\ magic_of b = magic_number /\ unsupported b /\
   (major_of b < 2 \/ minor_of b < 3)).
Proof.
  intros H. destruct (Z.eq_dec (magic_of b) magic_number) as [M|M].
  - destruct (supported_dec b) as [(vs & c & Hc & V)|U].
    + pose proof (get_header_supported true vs c b Hc M V) as G. destruct (negb true || sizes_match_b vs b).
      * rewrite G in H. discriminate H.
      * destruct G as (l & G). rewrite G in H. injection H as <-. left. eexists. reflexivity.
    + pose proof (get_header_unsupported true b M U) as G. cbn [negb] in G.
      destruct ((2 <=? major_of b) && (3 <=? minor_of b)) eqn:E.
      * destruct (fallback_sizes_b b); [rewrite G in H; discriminate H|].
        destruct G as (l & G). rewrite G in H. injection H as <-. left. eexists. reflexivity.
      * rewrite G in H. injection H as <-. right. repeat split; auto. lia.
  - rewrite C02_not_atop_rejected in H by exact M. injection H as <-. left. eexists. reflexivity.
Qed.

Theorem C06_attribute_error_iff b :
  fst (get_header true (plain b)) = Raise (AttributeError "pstatlen") <->
  magic_of b = magic_number /\ unsupported b /\ (major_of b < 2 \/ minor_of b < 3).
Proof.
  split.
  - intros H. apply C06_exact_exceptions in H. destruct H as [(v & H)|(_ & H)]; [discriminate H|exact H].
  - intros (M & U & V). pose proof (get_header_unsupported true b M U) as G. cbn [negb] in G.
    replace ((2 <=? major_of b) && (3 <=? minor_of b)) with false in G by lia. rewrite G. reflexivity.
Qed.

(** Without the check ValueError is the only exception. *)
Theorem C06_unchecked_only_value_error b e :
  fst (get_header false (plain b)) = Raise e -> e = ValueError (BadMagic (magic_of b)) /\ magic_of b <> magic_number.
Proof.
  intros H. destruct (get_header_cases false b) as [(M & E)|(M & c & _ & [(E & _)|(X & _)])]; [| |discriminate X];
    rewrite E in H; [injection H as <-; auto|discriminate H].
Qed.

(** An I/O exception of the file object is passed on unchanged and only when the header is not
    completely there. *)
Theorem C06_io_errors_pass b e check :
  get_header check (mkFile b (Some e)) =
  if 480 <=? zlen b
  then (fst (get_header check (plain b)), mkFile (zdrop 480 b) (Some e))
  else (Raise e, mkFile [] (Some e)).
Proof.
  unfold get_header. assert (sizeof (hc_header default_class) = 480) as -> by reflexivity.
  unfold mbind, freadinto, fread, plain. cbn [f_rem f_fault]. destruct (480 <=? zlen b); reflexivity.
Qed.

Definition header_2_2 : list byte :=
  [xef; xbe; xed; xfe; x02; x82] ++ zeros 474.

Theorem C06_only_value_error_refuted :
  ~ (forall b e, fst (get_header true (plain b)) = Raise e -> exists v, e = ValueError v).
Proof.
  intros H. destruct (H header_2_2 (AttributeError "pstatlen")) as (v & E); [|discriminate].
  vm_compute. reflexivity.
Qed.

(** ** C07 *)

Theorem C07_short_header_zero_extended check b n :
  fst (get_header check (plain b)) = fst (get_header check (plain (b ++ zeros n))).
Proof.
  rewrite !get_header_plain. cbn [fst]. f_equal. unfold padded. rewrite ztake_app, zlen_app, zlen_zeros.
  destruct (Z.le_gt_cases 480 (zlen b)).
  - rewrite (ztake_0 (480 - zlen b)) by lia. unfold zeros at 1 2.
    replace (Z.to_nat (480 - zlen b)) with O by lia.
    replace (Z.to_nat (480 - (zlen b + Z.max 0 n))) with O by lia. cbn [repeat]. rewrite !app_nil_r. reflexivity.
  - rewrite <- app_assoc. f_equal. unfold ztake, zeros. rewrite <- (firstn_skipn (Z.to_nat (480 - zlen b)) (repeat x00 (Z.to_nat n))) at 1.
    clear. set (a := Z.to_nat (480 - zlen b)). set (m := Z.to_nat n).
    assert (forall k j, firstn k (repeat x00 j) = repeat x00 (Nat.min k j)) as F.
    { induction k; intros [|j]; cbn; [reflexivity..|]. rewrite IHk. reflexivity. }
    rewrite firstn_skipn, F, <- repeat_app. f_equal. unfold a, m, zlen. lia.
Qed.

Theorem C07_cut_in_length_fields_rejected b h f' :
  get_header true (plain b) = (Ok h, f') ->
  34 <= zlen b /\
  (forall vs n, In vs spec_versions -> is_version vs b -> vs_cstat vs = Some n -> 458 <= zlen b).
Proof.
  intros H.
  assert (forall off, zlen b < off + 2 -> 0 <= off -> 256 <= u32_at b off -> False) as K.
  { intros off L P. unfold u32_at, u16_at. rewrite (at8_out b (off + 1)) by lia.
    rewrite (at8_out b (off + 2)), (at8_out b (off + 2 + 1)) by lia. pose proof (at8_range b off). lia. }
  assert (magic_of b = magic_number) as M.
  { destruct (Z.eq_dec (magic_of b) magic_number) as [M|M]; [exact M|].
    pose proof (C02_not_atop_rejected true b M) as E. rewrite H in E. discriminate E. }
  destruct (supported_dec b) as [(vs & c & Hc & V)|U].
  - destruct (table_class _ _ Hc) as (Hvs & _).
    assert (sizes_match vs b) as S.
    { apply (C05_compatibility_exact vs b Hvs M V). exists h. rewrite H. reflexivity. }
    destruct S as (_ & _ & _ & S1 & S2).
    assert (256 <= vs_tstat vs /\ match vs_cstat vs with Some n => 256 <= n | None => True end) as (T1 & T2).
    { clear - Hvs. repeat (destruct Hvs as [<-|Hvs]; [cbn; lia|]). destruct Hvs. }
    split.
    + destruct (Z.le_gt_cases 34 (zlen b)); [assumption|]. exfalso. apply (K 32); lia.
    + intros ws n Hw Vw En. rewrite (is_version_unique _ _ _ Hw Hvs Vw V) in En. rewrite En in S2, T2.
      destruct (Z.le_gt_cases 458 (zlen b)); [assumption|]. exfalso. apply (K 456); [lia..|].
      unfold i32_at in S2. pose proof (u32_range b 456). destruct (u32_at b 456 <? 2147483648) eqn:E; lia.
  - split; [|intros vs n Hvs V; exfalso; exact (U _ Hvs V)].
    pose proof (get_header_unsupported true b M U) as G. cbn [negb] in G.
    destruct ((2 <=? major_of b) && (3 <=? minor_of b)); [|rewrite G in H; discriminate H].
    destruct (fallback_sizes_b b) eqn:E; [|destruct G as (l & G); rewrite G in H; discriminate H].
    unfold fallback_sizes_b in E. cbn in E.
    destruct (Z.le_gt_cases 34 (zlen b)); [assumption|]. exfalso. apply (K 32); lia.
Qed.

(** A 1.26 header cut after its length fields. *)
Definition short_header_1_26 : list byte :=
  [xef; xbe; xed; xfe; x1a; x81; x00; x00; x00; x00; xe0; x01; x50; x00; x64; x00] ++ zeros 12 ++
  [x30; x59; x01; x00; x68; x02].

Theorem C07_short_header_rejected_refuted :
  ~ (forall b, zlen b < header_size -> exists v, fst (get_header true (plain b)) = Raise (ValueError v)).
Proof.
  intros H. destruct (H short_header_1_26) as (v & E); [reflexivity|]. vm_compute in E. discriminate.
Qed.

(** ** C08 *)

Theorem C08_header_consumption check f h f' :
  get_header check f = (Ok h, f') ->
  exists used, f_rem f = used ++ f_rem f' /\ zlen used = Z.min header_size (zlen (f_rem f)) /\
               f_fault f' = f_fault f.
Proof.
  intros H. destruct (get_header_consumes _ _ _ _ H) as (E & F). exists (ztake 480 (f_rem f)).
  rewrite E, ztake_zdrop, zlen_ztake. pose proof (zlen_nonneg (f_rem f)). unfold header_size. repeat split; [lia|exact F].
Qed.

(** ** Examples: the hypotheses are met *)

(** C01, C03, C04, C05, C08: for every version there is a header that is accepted, whatever follows. *)
Example C01_example vs rest : In vs spec_versions ->
  exists h, get_header true (plain (make_header vs ++ rest)) = (Ok h, plain rest) /\
    hc_version (h_class h) = vs_name vs /\ getattr (h_obj h) "hertz" = Ok (PInt 100).
Proof.
  intros H. destruct (C01_header_read_exactly vs (make_header vs) rest H (make_header_ok vs H)) as (h & A & B & C & _).
  exists h. split; [exact A|]. split; [exact B|].
  rewrite (C "hertz"%string 14 U16) by (unfold header_fields; do 6 right; left; reflexivity).
  clear -H. change (num_at U16 (make_header vs) 14) with (u16_at (make_header vs) 14).
  assert (T : forallb (fun vs => u16_at (make_header vs) 14 =? 100) spec_versions = true) by (vm_compute; reflexivity).
  rewrite forallb_forall in T. specialize (T _ H). apply Z.eqb_eq in T. rewrite T. reflexivity.
Qed.

(** C02: a file of zeros, a gzip file. *)
Example C02_example :
  fst (get_header true (plain (zeros 1000))) = Raise (ValueError (BadMagic 0)) /\
  fst (get_header false (plain (x1f :: x8b :: x08 :: x00 :: zeros 1000))) = Raise (ValueError (BadMagic 559903)).
Proof. split; vm_compute; reflexivity. Qed.

(** C03: the versions 1.26 and 2.11 as text; bit 15 does not matter. *)
Example C03_example :
  semantic_version (mkHdr a1_26_class ([xef; xbe; xed; xfe; x1a; x81] ++ zeros 474)) = Ok "1.26"%string /\
  semantic_version (mkHdr a1_26_class ([xef; xbe; xed; xfe; x1a; x01] ++ zeros 474)) = Ok "1.26"%string /\
  semantic_version (mkHdr a2_12_class ([xef; xbe; xed; xfe; x0b; x82] ++ zeros 474)) = Ok "2.11"%string.
Proof. repeat apply conj; vm_compute; reflexivity. Qed.

(** C04: an unsupported version (2.2) without the check gets the classes of 2.12. *)
Example C04_example : unsupported header_2_2 /\
  exists h f, get_header false (plain header_2_2) = (Ok h, f) /\ hc_version (h_class h) = "2.12"%string.
Proof.
  split.
  - intros vs H [M1 M2]. change (major_of header_2_2) with 2 in M1. change (minor_of header_2_2) with 2 in M2.
    repeat (destruct H as [<- | H]; [(discriminate M1 || discriminate M2)|]). destruct H.
  - do 2 eexists. split; vm_compute; reflexivity.
Qed.

(** C05: a 2.12 header with a wrong cgroup size is rejected, with the right one accepted. *)
Example C05_example :
  let vs := mkVS "2.12" 2 12 96 1064016 968 (Some 432) in
  let bad := ztake 456 (make_header vs) ++ zeros 24 in
  In vs spec_versions /\ magic_of bad = magic_number /\ is_version vs bad /\ ~ sizes_match vs bad /\
  sizes_match vs (make_header vs) /\
  (exists sizes, fst (get_header true (plain bad)) = Raise (ValueError (Incompatible sizes))).
Proof.
  assert (I : In (mkVS "2.12" 2 12 96 1064016 968 (Some 432)) spec_versions) by (do 10 right; left; reflexivity).
  cbn zeta. repeat apply conj.
  - exact I.
  - vm_compute. reflexivity.
  - vm_compute. reflexivity.
  - vm_compute. reflexivity.
  - intros (_ & _ & _ & _ & S). vm_compute in S. discriminate S.
  - apply (make_header_ok _ I).
  - apply (make_header_ok _ I).
  - apply (make_header_ok _ I).
  - apply (make_header_ok _ I).
  - apply (make_header_ok _ I).
  - eexists. vm_compute. reflexivity.
Qed.

(** C06, C07: the witnesses of the refutations. *)
Example C06_example : magic_of header_2_2 = magic_number /\ unsupported header_2_2 /\ minor_of header_2_2 < 3.
Proof. split; [vm_compute; reflexivity|]. split; [apply C04_example|vm_compute; reflexivity]. Qed.
Example C07_example : zlen short_header_1_26 = 34 /\ exists h f, get_header true (plain short_header_1_26) = (Ok h, f).
Proof. split; [vm_compute; reflexivity|]. do 2 eexists. vm_compute. reflexivity. Qed.

(** C08: the header of a longer file leaves the rest; a file of 200 bytes is consumed completely. *)
Example C08_example :
  let b := make_header (mkVS "2.7" 2 7 96 954360 840 None) in
  (exists h, get_header true (plain (b ++ [x01; x02])) = (Ok h, plain [x01; x02])) /\
  (exists h, get_header true (plain (ztake 200 b)) = (Ok h, plain [])).
Proof. cbv zeta. split; eexists; vm_compute; reflexivity. Qed.
