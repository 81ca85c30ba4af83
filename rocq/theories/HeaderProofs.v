(** * get_header *)
From Coq Require Import List ZArith Lia Bool String Ascii.
From Coq Require Import Init.Byte.
From Coq Require Import ZifyBool.
From Verif Require Import PyBase Utf8 CTypes S_shared S_1_26 S_2_11 S_2_12 Model Spec SpecDict
  BaseProofs LayoutProofs RepProofs DictProofs TableProofs.
Import ListNotations.
Open Scope list_scope.
Open Scope Z_scope.

(** ** Version text *)

Fixpoint upto (n : nat) : list Z :=
  match n with O => [] | S k => upto k ++ [Z.of_nat k] end.

Lemma in_upto n z : 0 <= z < Z.of_nat n -> In z (upto n).
Proof.
  induction n as [|n IH]; intros H; [lia|]. cbn [upto]. apply in_or_app.
  destruct (Z.eq_dec z (Z.of_nat n)) as [->|]; [right; left; reflexivity|left; apply IH; lia].
Qed.

Lemma str_of_int_small_b : forallb (fun n => String.eqb (str_of_int n) (dec_text n)) (upto 256) = true.
Proof. vm_compute. reflexivity. Qed.

Lemma str_of_int_small n : 0 <= n < 256 -> str_of_int n = dec_text n.
Proof.
  intros H. pose proof str_of_int_small_b as T. rewrite forallb_forall in T.
  apply String.eqb_eq. apply T. apply (in_upto 256). exact H.
Qed.

Lemma int_of_str_small_b :
  forallb (fun n => match int_of_str (dec_text n) with Ok m => m =? n | Raise _ => false end) (upto 256) = true.
Proof. vm_compute. reflexivity. Qed.

Lemma int_of_str_small n : 0 <= n < 256 -> int_of_str (dec_text n) = Ok n.
Proof.
  intros H. pose proof int_of_str_small_b as T. rewrite forallb_forall in T.
  specialize (T n (in_upto 256 n H)). destruct (int_of_str (dec_text n)); [|discriminate].
  apply Z.eqb_eq in T. congruence.
Qed.

Lemma dec_text_inj a b : 0 <= a < 256 -> 0 <= b < 256 -> dec_text a = dec_text b -> a = b.
Proof.
  intros Ha Hb E. apply (f_equal int_of_str) in E.
  rewrite !int_of_str_small in E by assumption. congruence.
Qed.

Definition no_dot (s : string) : bool :=
  forallb (fun c => negb (Ascii.eqb c "."%char)) (list_ascii_of_string s).

Lemma dec_text_no_dot_b : forallb (fun n => no_dot (dec_text n)) (upto 256) = true.
Proof. vm_compute. reflexivity. Qed.

Lemma dec_text_no_dot n : 0 <= n < 256 -> no_dot (dec_text n) = true.
Proof.
  intros H. pose proof dec_text_no_dot_b as T. rewrite forallb_forall in T. apply T. apply (in_upto 256). exact H.
Qed.

Lemma split_no_dot s : no_dot s = true -> split_dot s = [s].
Proof.
  induction s as [|c s IH]; intros H; [reflexivity|]. unfold no_dot in H. cbn [list_ascii_of_string forallb] in H.
  apply andb_prop in H as [H1 H2]. apply negb_true_iff in H1. cbn [split_dot]. rewrite H1, (IH H2). reflexivity.
Qed.

Lemma split_dotted a b : no_dot a = true -> no_dot b = true ->
  split_dot (String.append a (String "." b)) = [a; b].
Proof.
  intros Ha Hb. induction a as [|c a IH].
  - cbn [String.append split_dot]. rewrite Ascii.eqb_refl, (split_no_dot b Hb). reflexivity.
  - unfold no_dot in Ha. cbn [list_ascii_of_string forallb] in Ha.
    apply andb_prop in Ha as [H1 H2]. apply negb_true_iff in H1.
    cbn [String.append split_dot]. rewrite H1, (IH H2). reflexivity.
Qed.

Lemma dotted_inj a b c d : 0 <= a < 256 -> 0 <= b < 256 -> 0 <= c < 256 -> 0 <= d < 256 ->
  dotted a b = dotted c d -> a = c /\ b = d.
Proof.
  intros Ha Hb Hc Hd E. unfold dotted in E. apply (f_equal split_dot) in E.
  rewrite !split_dotted in E by (apply dec_text_no_dot; assumption).
  injection E as E1 E2. split; apply dec_text_inj; assumption.
Qed.

Lemma major_range hb : 0 <= major_of hb < 128.
Proof. unfold major_of. apply Z.mod_pos_bound. lia. Qed.
Lemma minor_range hb : 0 <= minor_of hb < 256.
Proof. unfold minor_of. apply Z.mod_pos_bound. lia. Qed.

Lemma major_of_aversion_spec a : major_of_aversion a = a / 256 mod 128.
Proof.
  unfold major_of_aversion. rewrite Z.shiftr_div_pow2 by lia.
  change 127 with (Z.ones 7). rewrite Z.land_ones by lia. reflexivity.
Qed.
Lemma minor_of_aversion_spec a : minor_of_aversion a = a mod 256.
Proof. unfold minor_of_aversion. change 255 with (Z.ones 8). rewrite Z.land_ones by lia. reflexivity. Qed.

Section Class.
Variables (vs : vspec) (c : hclass).
Hypothesis Hc : In (vs, c) table.

Lemma aversion_value b : getint (h_obj (mkHdr c b)) "aversion" = Ok (aversion_of b).
Proof. rewrite h_obj_mk. exact (header_getint vs c b _ _ _ Hc (in_hdr_aversion vs)). Qed.

Lemma major_version_spec b : major_version (mkHdr c b) = Ok (major_of b).
Proof. unfold major_version. rewrite aversion_value. cbn [rbind]. rewrite major_of_aversion_spec. reflexivity. Qed.

Lemma minor_version_spec b : minor_version (mkHdr c b) = Ok (minor_of b).
Proof. unfold minor_version. rewrite aversion_value. cbn [rbind]. rewrite minor_of_aversion_spec. reflexivity. Qed.

Lemma semantic_version_spec b : semantic_version (mkHdr c b) = Ok (dotted (major_of b) (minor_of b)).
Proof.
  unfold semantic_version. rewrite aversion_value. cbn [rbind].
  rewrite major_of_aversion_spec, minor_of_aversion_spec.
  fold (major_of b) (minor_of b). pose proof (major_range b). pose proof (minor_range b).
  unfold version_text, dotted. rewrite !str_of_int_small by lia. reflexivity.
Qed.

Lemma version_at_least_spec b n :
  version_at_least_2 (mkHdr c b) n = Ok ((2 <=? major_of b) && (n <=? minor_of b)).
Proof.
  unfold version_at_least_2. rewrite major_version_spec. cbn [rbind].
  destruct (2 <=? major_of b); [|reflexivity]. rewrite minor_version_spec. reflexivity.
Qed.

Lemma cgroup_gate_spec b :
  cgroup_gate (mkHdr c b) = Ok ((2 <=? major_of b) && (11 <=? minor_of b)).
Proof.
  unfold cgroup_gate. rewrite semantic_version_spec. cbn [rbind]. unfold dotted.
  pose proof (major_range b). pose proof (minor_range b).
  rewrite split_dotted by (apply dec_text_no_dot; lia). rewrite !int_of_str_small by lia. reflexivity.
Qed.

End Class.

(** The names of the versions are their numbers. *)
Lemma vs_name_dotted_b :
  forallb (fun vs => String.eqb (vs_name vs) (dotted (vs_major vs) (vs_minor vs)) &&
                     (0 <=? vs_major vs) && (vs_major vs <? 128) && (0 <=? vs_minor vs) && (vs_minor vs <? 256))
          spec_versions = true.
Proof. vm_compute. reflexivity. Qed.

Lemma vs_name_dotted vs : In vs spec_versions ->
  vs_name vs = dotted (vs_major vs) (vs_minor vs) /\ 0 <= vs_major vs < 128 /\ 0 <= vs_minor vs < 256.
Proof.
  intros H. pose proof vs_name_dotted_b as T. rewrite forallb_forall in T. specialize (T vs H). cbv beta in T.
  rewrite !andb_true_iff, String.eqb_eq in T. destruct T as ((((H1 & H2) & H3) & H4) & H5).
  split; [exact H1|]. lia.
Qed.

Lemma is_version_name vs hb : In vs spec_versions ->
  (vs_name vs = dotted (major_of hb) (minor_of hb) <-> is_version vs hb).
Proof.
  intros H. destruct (vs_name_dotted vs H) as (E & R1 & R2). rewrite E. unfold is_version.
  pose proof (major_range hb). pose proof (minor_range hb). split.
  - intros D. apply dotted_inj in D; lia.
  - intros [-> ->]. reflexivity.
Qed.

Lemma is_version_dec vs hb : {is_version vs hb} + {~ is_version vs hb}.
Proof.
  unfold is_version. destruct (Z.eq_dec (major_of hb) (vs_major vs)); [|right; tauto].
  destruct (Z.eq_dec (minor_of hb) (vs_minor vs)); [left; tauto|right; tauto].
Qed.

Lemma is_version_unique vs ws hb : In vs spec_versions -> In ws spec_versions ->
  is_version vs hb -> is_version ws hb -> vs = ws.
Proof.
  intros H1 H2 V1 V2. apply is_version_name in V1; [|exact H1]. apply is_version_name in V2; [|exact H2].
  destruct (table_spec vs H1) as [c1 T1]. destruct (table_spec ws H2) as [c2 T2].
  assert (vs_name vs = vs_name ws) as E by congruence. clear -H1 H2 E.
  unfold spec_versions in *. cbn [In] in *.
  repeat (destruct H1 as [<-|H1];
          [repeat (destruct H2 as [<-|H2]; [first [reflexivity|discriminate E]|]); destruct H2|]).
  destruct H1.
Qed.

(** Supported or not. *)
Lemma supported_dec hb :
  (exists vs c, In (vs, c) table /\ is_version vs hb) \/
  (forall vs, In vs spec_versions -> ~ is_version vs hb).
Proof.
  destruct (Exists_dec (fun vs => is_version vs hb) spec_versions (fun vs => is_version_dec vs hb)) as [H|H].
  - left. apply Exists_exists in H as (vs & H1 & H2). destruct (table_spec vs H1) as [c Hc]. eauto.
  - right. intros vs Hi Hv. apply H. apply Exists_exists. eauto.
Qed.

(** ** The compatibility check *)

Lemma in_hdr_pstatlen vs : vs_major vs = 1 -> In ("pstatlen"%string, 32, U32) (header_fields vs).
Proof. intros H. unfold header_fields. rewrite H. apply in_or_app; left; cbn [In]; tauto. Qed.
Lemma in_hdr_tstatlen vs : vs_major vs <> 1 -> In ("tstatlen"%string, 32, U32) (header_fields vs).
Proof.
  intros H. unfold header_fields. destruct (Z.eqb_spec (vs_major vs) 1); [contradiction|].
  apply in_or_app; left; cbn [In]; tauto.
Qed.
Lemma in_hdr_cstatlen vs n : vs_cstat vs = Some n -> In ("cstatlen"%string, 456, I32) (header_fields vs).
Proof.
  intros H. unfold header_fields. rewrite H. apply in_or_app; right. apply in_or_app; right.
  left. reflexivity.
Qed.

(** Which versions have what. *)
Lemma version_shape_b :
  forallb (fun vs => (Bool.eqb (vs_major vs =? 1) (negb ((2 <=? vs_major vs) && (3 <=? vs_minor vs)))) &&
                     (Bool.eqb (match vs_cstat vs with Some _ => true | None => false end)
                               ((2 <=? vs_major vs) && (11 <=? vs_minor vs)))) spec_versions = true.
Proof. vm_compute. reflexivity. Qed.

Lemma version_shape vs : In vs spec_versions ->
  (vs_major vs =? 1) = negb ((2 <=? vs_major vs) && (3 <=? vs_minor vs)) /\
  ((2 <=? vs_major vs) && (11 <=? vs_minor vs)) = match vs_cstat vs with Some _ => true | None => false end.
Proof.
  intros H. pose proof version_shape_b as T. rewrite forallb_forall in T. specialize (T vs H). cbv beta in T.
  rewrite andb_true_iff, !eqb_true_iff in T. destruct T as [-> <-]. auto.
Qed.

Definition sizes_match_b (vs : vspec) (hb : list byte) : bool :=
  (u16_at hb 10 =? header_size) && (u16_at hb 12 =? vs_rec vs) && (u32_at hb 28 =? vs_sstat vs) &&
  (u32_at hb 32 =? vs_tstat vs) &&
  match vs_cstat vs with Some n => i32_at hb 456 =? n | None => true end.

Lemma sizes_match_b_spec vs hb : sizes_match_b vs hb = true <-> sizes_match vs hb.
Proof.
  unfold sizes_match_b, sizes_match. rewrite !andb_true_iff, !Z.eqb_eq.
  destruct (vs_cstat vs); [rewrite Z.eqb_eq|]; tauto.
Qed.

Ltac by_sizes :=
  repeat match goal with |- context [?a =? ?b] => destruct (a =? b) end;
  cbn [negb orb andb]; first [reflexivity | eexists; reflexivity].

Lemma check_supported vs c hb : In (vs, c) table -> is_version vs hb ->
  if sizes_match_b vs hb then check_compatibility (mkHdr c hb) = Ok tt
  else exists l, check_compatibility (mkHdr c hb) = Raise (ValueError (Incompatible l)).
Proof.
  intros Hc [V1 V2]. destruct (table_sizes vs c Hc) as (_ & S1 & S2 & S3 & S4 & S5).
  destruct (version_shape vs (proj1 (table_class vs c Hc))) as [P1 P2].
  unfold check_compatibility. cbn [h_class]. rewrite h_obj_mk.
  rewrite (header_getint vs c hb _ _ _ Hc (in_hdr_rawheadlen vs)). cbn [rbind num_at].
  rewrite (header_getint vs c hb _ _ _ Hc (in_hdr_rawreclen vs)). cbn [rbind num_at].
  rewrite (header_getint vs c hb _ _ _ Hc (in_hdr_sstatlen vs)). cbn [rbind num_at].
  rewrite !(version_at_least_spec vs c Hc). rewrite V1, V2. rewrite P2. cbn [rbind].
  destruct ((2 <=? vs_major vs) && (3 <=? vs_minor vs)) eqn:E3; cbn [negb] in P1.
  - rewrite (header_getint vs c hb _ _ _ Hc (in_hdr_tstatlen vs ltac:(lia))). cbn [rbind num_at].
    unfold sizes_match_b. rewrite S1, S2, S3, S4.
    destruct (vs_cstat vs) as [n|] eqn:Ec.
    + destruct S5 as (ct & -> & ->).
      rewrite (header_getint vs c hb _ _ _ Hc (in_hdr_cstatlen vs n Ec)). cbn [rbind num_at app existsb fst snd].
      by_sizes.
    + cbn [rbind app existsb fst snd]. by_sizes.
  - rewrite (header_getint vs c hb _ _ _ Hc (in_hdr_pstatlen vs ltac:(lia))). cbn [rbind num_at].
    unfold sizes_match_b. rewrite S1, S2, S3, S4.
    destruct (vs_cstat vs) as [n|] eqn:Ec; [lia|].
    cbn [rbind app existsb fst snd]. by_sizes.
Qed.

(** Any version read with the latest class. *)
Definition fallback_sizes_b (hb : list byte) : bool :=
  (u16_at hb 10 =? header_size) && (u16_at hb 12 =? vs_rec latest) && (u32_at hb 28 =? vs_sstat latest) &&
  (u32_at hb 32 =? vs_tstat latest) &&
  (if 11 <=? minor_of hb then i32_at hb 456 =? 432 else true).

Lemma check_fallback hb :
  if (2 <=? major_of hb) && (3 <=? minor_of hb) then
    if fallback_sizes_b hb then check_compatibility (mkHdr a2_12_class hb) = Ok tt
    else exists l, check_compatibility (mkHdr a2_12_class hb) = Raise (ValueError (Incompatible l))
  else check_compatibility (mkHdr a2_12_class hb) = Raise (AttributeError "pstatlen").
Proof.
  pose proof latest_in as Hc. set (c := a2_12_class) in *.
  destruct (table_sizes latest c Hc) as (_ & S1 & S2 & S3 & S4 & (ct & S5 & S6)).
  unfold check_compatibility. cbn [h_class]. rewrite h_obj_mk.
  rewrite (header_getint latest c hb _ _ _ Hc (in_hdr_rawheadlen latest)). cbn [rbind num_at].
  rewrite (header_getint latest c hb _ _ _ Hc (in_hdr_rawreclen latest)). cbn [rbind num_at].
  rewrite (header_getint latest c hb _ _ _ Hc (in_hdr_sstatlen latest)). cbn [rbind num_at].
  rewrite !(version_at_least_spec latest c Hc). cbn [rbind].
  destruct ((2 <=? major_of hb) && (3 <=? minor_of hb)) eqn:E3.
  - rewrite (header_getint latest c hb _ _ _ Hc (in_hdr_tstatlen latest ltac:(cbn; lia))). cbn [rbind num_at].
    unfold fallback_sizes_b. rewrite S1, S2, S3, S4.
    destruct (11 <=? minor_of hb) eqn:E11.
    + replace (2 <=? major_of hb) with true by lia. cbn [andb]. rewrite S5.
      rewrite (header_getint latest c hb _ _ _ Hc (in_hdr_cstatlen latest 432 eq_refl)). cbn [rbind num_at app existsb fst snd].
      rewrite S6. by_sizes.
    + rewrite andb_false_r. cbn [rbind app existsb fst snd]. by_sizes.
  - replace (getint (mkObj (hc_header c) hb) "pstatlen") with (@Raise Z (AttributeError "pstatlen")).
    + reflexivity.
    + unfold getint, getattr. cbn [o_type].
      replace (field_at (hc_header c) "pstatlen") with (@None (Z * ctype)); [reflexivity|].
      vm_compute. reflexivity.
Qed.

(** ** get_header_of_bytes *)

Lemma header_class_size c : In c versions -> sizeof (hc_header c) = 480.
Proof.
  intros H. destruct (class_table c H) as [vs Hc]. exact (proj1 (proj2 (table_sizes vs c Hc))).
Qed.

(** The class chosen for the bytes. *)
Definition chosen (hb : list byte) (c : hclass) : Prop :=
  (exists vs, In (vs, c) table /\ is_version vs hb) \/
  ((forall vs, In vs spec_versions -> ~ is_version vs hb) /\ c = a2_12_class).

Lemma chosen_exists hb : exists c, chosen hb c.
Proof.
  destruct (supported_dec hb) as [(vs & c & H1 & H2)|H].
  - exists c. left. eauto.
  - exists a2_12_class. right. auto.
Qed.

Lemma chosen_in hb c : chosen hb c -> In c versions.
Proof.
  intros [(vs & H & _)|[_ ->]]; [apply (table_class vs c H)|exact (proj2 (table_class _ _ latest_in))].
Qed.

Lemma default_magic hb : getint (h_obj (mkHdr default_class hb)) "magic" = Ok (magic_of hb).
Proof.
  rewrite default_class_is, h_obj_mk. exact (header_getint latest _ hb _ _ _ latest_in (in_hdr_magic latest)).
Qed.

Lemma get_header_bad_magic hb check : magic_of hb <> magic_number ->
  get_header_of_bytes hb check = Raise (ValueError (BadMagic (magic_of hb))).
Proof.
  intros H. unfold get_header_of_bytes. rewrite default_magic. cbn [rbind].
  change MAGIC with magic_number. replace (magic_of hb =? magic_number) with false by lia. reflexivity.
Qed.

Lemma get_header_good_magic hb check c : zlen hb = 480 -> magic_of hb = magic_number -> chosen hb c ->
  get_header_of_bytes hb check =
  if check then (let? _ := check_compatibility (mkHdr c hb) in Ok (mkHdr c hb)) else Ok (mkHdr c hb).
Proof.
  intros Hl Hm Hc. unfold get_header_of_bytes. rewrite default_magic. cbn [rbind].
  change MAGIC with magic_number. rewrite Hm, Z.eqb_refl. cbn [negb].
  rewrite default_class_is, (semantic_version_spec _ _ latest_in). cbn [rbind].
  destruct Hc as [(vs & Ht & Hv)|[Hn ->]].
  - pose proof (proj1 (table_class vs c Ht)) as Hs.
    rewrite <- (proj2 (is_version_name vs hb Hs) Hv).
    rewrite (assoc_version vs c Ht).
    rewrite (header_class_size c) by (apply (table_class vs c Ht)).
    replace (zlen hb <? 480) with false by lia. rewrite (ztake_all 480) by lia.
    destruct (String.eqb_spec (vs_name vs) default_version) as [E|E]; cbn [negb rbind]; [|reflexivity].
    assert (c = a2_12_class) as ->; [|reflexivity].
    pose proof (assoc_version vs c Ht) as A. rewrite E in A.
    pose proof (assoc_version _ _ latest_in) as B. change (vs_name latest) with default_version in B. congruence.
  - rewrite assoc_version_none.
    + destruct (negb _); reflexivity.
    + intros vs Hs E. apply is_version_name in E; [|exact Hs]. exact (Hn vs Hs E).
Qed.

(** ** get_header on files *)

(** What a fresh header holds after reading [b]. *)
Definition padded (b : list byte) : list byte := ztake 480 b ++ zeros (480 - zlen b).

Lemma zlen_padded b : zlen (padded b) = 480.
Proof. unfold padded. rewrite zlen_app, zlen_ztake, zlen_zeros. pose proof (zlen_nonneg b). lia. Qed.

Lemma padded_exact hb rest : zlen hb = 480 -> padded (hb ++ rest) = hb.
Proof.
  intros H. unfold padded. rewrite ztake_exact, zlen_app by assumption. pose proof (zlen_nonneg rest).
  unfold zeros. replace (Z.to_nat (480 - (zlen hb + zlen rest))) with 0%nat by lia. apply app_nil_r.
Qed.

Lemma get_header_plain check b :
  get_header check (plain b) = (get_header_of_bytes (padded b) check, plain (zdrop 480 b)).
Proof.
  unfold get_header, mbind. change (sizeof (hc_header default_class)) with 480.
  rewrite freadinto_plain. unfold mlift. f_equal. f_equal. unfold padded. f_equal.
  rewrite zlen_ztake. pose proof (zlen_nonneg b). unfold zeros. f_equal. lia.
Qed.

Lemma at8_padded b i : 0 <= i < 480 -> at8 (padded b) i = at8 b i.
Proof.
  intros H. unfold padded. rewrite at8_zeros. unfold at8, ztake.
  rewrite <- (firstn_skipn (Z.to_nat 480) b) at 2.
  destruct (Nat.lt_ge_cases (Z.to_nat i) (List.length (firstn (Z.to_nat 480) b))).
  - rewrite app_nth1 by assumption. reflexivity.
  - rewrite nth_overflow by assumption. rewrite firstn_length in H0.
    rewrite firstn_skipn, nth_overflow by lia. reflexivity.
Qed.

Lemma u16_padded b i : 0 <= i -> i + 2 <= 480 -> u16_at (padded b) i = u16_at b i.
Proof. intros. unfold u16_at. rewrite !at8_padded by lia. reflexivity. Qed.
Lemma u32_padded b i : 0 <= i -> i + 4 <= 480 -> u32_at (padded b) i = u32_at b i.
Proof. intros. unfold u32_at. rewrite !u16_padded by lia. reflexivity. Qed.
Lemma i32_padded b i : 0 <= i -> i + 4 <= 480 -> i32_at (padded b) i = i32_at b i.
Proof. intros. unfold i32_at. rewrite !u32_padded by lia. reflexivity. Qed.

Lemma magic_padded b : magic_of (padded b) = magic_of b.
Proof. unfold magic_of. apply u32_padded; lia. Qed.
Lemma aversion_padded b : aversion_of (padded b) = aversion_of b.
Proof. unfold aversion_of. apply u16_padded; lia. Qed.
Lemma major_padded b : major_of (padded b) = major_of b.
Proof. unfold major_of. rewrite aversion_padded. reflexivity. Qed.
Lemma minor_padded b : minor_of (padded b) = minor_of b.
Proof. unfold minor_of. rewrite aversion_padded. reflexivity. Qed.
Lemma is_version_padded vs b : is_version vs (padded b) <-> is_version vs b.
Proof. unfold is_version. rewrite major_padded, minor_padded. tauto. Qed.
Lemma sizes_match_padded vs b : sizes_match vs (padded b) <-> sizes_match vs b.
Proof.
  unfold sizes_match. rewrite !u16_padded, !u32_padded, i32_padded by lia. tauto.
Qed.
Lemma fallback_padded b : fallback_sizes_b (padded b) = fallback_sizes_b b.
Proof.
  unfold fallback_sizes_b. rewrite !u16_padded, !u32_padded, i32_padded, minor_padded by lia. reflexivity.
Qed.
Lemma chosen_padded b c : chosen (padded b) c <-> chosen b c.
Proof.
  unfold chosen. split; (intros [(vs & H1 & H2)|[H1 H2]]; [left; exists vs; split; [exact H1|apply is_version_padded; exact H2]|
    right; split; [intros vs Hs Hv; apply (H1 vs Hs); apply is_version_padded; exact Hv|exact H2]]).
Qed.

(** Every outcome of get_header on a plain file. *)
Lemma get_header_cases check b :
  magic_of b <> magic_number /\
    get_header check (plain b) = (Raise (ValueError (BadMagic (magic_of b))), plain (zdrop 480 b))
  \/ magic_of b = magic_number /\ exists c, chosen b c /\
     (get_header check (plain b) = (Ok (mkHdr c (padded b)), plain (zdrop 480 b)) /\
        (check = true -> check_compatibility (mkHdr c (padded b)) = Ok tt)
      \/ check = true /\ exists e, check_compatibility (mkHdr c (padded b)) = Raise e /\
         get_header check (plain b) = (Raise e, plain (zdrop 480 b))).
Proof.
  rewrite get_header_plain. destruct (Z.eq_dec (magic_of b) magic_number) as [M|M].
  - right. split; [exact M|]. destruct (chosen_exists b) as [c C]. exists c. split; [exact C|].
    rewrite (get_header_good_magic (padded b) check c).
    + destruct check; [|left; split; [reflexivity|discriminate]].
      destruct (check_compatibility _) as [[]|e] eqn:E; cbn [rbind]; [left; auto|right; eauto].
    + apply zlen_padded.
    + rewrite magic_padded. exact M.
    + apply chosen_padded. exact C.
  - left. split; [exact M|]. rewrite get_header_bad_magic; rewrite magic_padded; auto.
Qed.

Lemma get_header_supported check vs c b : In (vs, c) table -> magic_of b = magic_number -> is_version vs b ->
  if negb check || sizes_match_b vs b
  then get_header check (plain b) = (Ok (mkHdr c (padded b)), plain (zdrop 480 b))
  else exists l, get_header check (plain b) = (Raise (ValueError (Incompatible l)), plain (zdrop 480 b)).
Proof.
  intros Hc Hm Hv. rewrite get_header_plain.
  rewrite (get_header_good_magic (padded b) check c); [|apply zlen_padded|rewrite magic_padded; exact Hm|].
  - destruct check; cbn [negb orb]; [|reflexivity].
    pose proof (check_supported vs c (padded b) Hc (proj2 (is_version_padded vs b) Hv)) as K.
    replace (sizes_match_b vs (padded b)) with (sizes_match_b vs b) in K.
    + destruct (sizes_match_b vs b); [rewrite K; reflexivity|].
      destruct K as [l ->]. eexists. reflexivity.
    + pose proof (sizes_match_b_spec vs b). pose proof (sizes_match_b_spec vs (padded b)).
      pose proof (sizes_match_padded vs b).
      destruct (sizes_match_b vs b), (sizes_match_b vs (padded b)); intuition congruence.
  - left. exists vs. split; [exact Hc|]. apply is_version_padded. exact Hv.
Qed.

Lemma get_header_unsupported check b : magic_of b = magic_number ->
  (forall vs, In vs spec_versions -> ~ is_version vs b) ->
  if negb check then get_header check (plain b) = (Ok (mkHdr a2_12_class (padded b)), plain (zdrop 480 b))
  else if (2 <=? major_of b) && (3 <=? minor_of b) then
    if fallback_sizes_b b
    then get_header check (plain b) = (Ok (mkHdr a2_12_class (padded b)), plain (zdrop 480 b))
    else exists l, get_header check (plain b) = (Raise (ValueError (Incompatible l)), plain (zdrop 480 b))
  else get_header check (plain b) = (Raise (AttributeError "pstatlen"), plain (zdrop 480 b)).
Proof.
  intros Hm Hv. rewrite get_header_plain.
  rewrite (get_header_good_magic (padded b) check a2_12_class); [|apply zlen_padded|rewrite magic_padded; exact Hm|].
  - destruct check; cbn [negb]; [|reflexivity].
    pose proof (check_fallback (padded b)) as K.
    rewrite major_padded, minor_padded, fallback_padded in K.
    destruct ((2 <=? major_of b) && (3 <=? minor_of b)); [|rewrite K; reflexivity].
    destruct (fallback_sizes_b b); [rewrite K; reflexivity|]. destruct K as [l ->]. eexists. reflexivity.
  - right. split; [|reflexivity]. intros vs Hs H. apply (Hv vs Hs). apply is_version_padded. exact H.
Qed.

(** Consumption, on any file object. *)
Lemma get_header_consumes check f h f' : get_header check f = (Ok h, f') ->
  f_rem f' = zdrop 480 (f_rem f) /\ f_fault f' = f_fault f.
Proof.
  unfold get_header, mbind. change (sizeof (hc_header default_class)) with 480.
  unfold freadinto, fread. destruct (480 <=? zlen (f_rem f)) eqn:E.
  - intros H. unfold mlift in H. injection H as _ <-. split; reflexivity.
  - destruct (f_fault f) eqn:F; [discriminate|]. intros H. unfold mlift in H. injection H as _ <-.
    cbn [f_rem f_fault]. rewrite zdrop_all by lia. auto.
Qed.
