(** * C52: what the error texts say *)
From Coq Require Import List ZArith Lia Bool String.
From Coq Require Import Init.Byte.
From Verif Require Import PyBase BaseProofs CTypes S_shared S_2_12 Model Parsers Json Spec SpecJson JsonProofs TableProofs HeaderProofs
  PropHeader Messages SpecMessage LogBuild.
Import ListNotations.
Local Open Scope list_scope.
Local Open Scope Z_scope.

Lemma text_codes s : text s = codes s.
Proof. unfold codes. induction s as [|c s IH]; [reflexivity|]. cbn [text list_ascii_of_string map]. rewrite IH. reflexivity. Qed.

(** ** Hexadecimal *)

Definition hexval (a c : Z) : Z := 16 * a + (if c <=? 57 then c - 48 else c - 87).

Lemma hexdigit_val d : 0 <= d < 16 ->
  (if hexdigit d <=? 57 then hexdigit d - 48 else hexdigit d - 87) = d /\
  (48 <= hexdigit d <= 57 \/ 97 <= hexdigit d <= 102) /\ (hexdigit d = 48 -> d = 0).
Proof. intros H. unfold hexdigit. destruct (Z.ltb_spec d 10); match goal with |- context [?a <=? 57] => destruct (Z.leb_spec a 57) end; lia. Qed.

Lemma hex_digits_spec fuel n acc : 0 <= n -> n < 16 ^ Z.of_nat fuel -> (0 < fuel)%nat ->
  exists ds, hex_digits fuel n acc = ds ++ acc /\ ds <> [] /\ (hd 49 ds = 48 -> ds = [48]) /\
    (forall c, In c ds -> 48 <= c <= 57 \/ 97 <= c <= 102) /\ forall a, fold_left hexval ds a = a * 16 ^ zlen ds + n.
Proof.
  revert n acc. induction fuel as [|k IH]; intros n acc Hn Hl Hf; [lia|]. cbn [hex_digits].
  destruct (hexdigit_val (n mod 16) ltac:(apply Z.mod_pos_bound; lia)) as (V & R & Z0).
  destruct (Z.ltb_spec n 16) as [L|L].
  - exists [hexdigit (n mod 16)]. rewrite Z.mod_small in * by lia. split; [reflexivity|]. split; [discriminate|].
    split; [cbn; intros E; rewrite E; reflexivity|]. split.
    + intros c [<-|[]]. exact R.
    + intros a. cbn [fold_left]. unfold hexval. rewrite V. change (zlen [hexdigit n]) with 1. lia.
  - assert (0 < k)%nat as Hk.
    { destruct k; [|lia]. change (16 ^ Z.of_nat 1) with 16 in Hl. lia. }
    destruct (IH (n / 16) (hexdigit (n mod 16) :: acc)) as (ds & E & Ne & H0 & Rg & F).
    + apply Z.div_pos; lia.
    + rewrite Nat2Z.inj_succ, Z.pow_succ_r in Hl by lia. apply Z.div_lt_upper_bound; lia.
    + exact Hk.
    + exists (ds ++ [hexdigit (n mod 16)]). rewrite E, <- app_assoc. split; [reflexivity|].
      split; [destruct ds; discriminate|]. split.
      * destruct ds as [|d ds]; [congruence|]. cbn [hd app]. intros X. exfalso. subst d.
        specialize (H0 eq_refl). injection H0 as ->. specialize (F 0). change (fold_left hexval [48] 0) with 0 in F.
        assert (1 <= n / 16) by (apply Z.div_le_lower_bound; lia). lia.
      * split; [intros c Hc; apply in_app_or in Hc as [Hc|[<-|[]]]; auto|].
        intros a. rewrite fold_left_app, F. cbn [fold_left]. unfold hexval. rewrite V, zlen_app.
        change (zlen [hexdigit (n mod 16)]) with 1. rewrite Z.pow_add_r by (pose proof (zlen_nonneg ds); lia).
        pose proof (Z.div_mod n 16 ltac:(lia)). lia.
Qed.

Lemma py_hex_reads n : 0 <= n -> hex_reads (py_hex n) n.
Proof.
  intros H. unfold py_hex. destruct (hex_digits_spec (S (Z.to_nat (Z.log2 n))) n []) as (ds & E & Ne & H0 & Rg & F).
  - exact H.
  - rewrite Nat2Z.inj_succ, Z2Nat.id by apply Z.log2_nonneg.
    destruct (Z.eq_dec n 0) as [->|N]; [apply Z.pow_pos_nonneg; pose proof (Z.log2_nonneg 0); lia|].
    pose proof (Z.log2_spec n ltac:(lia)) as [_ L]. eapply Z.lt_le_trans; [exact L|].
    apply Z.pow_le_mono_l. lia.
  - lia.
  - exists ds. rewrite E, app_nil_r, text_codes. repeat split; auto. specialize (F 0). unfold hexval in F. rewrite F. lia.
Qed.

Lemma hex_reads_fun s n m : hex_reads s n -> hex_reads s m -> n = m.
Proof.
  intros (d1 & E1 & _ & _ & _ & V1) (d2 & E2 & _ & _ & _ & V2). rewrite E1 in E2. apply app_inv_head in E2. congruence.
Qed.

(** ** The rows *)

Lemma repr_tuple_reads r : row_reads (repr_tuple r) r.
Proof.
  destruct r as [[n f] e]. exists (text (str_of_int f)), (text (str_of_int e)). rewrite !int_text_str.
  split; [|auto]. unfold repr_tuple. rewrite <- !text_codes. reflexivity.
Qed.

Lemma repr_tuples_read l : l <> [] -> rows_read (repr_tuples l) l.
Proof.
  induction l as [|r l IH]; [congruence|]. intros _. destruct l as [|r' l].
  - cbn [repr_tuples]. constructor. apply repr_tuple_reads.
  - change (repr_tuples (r :: r' :: l)) with (repr_tuple r ++ text ", " ++ repr_tuples (r' :: l)).
    rewrite text_codes. constructor; [apply repr_tuple_reads|]. apply IH. discriminate.
Qed.

(** ** The lists in the exception *)

Lemma check_supported_list vs c hb l : In (vs, c) table -> is_version vs hb ->
  check_compatibility (mkHdr c hb) = Raise (ValueError (Incompatible l)) -> l = lengths_of vs hb.
Proof.
  intros Hc [V1 V2]. destruct (table_sizes vs c Hc) as (_ & S1 & S2 & S3 & S4 & S5).
  destruct (version_shape vs (proj1 (table_class vs c Hc))) as [P1 P2].
  unfold check_compatibility. cbn [h_class]. rewrite h_obj_mk.
  rewrite (header_getint vs c hb _ _ _ Hc (in_hdr_rawheadlen vs)). cbn [rbind num_at].
  rewrite (header_getint vs c hb _ _ _ Hc (in_hdr_rawreclen vs)). cbn [rbind num_at].
  rewrite (header_getint vs c hb _ _ _ Hc (in_hdr_sstatlen vs)). cbn [rbind num_at].
  rewrite !(version_at_least_spec vs c Hc). rewrite V1, V2. rewrite P2. cbn [rbind]. unfold lengths_of. rewrite P1.
  destruct ((2 <=? vs_major vs) && (3 <=? vs_minor vs)) eqn:E3; cbn [negb] in *.
  - rewrite (header_getint vs c hb _ _ _ Hc (in_hdr_tstatlen vs ltac:(lia))). cbn [rbind num_at].
    rewrite S1, S2, S3, S4. destruct (vs_cstat vs) as [n|] eqn:Ec.
    + destruct S5 as (ct & -> & ->).
      rewrite (header_getint vs c hb _ _ _ Hc (in_hdr_cstatlen vs n Ec)). cbn [rbind num_at app].
      destruct (existsb _ _); [|discriminate]. intros [= <-]. reflexivity.
    + cbn [rbind app]. destruct (existsb _ _); [|discriminate]. intros [= <-]. reflexivity.
  - rewrite (header_getint vs c hb _ _ _ Hc (in_hdr_pstatlen vs ltac:(lia))). cbn [rbind num_at].
    rewrite S1, S2, S3, S4. destruct (vs_cstat vs) as [n|] eqn:Ec; [lia|]. cbn [rbind app].
    destruct (existsb _ _); [|discriminate]. intros [= <-]. reflexivity.
Qed.

Lemma check_fallback_list hb l :
  check_compatibility (mkHdr a2_12_class hb) = Raise (ValueError (Incompatible l)) -> l = unknown_lengths_of hb.
Proof.
  pose proof latest_in as Hc. set (c := a2_12_class) in *.
  destruct (table_sizes latest c Hc) as (_ & S1 & S2 & S3 & S4 & (ct & S5 & S6)).
  unfold check_compatibility. cbn [h_class]. rewrite h_obj_mk.
  rewrite (header_getint latest c hb _ _ _ Hc (in_hdr_rawheadlen latest)). cbn [rbind num_at].
  rewrite (header_getint latest c hb _ _ _ Hc (in_hdr_rawreclen latest)). cbn [rbind num_at].
  rewrite (header_getint latest c hb _ _ _ Hc (in_hdr_sstatlen latest)). cbn [rbind num_at].
  rewrite !(version_at_least_spec latest c Hc). cbn [rbind].
  destruct ((2 <=? major_of hb) && (3 <=? minor_of hb)) eqn:E3.
  - rewrite (header_getint latest c hb _ _ _ Hc (in_hdr_tstatlen latest ltac:(cbn; lia))). cbn [rbind num_at].
    rewrite S1, S2, S3, S4. unfold unknown_lengths_of.
    destruct (11 <=? minor_of hb) eqn:E11.
    + replace (2 <=? major_of hb) with true by lia. cbn [andb]. rewrite S5.
      rewrite (header_getint latest c hb _ _ _ Hc (in_hdr_cstatlen latest 432 eq_refl)). cbn [rbind num_at app].
      rewrite S6. destruct (existsb _ _); [|discriminate]. intros [= <-]. reflexivity.
    + rewrite andb_false_r. cbn [rbind app]. destruct (existsb _ _); [|discriminate]. intros [= <-]. reflexivity.
  - replace (getint (mkObj (hc_header c) hb) "pstatlen") with (@Raise Z (AttributeError "pstatlen")).
    + discriminate.
    + unfold getint, getattr. cbn [o_type].
      replace (field_at (hc_header c) "pstatlen") with (@None (Z * ctype)); [reflexivity|].
      vm_compute. reflexivity.
Qed.

Lemma lengths_padded vs b : lengths_of vs (padded b) = lengths_of vs b.
Proof. unfold lengths_of. rewrite !u16_padded, !u32_padded, i32_padded by lia. reflexivity. Qed.
Lemma unknown_lengths_padded b : unknown_lengths_of (padded b) = unknown_lengths_of b.
Proof. unfold unknown_lengths_of. rewrite !u16_padded, !u32_padded, i32_padded, minor_padded by lia. reflexivity. Qed.

Lemma message_incompatible l : l <> [] -> exists t,
  message (ValueError (Incompatible l)) = Some (codes incompatible_text ++ codes "[" ++ t ++ codes "]") /\ rows_read t l.
Proof.
  intros H. exists (repr_tuples l). split; [|apply repr_tuples_read; exact H]. unfold message. rewrite <- !text_codes. reflexivity.
Qed.

(** ** C52 *)

(** A file with the wrong magic: the text ends in the magic number found. *)
Theorem C52_wrong_magic_text check b :
  magic_of b <> magic_number ->
  exists e t, fst (get_header check (plain b)) = Raise (ValueError e) /\
    message (ValueError e) = Some (codes wrong_magic_text ++ t) /\ hex_reads t (magic_of b).
Proof.
  intros H. exists (BadMagic (magic_of b)), (py_hex (magic_of b)). split; [apply C02_not_atop_rejected; exact H|].
  split; [unfold message; rewrite !text_codes; reflexivity|]. apply py_hex_reads. unfold magic_of.
  pose proof (u32_range b 0). lia.
Qed.

(** A file of a supported version with wrong lengths: the text lists all lengths, found and
    expected. *)
Theorem C52_incompatible_text vs b :
  In vs spec_versions -> magic_of b = magic_number -> is_version vs b -> ~ sizes_match vs b ->
  exists e t, fst (get_header true (plain b)) = Raise (ValueError e) /\
    message (ValueError e) = Some (codes incompatible_text ++ codes "[" ++ t ++ codes "]") /\
    rows_read t (lengths_of vs b).
Proof.
  intros Hvs M V N. destruct (table_spec _ Hvs) as (c & Hc).
  pose proof (get_header_supported true vs c b Hc M V) as G. cbn [negb orb] in G.
  destruct (sizes_match_b vs b) eqn:E; [apply sizes_match_b_spec in E; tauto|]. destruct G as (l & G).
  assert (l = lengths_of vs b) as ->.
  { rewrite <- (lengths_padded vs b). apply (check_supported_list vs c (padded b) l Hc); [apply is_version_padded; exact V|].
    rewrite get_header_plain, (get_header_good_magic (padded b) true c) in G;
      [|apply zlen_padded|rewrite magic_padded; exact M|left; exists vs; split; [exact Hc|apply is_version_padded; exact V]].
    destruct (check_compatibility (mkHdr c (padded b))); cbn [rbind] in G; [discriminate G|]. congruence. }
  destruct (message_incompatible (lengths_of vs b)) as (t & Et & Rt); [discriminate|].
  exists (Incompatible (lengths_of vs b)), t. rewrite G. auto.
Qed.

(** A file of an unknown version that is refused with a ValueError. *)
Theorem C52_unknown_version_text b v :
  magic_of b = magic_number -> (forall vs, In vs spec_versions -> ~ is_version vs b) -> fst (get_header true (plain b)) = Raise (ValueError v) ->
  exists t, message (ValueError v) = Some (codes incompatible_text ++ codes "[" ++ t ++ codes "]") /\
    rows_read t (unknown_lengths_of b) /\ exists row, In row (unknown_lengths_of b) /\ snd (fst row) <> snd row.
Proof.
  intros M U H. pose proof (get_header_unsupported true b M U) as G. cbn [negb] in G.
  destruct ((2 <=? major_of b) && (3 <=? minor_of b)) eqn:V; [|rewrite G in H; discriminate H].
  destruct (fallback_sizes_b b) eqn:E; [rewrite G in H; discriminate H|]. destruct G as (l & G). rewrite G in H.
  injection H as <-.
  assert (l = unknown_lengths_of b) as ->.
  { rewrite <- unknown_lengths_padded. apply check_fallback_list.
    rewrite get_header_plain, (get_header_good_magic (padded b) true a2_12_class) in G;
      [|apply zlen_padded|rewrite magic_padded; exact M|].
    - destruct (check_compatibility (mkHdr a2_12_class (padded b))); cbn [rbind] in G; [discriminate G|]. congruence.
    - right. split; [|reflexivity]. intros vs Hs X. apply (U vs Hs). apply is_version_padded. exact X. }
  destruct (message_incompatible (unknown_lengths_of b)) as (t & Et & Rt); [discriminate|].
  exists t. split; [exact Et|]. split; [exact Rt|]. unfold fallback_sizes_b in E. unfold unknown_lengths_of.
  change (vs_rec latest) with 96 in E. change (vs_sstat latest) with 1064016 in E. change (vs_tstat latest) with 968 in E.
  unfold header_size in E.
  destruct (Z.eqb_spec (u16_at b 10) 480) as [E1|E1]; [|exists ("Header"%string, u16_at b 10, 480); split; [left; reflexivity|exact E1]].
  destruct (Z.eqb_spec (u16_at b 12) 96) as [E2|E2]; [|exists ("Record"%string, u16_at b 12, 96); split; [right; left; reflexivity|exact E2]].
  destruct (Z.eqb_spec (u32_at b 28) 1064016) as [E3|E3]; [|exists ("SStat"%string, u32_at b 28, 1064016); split; [do 2 right; left; reflexivity|exact E3]].
  destruct (Z.eqb_spec (u32_at b 32) 968) as [E4|E4]; [|exists ("TStat"%string, u32_at b 32, 968); split; [do 3 right; left; reflexivity|exact E4]].
  destruct (11 <=? minor_of b); [|discriminate E].
  exists ("CStat"%string, i32_at b 456, 432). split; [do 4 right; left; reflexivity|]. cbn [andb] in E. cbn [fst snd]. lia.
Qed.

(** ** The text determines what was found *)

Lemma split_at_comma a b r s : ~ In 44 a -> ~ In 44 b -> a ++ 44 :: r = b ++ 44 :: s -> a = b /\ r = s.
Proof.
  revert b. induction a as [|x a IH]; intros [|y b] Ha Hb E; cbn [app] in E.
  - injection E as ->. auto.
  - injection E as E0 _. exfalso. apply Hb. left. congruence.
  - injection E as E0 _. exfalso. apply Ha. left. congruence.
  - injection E as -> E. destruct (IH b) as (-> & ->); [intros X; apply Ha; right; exact X|intros X; apply Hb; right; exact X|exact E|auto].
Qed.

Lemma int_text_chars t z : int_text t = Some z -> forall c, In c t -> c = 45 \/ 48 <= c <= 57.
Proof.
  unfold int_text. destruct (is_number t); [|discriminate]. destruct t as [|x t]; [discriminate|].
  destruct (Z.eqb_spec x 45) as [->|Hx].
  - destruct (forallb is_digit t) eqn:D; [|discriminate]. intros _ c [<-|Hc]; [auto|]. rewrite forallb_forall in D.
    specialize (D _ Hc). unfold is_digit in D. lia.
  - destruct (forallb is_digit (x :: t)) eqn:D; [|discriminate]. intros _ c Hc. rewrite forallb_forall in D.
    specialize (D _ Hc). unfold is_digit in D. lia.
Qed.

Lemma row_split n f e n' f' e' s s' r r' :
  ~ In 44 (codes n) -> ~ In 44 (codes n') ->
  row_reads s (n, f, e) -> row_reads s' (n', f', e') ->
  s ++ 44 :: r = s' ++ 44 :: r' -> f = f' /\ e = e' /\ r = r'.
Proof.
  intros N N' (tf & te & -> & If & Ie) (tf' & te' & -> & If' & Ie') E.
  change (codes "('") with [40; 39] in E. change (codes "', ") with [39; 44; 32] in E.
  change (codes ", ") with [44; 32] in E. change (codes ")") with [41] in E.
  assert (forall t z, int_text t = Some z -> ~ In 44 t) as NC.
  { intros t z Ht X. pose proof (int_text_chars t z Ht 44 X). lia. }
  assert (forall m t u q, ([40; 39] ++ m ++ [39; 44; 32] ++ t ++ [44; 32] ++ u ++ [41]) ++ 44 :: q =
            [40; 39] ++ (m ++ [39]) ++ 44 :: (32 :: t) ++ 44 :: (32 :: u ++ [41]) ++ 44 :: q) as Sh.
  { intros m t u q. repeat (rewrite <- app_assoc || cbn [app]). reflexivity. }
  rewrite !Sh in E. apply app_inv_head in E.
  assert (forall m, ~ In 44 m -> ~ In 44 (m ++ [39])) as A1.
  { intros m Hm X. apply in_app_or in X as [X|[X|[]]]; [tauto|discriminate X]. }
  assert (forall m, ~ In 44 m -> ~ In 44 (32 :: m)) as A2 by (intros m Hm [X|X]; [discriminate X|tauto]).
  assert (forall m, ~ In 44 m -> ~ In 44 (32 :: m ++ [41])) as A3.
  { intros m Hm [X|X]; [discriminate X|]. apply in_app_or in X as [X|[X|[]]]; [tauto|discriminate X]. }
  apply split_at_comma in E as (_ & E); [|apply A1; assumption|apply A1; assumption].
  apply split_at_comma in E as (E1 & E); [|apply A2; eapply NC; eassumption|apply A2; eapply NC; eassumption].
  apply split_at_comma in E as (E2 & E); [|apply A3; eapply NC; eassumption|apply A3; eapply NC; eassumption].
  injection E1 as ->. injection E2 as E2. apply app_inj_tail in E2 as (-> & _).
  split; [congruence|]. split; [congruence|exact E].
Qed.

Lemma rows_read_values l : forall s l', rows_read s l -> rows_read s l' ->
  map (fun r => fst (fst r)) l = map (fun r => fst (fst r)) l' ->
  (forall r, In r l -> ~ In 44 (codes (fst (fst r)))) -> l = l'.
Proof.
  assert (forall s t l l', rows_read s l -> rows_read t l' -> s ++ [44] = t ++ [44] ->
            map (fun r => fst (fst r)) l = map (fun r => fst (fst r)) l' ->
            (forall r, In r l -> ~ In 44 (codes (fst (fst r)))) -> l = l') as G.
  { clear l. intros s t l l' H. revert t l'. induction H as [s r Hr|s s2 r l Hr Hl IH]; intros t l' H' E Em Nc.
    - destruct H' as [t r' Hr'|t t2 r' l' Hr' Hl']; [|destruct Hl'; discriminate Em].
      destruct r as [[n f] e], r' as [[n' f'] e']. cbn in Em. injection Em as <-.
      pose proof (Nc _ (or_introl eq_refl)) as N. cbn [fst] in N.
      destruct (row_split n f e n f' e' s t [] [] N N Hr Hr' E) as (-> & -> & _). reflexivity.
    - destruct H' as [t r' Hr'|t t2 r' l' Hr' Hl']; [destruct Hl; discriminate Em|].
      destruct r as [[n f] e], r' as [[n' f'] e']. cbn in Em. injection Em as <- Em.
      pose proof (Nc _ (or_introl eq_refl)) as N. cbn [fst] in N.
      rewrite <- !app_assoc in E. change (codes ", ") with [44; 32] in E. cbn [app] in E.
      destruct (row_split n f e n f' e' s t _ _ N N Hr Hr' E) as (-> & -> & E2). injection E2 as E2.
      f_equal. apply (IH t2 l' Hl' E2 Em). intros r Hin. apply Nc. right. exact Hin. }
  intros s l' H H' Em Nc. exact (G s s l l' H H' eq_refl Em Nc).
Qed.

Lemma rows_determine_lengths vs b b' t :
  In vs spec_versions -> rows_read t (lengths_of vs b) -> rows_read t (lengths_of vs b') ->
  u16_at b 10 = u16_at b' 10 /\ u16_at b 12 = u16_at b' 12 /\ u32_at b 28 = u32_at b' 28 /\ u32_at b 32 = u32_at b' 32 /\
  (vs_cstat vs <> None -> i32_at b 456 = i32_at b' 456).
Proof.
  intros Hvs H H'. assert (lengths_of vs b = lengths_of vs b') as E.
  { apply (rows_read_values _ t); [exact H|exact H'| |].
    - unfold lengths_of. rewrite !map_app. cbn [map fst]. destruct (vs_cstat vs); reflexivity.
    - intros r Hr. unfold lengths_of in Hr. apply in_app_or in Hr as [Hr|Hr].
      + cbn [In] in Hr. destruct (vs_major vs =? 1);
          repeat (destruct Hr as [<-|Hr]; [cbn; intuition lia|]); destruct Hr.
      + destruct (vs_cstat vs); [|destruct Hr]. destruct Hr as [<-|[]]. cbn. intuition lia. }
  unfold lengths_of in E. cbn [app] in E.
  injection E as E1 E2 E3 E4 E5. repeat split; try assumption.
  intros N. destruct (vs_cstat vs); [|congruence]. injection E5 as E5. exact E5.
Qed.

(** Two files of the same version rejected with the same text have the same lengths in their
    headers. *)
Theorem C52_text_determines_lengths vs b b' e e' :
  In vs spec_versions -> magic_of b = magic_number -> magic_of b' = magic_number ->
  is_version vs b -> is_version vs b' ->
  fst (get_header true (plain b)) = Raise e -> fst (get_header true (plain b')) = Raise e' -> message e = message e' ->
  u16_at b 10 = u16_at b' 10 /\ u16_at b 12 = u16_at b' 12 /\ u32_at b 28 = u32_at b' 28 /\ u32_at b 32 = u32_at b' 32 /\
  (vs_cstat vs <> None -> i32_at b 456 = i32_at b' 456).
Proof.
  intros Hvs M M' V V' H H' E.
  assert (forall x ex, magic_of x = magic_number -> is_version vs x -> fst (get_header true (plain x)) = Raise ex ->
            exists t, message ex = Some (codes incompatible_text ++ codes "[" ++ t ++ codes "]") /\ rows_read t (lengths_of vs x)) as K.
  { intros x ex Mx Vx Hx. destruct (C52_incompatible_text vs x Hvs Mx Vx) as (v & t & Hv & Ht & Rt).
    - intros Sm. apply (proj1 (C05_compatibility_exact vs x Hvs Mx Vx)) in Sm as (h & Hh). congruence.
    - exists t. rewrite Hv in Hx. injection Hx as <-. auto. }
  destruct (K b e M V H) as (t & Et & Rt). destruct (K b' e' M' V' H') as (t' & Et' & Rt').
  rewrite Et, Et' in E. injection E as E. apply app_inv_tail in E. subst t'.
  exact (rows_determine_lengths vs b b' t Hvs Rt Rt').
Qed.

(** Two files rejected for their magic with the same text start with the same four bytes. *)
Theorem C52_text_determines_magic check b b' e e' :
  magic_of b <> magic_number -> magic_of b' <> magic_number ->
  fst (get_header check (plain b)) = Raise e -> fst (get_header check (plain b')) = Raise e' -> message e = message e' ->
  magic_of b = magic_of b'.
Proof.
  intros M M' H H' E. destruct (C52_wrong_magic_text check b M) as (v & t & Hv & Ht & Rt).
  destruct (C52_wrong_magic_text check b' M') as (v' & t' & Hv' & Ht' & Rt').
  rewrite H in Hv. injection Hv as ->. rewrite H' in Hv'. injection Hv' as ->.
  rewrite Ht, Ht' in E. injection E as E. subst t'. exact (hex_reads_fun t _ _ Rt Rt').
Qed.

(** ** Examples *)

Example C52_example_magic :
  exists e, fst (get_header true (plain [x50; x4b; x03; x04])) = Raise (ValueError e) /\
  message (ValueError e) = Some (codes "File does not contain raw atop output (wrong magic number): 0x4034b50").
Proof. eexists. vm_compute. split; reflexivity. Qed.

(** A 2.11 header whose record length is 0. *)
Example C52_example_lengths :
  let b := ztake 12 (make_header (mkVS "2.11" 2 11 96 1064016 968 (Some 432))) ++ [x00; x00]
           ++ zdrop 14 (make_header (mkVS "2.11" 2 11 96 1064016 968 (Some 432))) in
  exists e, fst (get_header true (plain b)) = Raise (ValueError e) /\
  message (ValueError e) = Some (codes "File has incompatible Atop format. Struct length evaluations (type, found, expected): [('Header', 480, 480), ('Record', 0, 96), ('SStat', 1064016, 1064016), ('TStat', 968, 968), ('CStat', 432, 432)]").
Proof. eexists. vm_compute. split; reflexivity. Qed.
