(** * C56: any file-like object *)
From Coq Require Import List ZArith Lia Bool String.
From Coq Require Import Init.Byte.
From Verif Require Import PyBase Utf8 CTypes S_shared S_2_12 Model Spec SpecDict SpecLog
  BaseProofs LayoutProofs RepProofs DictProofs TableProofs HeaderProofs GenProofs RunProofs SizedProofs PropHeader PropLog Inflate LogBuild AnyFile SpecAnyFile.
Import ListNotations.
Open Scope list_scope.
Open Scope Z_scope.

(** ** Programs and objects *)

Lemma with_file_bind {St} (o : fileobj St) {A B} (p : prog A) (k : A -> prog B) s :
  with_file o (pbind p k) s = with_file o (k (fst (with_file o p s))) (snd (with_file o p s)).
Proof.
  revert s. induction p as [a|q c IH]; intros s; cbn [pbind with_file]; [reflexivity|].
  destruct (o q s) as [x s1]. apply IH.
Qed.
Lemma dialogue_bind {St} (o : fileobj St) {A B} (p : prog A) (k : A -> prog B) s :
  dialogue o (pbind p k) s = dialogue o p s ++ dialogue o (k (fst (with_file o p s))) (snd (with_file o p s)).
Proof.
  revert s. induction p as [a|q c IH]; intros s; cbn [pbind with_file dialogue]; [reflexivity|].
  destruct (o q s) as [x s1]. cbn [app]. now rewrite IH.
Qed.

(** ** The file of Model.v *)

Lemma file_seq {A B} (m : P A) (k : A -> P B) (m' : M A) (k' : A -> M B) :
  (forall f, with_file file_object m f = m' f) -> (forall a f, with_file file_object (k a) f = k' a f) ->
  forall f, with_file file_object (pseq m k) f = mbind m' k' f.
Proof.
  intros E K f. unfold pseq, mbind. rewrite with_file_bind, E. destruct (m' f) as [[a|e] f1]; cbn [fst snd]; [apply K|reflexivity].
Qed.
Lemma file_read n f : with_file file_object (p_read n) f = fread n f.
Proof. unfold p_read. cbn. now destruct (fread n f). Qed.
Lemma file_readinto n f : 0 <= n -> with_file file_object (p_readinto n) f = freadinto n f.
Proof.
  intros N. unfold p_readinto, freadinto. cbn. destruct (fread n f) as [[b|e] f1] eqn:E; [|reflexivity].
  assert (zlen b <= n).
  { unfold fread in E. destruct (n <=? zlen (f_rem f)) eqn:C.
    - injection E as <- _. rewrite zlen_ztake. pose proof (zlen_nonneg (f_rem f)). lia.
    - apply Z.leb_gt in C. destruct (f_fault f); [discriminate E|]. injection E as <- _. lia. }
  now rewrite ztake_all.
Qed.
Lemma file_lift {A} (r : res A) f : with_file file_object (plift r) f = mlift r f.
Proof. reflexivity. Qed.

Lemma file_get_header check f : with_file file_object (p_get_header check) f = get_header check f.
Proof.
  unfold p_get_header, get_header. apply (file_seq _ _ (freadinto (sizeof (hc_header default_class))) (fun buf => mlift (get_header_of_bytes buf check))).
  - intros f1. apply file_readinto. vm_compute. discriminate.
  - reflexivity.
Qed.

Section Dec.
Variable dec : list byte -> option (list byte).

Lemma file_read_sample h gate f : In (h_class h) versions ->
  with_file file_object (p_read_sample dec h gate) f = read_sample dec h gate f.
Proof.
  intros Hc. unfold p_read_sample, read_sample. revert f. apply file_seq.
  { intros f. unfold p_get_record, get_record. revert f. apply file_seq; [|reflexivity].
    intros f. apply file_readinto. apply (class_size_nonneg _ _ Hc). unfold class_types; cbn; tauto. }
  intros r. apply file_seq; [reflexivity|]. intros sc. destruct (sc <=? 0); [reflexivity|].
  apply file_seq.
  { unfold p_get_sstat, get_sstat. repeat (apply file_seq; [first [apply file_read|reflexivity]|intros ?]). reflexivity. }
  intros ss. apply file_seq.
  { unfold p_get_tstat, get_tstat. repeat (apply file_seq; [first [apply file_read|reflexivity]|intros ?]). reflexivity. }
  intros ts. apply file_seq; [|reflexivity].
  destruct gate; [|reflexivity].
  unfold p_get_cstat, get_cstat. repeat (apply file_seq; [first [apply file_read|reflexivity]|intros ?]). reflexivity.
Qed.

Definition header_of (g : gstate) : Prop :=
  match g with
  | GInit (Some h) _ _ | GYielded h _ _ _ => In (h_class h) versions
  | _ => True
  end.

Lemma file_loop h gate strict todo f : In (h_class h) versions ->
  with_file file_object (p_loop dec h gate strict todo) f =
  let '(v, g, f') := gloop dec h gate strict todo f in ((v, g), f').
Proof.
  intros Hc. unfold p_loop, gloop. destruct (todo <=? 0); [reflexivity|].
  rewrite with_file_bind, (file_read_sample h gate f Hc). destruct (read_sample dec h gate f) as [[[s|]|e] f1]; reflexivity.
Qed.
Lemma file_start h strict ms f : In (h_class h) versions ->
  with_file file_object (p_start dec h strict ms) f =
  let '(v, g, f') := gstart dec h strict ms f in ((v, g), f').
Proof. intros Hc. unfold p_start, gstart. destruct (cgroup_gate h); [now apply file_loop|reflexivity]. Qed.

Lemma got_class check f h f' : get_header check f = (Ok h, f') -> In (h_class h) versions.
Proof.
  intros H. unfold get_header in H. apply mbind_inv in H as (b & f1 & H1 & H). unfold mlift in H. injection H as H _.
  apply freadinto_sized in H1; [|vm_compute; discriminate]. change (sizeof (hc_header default_class)) with 480 in H1.
  destruct (Z.eq_dec (magic_of b) magic_number) as [M|M].
  2:{ rewrite get_header_bad_magic in H by exact M. discriminate H. }
  destruct (chosen_exists b) as (c & Ch). rewrite (get_header_good_magic b check c H1 M Ch) in H.
  destruct check; [|injection H as <-; eapply chosen_in, Ch].
  destruct (check_compatibility (mkHdr c b)); cbn [rbind] in H; [|discriminate H]. injection H as <-. eapply chosen_in, Ch.
Qed.

Lemma file_next g f : header_of g ->
  with_file file_object (p_next dec g) f = let '(v, g', f') := gnext dec g f in ((v, g'), f').
Proof.
  intros Hg. destruct g as [[h|] strict ms|h gate strict todo|]; cbn [p_next gnext header_of] in *.
  - now apply file_start.
  - rewrite with_file_bind, file_get_header. destruct (get_header true f) as [[h|e] f1] eqn:E; [|reflexivity].
    cbn [fst snd]. apply file_start. eapply got_class, E.
  - now apply file_loop.
  - reflexivity.
Qed.

Lemma next_class g f v g' f' : header_of g -> gnext dec g f = (v, g', f') -> header_of g'.
Proof.
  assert (L : forall h gate strict todo f v g' f', In (h_class h) versions -> gloop dec h gate strict todo f = (v, g', f') -> header_of g').
  { intros h gate strict todo f0 v0 g0 f0' Hc. unfold gloop. destruct (todo <=? 0); [intros E; injection E as _ <- _; exact I|].
    destruct (read_sample dec h gate f0) as [[[s|]|e] f1]; intros E; injection E as _ <- _; cbn; auto. }
  assert (S : forall h strict ms f v g' f', In (h_class h) versions -> gstart dec h strict ms f = (v, g', f') -> header_of g').
  { intros h strict ms f0 v0 g0 f0' Hc. unfold gstart. destruct (cgroup_gate h); [now apply L|]. intros E; injection E as _ <- _; exact I. }
  intros Hg. destruct g as [[h|] strict ms|h gate strict todo|]; cbn [gnext header_of] in *.
  - now apply S.
  - destruct (get_header true f) as [[h|e] f1] eqn:E; [|intros X; injection X as _ <- _; exact I].
    apply S. eapply got_class, E.
  - now apply L.
  - intros X; injection X as _ <- _; exact I.
Qed.

Lemma file_drain fuel : forall g f, header_of g ->
  with_file file_object (p_drain dec fuel g) f = let '(ss, e, f') := drain dec fuel g f in ((ss, e), f').
Proof.
  induction fuel as [|k IH]; intros g f Hg; cbn [p_drain drain]; [reflexivity|].
  rewrite with_file_bind, (file_next g f Hg). destruct (gnext dec g f) as [[v g'] f1] eqn:E. cbn [fst snd].
  destruct v as [s| |e]; [|reflexivity|reflexivity].
  rewrite with_file_bind, (IH g' f1 (next_class _ _ _ _ _ Hg E)). destruct (drain dec k g' f1) as [[ss e] f2]. reflexivity.
Qed.

(** ** Requests are never negative *)

Fixpoint modest {A} (p : prog A) : Prop :=
  match p with
  | Done _ => True
  | Ask q k => match q with AskRead n => 0 <= n | AskReadinto n => 0 <= n end /\ forall x, modest (k x)
  end.
Lemma modest_bind {A B} (p : prog A) (k : A -> prog B) : modest p -> (forall a, modest (k a)) -> modest (pbind p k).
Proof. intros M K. induction p as [a|q c IH]; cbn in *; [apply K|]. destruct M as [Q M]. split; [exact Q|]. intros x. apply IH, M. Qed.
Lemma modest_seq {A B} (m : P A) (k : A -> P B) : modest m -> (forall a, modest (k a)) -> modest (pseq m k).
Proof. intros M K. apply modest_bind; [exact M|]. intros [a|e]; [apply K|exact I]. Qed.
Lemma modest_readinto n : 0 <= n -> modest (p_readinto n).
Proof. intros N. split; [exact N|]. intros x. exact I. Qed.

Lemma lengths_unsigned_b :
  forallb (fun c => forallb (fun n => match field_at (hc_record c) n with
                                      | Some (_, TInt false 4) | None => true | _ => false end)
                      ["scomplen"; "pcomplen"; "ccomplen"; "icomplen"]%string) versions = true.
Proof. vm_compute. reflexivity. Qed.

Lemma length_nonneg c b n : In c versions -> In n ["scomplen"; "pcomplen"; "ccomplen"; "icomplen"]%string ->
  match getint (mkObj (hc_record c) b) n with Ok z => 0 <= z | Raise _ => True end.
Proof.
  intros Hc Hn. pose proof lengths_unsigned_b as T. rewrite forallb_forall in T. specialize (T c Hc).
  rewrite forallb_forall in T. specialize (T n Hn).
  destruct (getint (mkObj (hc_record c) b) n) as [z|e] eqn:E; [|exact I].
  unfold getint, getattr in E. cbn [o_type o_buf] in E.
  destruct (field_at (hc_record c) n) as [[off [sg sz| | | |]]|]; try discriminate T; [|discriminate E].
  destruct sg; [discriminate T|]. cbn [fetch rbind] in E. injection E as <-.
  unfold int_value. apply le_uint_range.
Qed.

Lemma modest_length {A} c b n (k : Z -> P A) : In c versions -> In n ["scomplen"; "pcomplen"; "ccomplen"; "icomplen"]%string ->
  (forall z, 0 <= z -> modest (k z)) -> modest (pseq (plift (getint (mkObj (hc_record c) b) n)) k).
Proof.
  intros Hc Hn K. pose proof (length_nonneg c b n Hc Hn) as L. unfold pseq, plift.
  destruct (getint (mkObj (hc_record c) b) n); cbn [pbind]; [now apply K|exact I].
Qed.
Lemma modest_read n {A} (k : list byte -> P A) : 0 <= n -> (forall b, modest (k b)) -> modest (pseq (p_read n) k).
Proof. intros N K. apply modest_seq; [|exact K]. split; [exact N|]. intros x. exact I. Qed.

Lemma modest_read_sample h gate : In (h_class h) versions -> modest (p_read_sample dec h gate).
Proof.
  intros Hc. unfold p_read_sample, p_get_record.
  assert (K : forall (k : cobj -> P (option sample)), (forall rb, modest (k (mkObj (hc_record (h_class h)) rb))) ->
     modest (do r <- (do b <- p_readinto (sizeof (hc_record (h_class h))); pret (mkObj (hc_record (h_class h)) b)); k r)).
  { intros k Hk. unfold pseq, p_readinto. cbn [pbind modest]. split.
    - apply (class_size_nonneg _ _ Hc). unfold class_types; cbn; tauto.
    - intros [b|e]; cbn [pbind]; [apply Hk|exact I]. }
  apply K. clear K. intros rb. apply modest_length; [exact Hc|cbn; tauto|]. intros sc _.
  destruct (sc <=? 0); [exact I|].
  apply modest_seq.
  { unfold p_get_sstat. apply modest_length; [exact Hc|cbn; tauto|]. intros n N. apply modest_read; [exact N|]. intros b.
    apply modest_seq; [exact I|]. intros d. exact I. }
  intros ss. apply modest_seq.
  { unfold p_get_tstat. apply modest_length; [exact Hc|cbn; tauto|]. intros n N. apply modest_read; [exact N|]. intros b.
    repeat (apply modest_seq; [exact I|intros ?]). exact I. }
  intros ts. apply modest_seq; [|intros; exact I]. destruct gate; [|exact I].
  unfold p_get_cstat. apply modest_length; [exact Hc|cbn; tauto|]. intros n N. apply modest_read; [exact N|]. intros b.
  apply modest_seq; [exact I|intros dc]. apply modest_length; [exact Hc|cbn; tauto|]. intros m Hm. apply modest_read; [exact Hm|]. intros b2.
  repeat (apply modest_seq; [exact I|intros ?]). exact I.
Qed.

(** ** An object that serves the bytes of a file *)

Definition serves {St} (o : fileobj St) (R : St -> file -> Prop) : Prop :=
  forall q s f, R s f -> match q with AskRead n => 0 <= n | AskReadinto n => 0 <= n end ->
    fst (o q s) = fst (file_object q f) /\ R (snd (o q s)) (snd (file_object q f)).

Lemma serves_prog {St} (o : fileobj St) R : serves o R -> forall A (p : prog A) s f, modest p -> R s f ->
  fst (with_file o p s) = fst (with_file file_object p f) /\ R (snd (with_file o p s)) (snd (with_file file_object p f)) /\
  dialogue o p s = dialogue file_object p f.
Proof.
  intros S A p. induction p as [a|q k IH]; intros s f M Rsf; cbn [with_file dialogue]; [auto|].
  destruct M as [Q M]. destruct (S q s f Rsf Q) as [E R'].
  destruct (o q s) as [x s1], (file_object q f) as [y f1]. cbn [fst snd] in E, R'. subst y.
  destruct (IH x s1 f1 (M x) R') as (A1 & A2 & A3). rewrite A3. auto.
Qed.

(** ** One sample from any object *)

Lemma filled_eq n b : 0 <= n -> ztake n b ++ zeros (n - zlen (ztake n b)) = filled n b.
Proof. reflexivity. Qed.
Lemma filled_len n b : 0 <= n -> zlen (filled n b) = n.
Proof.
  intros N. unfold filled. change (firstn (Z.to_nat n) b) with (ztake n b).
  rewrite zlen_app, zlen_zeros, zlen_ztake. pose proof (zlen_nonneg b). lia.
Qed.

Definition sample_result (vs : vspec) (c : hclass) (r : res (option sample)) (d : list (request * answer)) : Prop :=
  match r with
  | Ok (Some y) => sample_exchange dec vs y d /\ sample_sized c y /\ sample_shape vs c y
  | Ok None => exists b, d = [(AskReadinto (vs_rec vs), Ok b)] /\ u32_at (filled (vs_rec vs) b) 16 = 0
  | Raise x => exists rb, d <> [] /\ is_prefix (map fst d) (sample_requests vs rb) /\
     ((exists pre q, d = pre ++ [(q, Raise x)]) \/ (forall q y, ~ In (q, Raise y) d) /\ (x = ZlibError \/ exists v, x = ValueError v))
  end.

Ltac no_raise := let q := fresh in let y := fresh in let H := fresh in
  intros q y H; cbn [In] in H; repeat (destruct H as [H|H]; [discriminate H|]); exact H.

Lemma sample_steps {St} (o : fileobj St) vs c hb s : In (vs, c) table -> is_version vs hb ->
  sample_result vs c (fst (with_file o (p_read_sample dec (mkHdr c hb) (gate_of vs)) s))
                (dialogue o (p_read_sample dec (mkHdr c hb) (gate_of vs)) s).
Proof.
  intros Hc Hv. destruct (table_class _ _ Hc) as (Hs & Hcv).
  destruct (table_sizes _ _ Hc) as (_ & _ & S1 & S2 & S3 & S5).
  pose proof (spec_sizes vs c Hc) as SZ.
  unfold p_read_sample, p_get_record, pseq, p_readinto. cbn [pbind with_file dialogue h_class]. rewrite S1.
  destruct (o (AskReadinto (vs_rec vs)) s) as [[b0|x] s1]; cbn [pbind with_file dialogue h_class fst snd pret].
  2:{ exists []. split; [discriminate|]. split; [exists (tl (sample_requests vs [])); reflexivity|].
      left. exists [], (AskReadinto (vs_rec vs)). reflexivity. }
  change (ztake (vs_rec vs) b0 ++ zeros (vs_rec vs - zlen (ztake (vs_rec vs) b0))) with (filled (vs_rec vs) b0).
  remember (filled (vs_rec vs) b0) as rb eqn:Erb.
  rewrite (rec_int vs c Hc rb _ _ _ (in_rec_scomplen vs)). cbn [num_at plift pbind].
  pose proof (u32_range rb 16) as V16.
  destruct (Z.leb_spec (u32_at rb 16) 0) as [L|L]; cbn [with_file dialogue h_class fst snd pret sample_result].
  { exists b0. rewrite <- Erb. split; [reflexivity|lia]. }
  unfold p_get_sstat, pseq, p_read. rewrite (rec_int vs c Hc rb _ _ _ (in_rec_scomplen vs)).
  cbn [num_at plift pbind with_file dialogue h_class].
  destruct (o (AskRead (u32_at rb 16)) s1) as [[b1|x] s2]; cbn [pbind with_file dialogue h_class fst snd].
  2:{ exists rb. split; [discriminate|]. split; [exists (tl (tl (sample_requests vs rb))); reflexivity|].
      left. exists [(AskReadinto (vs_rec vs), Ok b0)], (AskRead (u32_at rb 16)). reflexivity. }
  assert (B1 : forall x, x = ZlibError \/ (exists v, x = ValueError v) ->
    sample_result vs c (Raise x) [(AskReadinto (vs_rec vs), Ok b0); (AskRead (u32_at rb 16), Ok b1)]).
  { intros x X. exists rb. split; [discriminate|]. split; [exists (tl (tl (sample_requests vs rb))); reflexivity|].
    right. split; [no_raise|exact X]. }
  unfold zlib_decompress at 1 2. destruct (dec b1) as [d1|] eqn:D1; cbn [pbind with_file dialogue h_class fst snd plift].
  2:{ apply B1. left. reflexivity. }
  destruct (from_buffer_copy (hc_sstat c) d1) as [sst|x] eqn:FB; cbn [pbind with_file dialogue h_class fst snd].
  2:{ apply B1. right. eexists. eapply from_buffer_copy_raise, FB. }
  clear B1.
  unfold p_get_tstat, pseq, p_read. rewrite (rec_int vs c Hc rb _ _ _ (in_rec_pcomplen vs)).
  cbn [num_at plift pbind with_file dialogue h_class].
  destruct (o (AskRead (u32_at rb 20)) s2) as [[b2|x] s3]; cbn [pbind with_file dialogue h_class fst snd].
  2:{ exists rb. split; [discriminate|]. split; [exists (tl (tl (tl (sample_requests vs rb)))); reflexivity|].
      left. exists [(AskReadinto (vs_rec vs), Ok b0); (AskRead (u32_at rb 16), Ok b1)], (AskRead (u32_at rb 20)). reflexivity. }
  assert (B2 : forall x, x = ZlibError \/ (exists v, x = ValueError v) ->
    sample_result vs c (Raise x) [(AskReadinto (vs_rec vs), Ok b0); (AskRead (u32_at rb 16), Ok b1); (AskRead (u32_at rb 20), Ok b2)]).
  { intros x X. exists rb. split; [discriminate|]. split; [exists (tl (tl (tl (sample_requests vs rb)))); reflexivity|].
    right. split; [no_raise|exact X]. }
  unfold zlib_decompress at 1 2. destruct (dec b2) as [d2|] eqn:D2; cbn [pbind with_file dialogue h_class fst snd plift].
  2:{ apply B2. left. reflexivity. }
  assert ((if is_record_1_26 (mkObj (hc_record c) rb) then getint (mkObj (hc_record c) rb) "nlist"
           else getint (mkObj (hc_record c) rb) "ndeviat") = Ok (u32_at rb 28)) as ->.
  { rewrite (is_record_1_26_spec vs c rb Hc). destruct (Z.eqb_spec (vs_major vs) 1) as [M|M].
    - now rewrite (rec_int vs c Hc rb _ _ _ (in_rec_nlist vs M)).
    - now rewrite (rec_int vs c Hc rb _ _ _ (in_rec_ndeviat vs M)). }
  cbn [pbind with_file dialogue h_class fst snd plift].
  destruct (version_shape vs Hs) as [VS1 VS2]. destruct Hv as [V1 V2].
  rewrite (version_at_least_spec _ _ Hc), V1, V2.
  cbn [pbind with_file dialogue h_class fst snd plift].
  assert (exists z, (if (2 <=? vs_major vs) && (3 <=? vs_minor vs) then getint (h_obj (mkHdr c hb)) "tstatlen"
                     else getint (h_obj (mkHdr c hb)) "pstatlen") = Ok z) as [z ->].
  { rewrite !h_obj_mk. destruct ((2 <=? vs_major vs) && (3 <=? vs_minor vs)) eqn:B.
    - cbn in VS1. apply Z.eqb_neq in VS1. rewrite (header_getint _ _ _ _ _ _ Hc (in_hdr_tstatlen vs VS1)). eauto.
    - cbn in VS1. apply Z.eqb_eq in VS1. rewrite (header_getint _ _ _ _ _ _ Hc (in_hdr_pstatlen vs VS1)). eauto. }
  cbn [pbind with_file dialogue h_class fst snd plift].
  destruct (tstat_loop (hc_tstat c) z d2 (Z.to_nat (u32_at rb 28)) 0) as [ts|x] eqn:TL; cbn [pbind with_file dialogue h_class fst snd].
  2:{ apply B2. right. eexists. eapply tstat_loop_raise, TL. }
  assert (R0 : o_buf sst = firstn (Z.to_nat (vs_sstat vs)) d1 /\ vs_sstat vs <= zlen d1).
  { unfold from_buffer_copy in FB. rewrite S2 in FB. destruct (zlen d1 <? vs_sstat vs) eqn:Q; [discriminate FB|].
    injection FB as <-. apply Z.ltb_ge in Q. split; [reflexivity|exact Q]. }
  apply from_buffer_copy_sized in FB as [FB _]; [|rewrite S2; lia].
  assert (LT : zlen ts = u32_at rb 28).
  { assert (forall n i l, tstat_loop (hc_tstat c) z d2 n i = Ok l -> zlen l = Z.of_nat n) as K.
    { induction n as [|n IH]; intros i l E; cbn [tstat_loop] in E; [injection E as <-; reflexivity|].
      destruct (from_buffer_copy _ _); [|discriminate E]. cbn [rbind] in E.
      destruct (tstat_loop _ _ _ n _) eqn:E2; [|discriminate E]. cbn [rbind] in E. injection E as <-.
      rewrite zlen_cons, (IH _ _ E2). lia. }
    rewrite (K _ _ _ TL). pose proof (u32_range rb 28). lia. }
  apply tstat_loop_sized in TL; [|rewrite S3; lia].
  assert (LR : zlen rb = vs_rec vs) by (subst rb; apply filled_len; lia).
  unfold gate_of. destruct (vs_cstat vs) as [sz|] eqn:Es.
  2:{ cbn [pbind with_file dialogue h_class fst snd pret sample_result]. split.
      { exists [b0; b1; b2]. unfold sample_requests. rewrite Es. cbn [s_record s_sstat o_buf].
        split; [reflexivity|]. split; [reflexivity|]. split; [exact Erb|]. exists d1. cbn [nth]. tauto. }
      split.
      { split; [split; [reflexivity|cbn; lia]|]. split; [exact FB|]. split; [exact TL|]. constructor. }
      split; [reflexivity|]. cbn [s_record o_buf s_cgroups s_tstats]. split; [lia|]. split; [reflexivity|]. split; [congruence|exact LT]. }
  destruct S5 as (ct & Ect & S5).
  destruct (in_rec_cg vs sz Hs Es) as (Q1 & Q2 & Q3).
  unfold p_get_cstat, pseq, p_read. rewrite (rec_int vs c Hc rb _ _ _ Q2).
  cbn [num_at plift pbind with_file dialogue h_class].
  destruct (o (AskRead (u32_at rb 72)) s3) as [[b3|x] s4]; cbn [pbind with_file dialogue h_class fst snd].
  2:{ exists rb. split; [discriminate|]. unfold sample_requests. rewrite Es. split; [eexists [_]; reflexivity|].
      left. exists [(AskReadinto (vs_rec vs), Ok b0); (AskRead (u32_at rb 16), Ok b1); (AskRead (u32_at rb 20), Ok b2)], (AskRead (u32_at rb 72)). reflexivity. }
  unfold zlib_decompress at 1 3. destruct (dec b3) as [d3|] eqn:D3; cbn [pbind with_file dialogue h_class fst snd plift].
  2:{ exists rb. split; [discriminate|]. unfold sample_requests. rewrite Es. split; [eexists [_]; reflexivity|].
      right. split; [no_raise|]. left. reflexivity. }
  rewrite (rec_int vs c Hc rb _ _ _ Q3). cbn [num_at plift pbind with_file dialogue h_class].
  destruct (o (AskRead (u32_at rb 84)) s4) as [[b4|x] s5]; cbn [pbind with_file dialogue h_class fst snd].
  2:{ exists rb. split; [discriminate|]. unfold sample_requests. rewrite Es. split; [exists []; reflexivity|].
      left. exists [(AskReadinto (vs_rec vs), Ok b0); (AskRead (u32_at rb 16), Ok b1); (AskRead (u32_at rb 20), Ok b2); (AskRead (u32_at rb 72), Ok b3)], (AskRead (u32_at rb 84)). reflexivity. }
  assert (B4 : forall x, x = ZlibError \/ (exists v, x = ValueError v) ->
    sample_result vs c (Raise x) [(AskReadinto (vs_rec vs), Ok b0); (AskRead (u32_at rb 16), Ok b1); (AskRead (u32_at rb 20), Ok b2);
                                  (AskRead (u32_at rb 72), Ok b3); (AskRead (u32_at rb 84), Ok b4)]).
  { intros x X. exists rb. split; [discriminate|]. unfold sample_requests. rewrite Es. split; [exists []; reflexivity|].
    right. split; [no_raise|exact X]. }
  unfold zlib_decompress at 1 2. destruct (dec b4) as [d4|] eqn:D4; cbn [pbind with_file dialogue h_class fst snd plift].
  2:{ apply B4. left. reflexivity. }
  rewrite h_obj_mk, (header_getint _ _ _ _ _ _ Hc (in_hdr_cstatlen vs sz Es)). cbn [pbind with_file dialogue h_class fst snd plift].
  rewrite (rec_int vs c Hc rb _ _ _ Q1). cbn [num_at plift pbind with_file dialogue h_class]. rewrite Ect.
  destruct (cstat_loop ct _ d3 d4 _ 0 0) as [cg|x] eqn:CL; cbn [pbind with_file dialogue h_class fst snd pret].
  2:{ apply B4. right. apply (cstat_loop_raise c ct) in CL as [-> | ->]; eauto. }
  apply (cstat_loop_sized _ _ _ _ _ _ _ _ _ Hcv Ect) in CL as [NL CL].
  cbn [sample_result]. split.
  { exists [b0; b1; b2; b3; b4]. unfold sample_requests. rewrite Es. cbn [s_record s_sstat o_buf].
    split; [reflexivity|]. split; [reflexivity|]. split; [exact Erb|]. exists d1. cbn [nth]. tauto. }
  split.
  { split; [split; [reflexivity|cbn; lia]|]. split; [exact FB|]. split; [exact TL|]. cbn [s_cgroups].
    eapply Forall_impl; [|exact CL]. intros k K. exists ct. split; [exact Ect|exact K]. }
  split; [reflexivity|]. cbn [s_record o_buf s_cgroups s_tstats]. split; [lia|]. split; [congruence|]. split; [|exact LT].
  intros _. pose proof (u16_range rb 10). lia.
Qed.

(** ** Runs *)

Lemma modest_next g : header_of g -> modest (p_next dec g).
Proof.
  assert (L : forall h gate strict todo, In (h_class h) versions -> modest (p_loop dec h gate strict todo)).
  { intros h gate strict todo Hc. unfold p_loop. destruct (todo <=? 0); [exact I|].
    apply modest_bind; [now apply modest_read_sample|]. intros; exact I. }
  assert (S : forall h strict ms, In (h_class h) versions -> modest (p_start dec h strict ms)).
  { intros h strict ms Hc. unfold p_start. destruct (cgroup_gate h); [now apply L|exact I]. }
  intros Hg. destruct g as [[h|] strict ms|h gate strict todo|]; cbn [p_next header_of] in *.
  - now apply S.
  - unfold p_get_header, pseq, p_readinto. cbn [pbind modest]. split; [vm_compute; discriminate|].
    intros [b|e]; cbn [pbind modest plift]; [|exact I].
    set (b' := ztake (sizeof (hc_header default_class)) b ++ _).
    assert (zlen b' = sizeof (hc_header default_class)) as Lb by (apply filled_len; vm_compute; discriminate).
    destruct (get_header_of_bytes b' true) as [h|e] eqn:E; [|exact I].
    apply S. apply (got_class true (plain b') h (plain [])). unfold get_header, mbind, freadinto, fread.
    cbn [f_rem plain f_fault]. rewrite Lb, Z.leb_refl. rewrite ztake_all, zdrop_all by lia.
    rewrite Lb, Z.sub_diag. change (zeros 0) with (@nil byte). rewrite app_nil_r. unfold mlift. now rewrite E.
  - now apply L.
  - exact I.
Qed.

Section Honest.
Context {St : Type} (o : fileobj St) (left : St -> list byte) (Ho : honest o left).

Definition at_left (s : St) (f : file) : Prop := f = plain (left s).

Lemma honest_serves : serves o at_left.
Proof.
  assert (F : forall n l, 0 <= n -> fread n (plain l) = (Ok (firstn (Z.to_nat n) l), plain (skipn (Z.to_nat n) l))).
  { intros n l N. unfold fread, plain. cbn [f_rem f_fault]. destruct (Z.leb_spec n (zlen l)) as [L|L]; [reflexivity|].
    unfold zlen in L. rewrite firstn_all2, skipn_all2 by lia. reflexivity. }
  intros q s f -> N. unfold at_left. destruct q as [n|n]; cbn [file_object]; rewrite F by exact N.
  - destruct (Ho n s N) as [_ (s2 & -> & E)]. cbn [fst snd]. now rewrite E.
  - destruct (Ho n s N) as [(s2 & -> & E) _]. cbn [fst snd]. now rewrite E.
Qed.

Lemma honest_next g s : header_of g ->
  gnext dec g (plain (left s)) =
    (fst (fst (with_file o (p_next dec g) s)), snd (fst (with_file o (p_next dec g) s)), plain (left (snd (with_file o (p_next dec g) s)))).
Proof.
  intros Hg. destruct (serves_prog o at_left honest_serves _ (p_next dec g) s (plain (left s)) (modest_next g Hg) eq_refl) as (A & B & _).
  rewrite (file_next g _ Hg) in A, B. destruct (gnext dec g (plain (left s))) as [[v g'] f'].
  cbn [fst snd] in *. rewrite A. cbn [fst snd]. unfold at_left in B. now rewrite B.
Qed.

Lemma honest_drain fuel : forall g s, header_of g ->
  drain dec fuel g (plain (left s)) =
    (fst (fst (with_file o (p_drain dec fuel g) s)), snd (fst (with_file o (p_drain dec fuel g) s)), plain (left (snd (with_file o (p_drain dec fuel g) s)))).
Proof.
  induction fuel as [|k IH]; intros g s Hg; cbn [p_drain drain]; [reflexivity|].
  rewrite with_file_bind. pose proof (honest_next g s Hg) as N.
  destruct (with_file o (p_next dec g) s) as [[v g'] s1]. cbn [fst snd] in N |- *.
  rewrite N. destruct v as [y| |e]; [|reflexivity|reflexivity].
  rewrite with_file_bind, (IH g' s1 (next_class _ _ _ _ _ Hg N)). reflexivity.
Qed.

(** With a well-behaved object, every property of [run] on the bytes it has left (C09 to C21, C44,
    C54) holds: same samples, same ending, same bytes left. *)
Theorem C56_honest_object hdr strict max_samples s :
  (forall h, hdr = Some h -> In (h_class h) versions) ->
  exists ss e s',
    with_file o (p_run dec hdr strict max_samples) s = ((ss, e), s') /\
    run dec hdr strict max_samples (plain (left s)) = (ss, e, plain (left s')).
Proof.
  intros Hh. unfold p_run, run.
  assert (header_of (generate_statistics hdr strict max_samples)) as Hg.
  { unfold generate_statistics, header_of. destruct hdr as [h|]; [now apply Hh|exact I]. }
  rewrite (honest_drain _ _ s Hg).
  destruct (with_file o (p_drain dec (S (Z.to_nat max_samples)) (generate_statistics hdr strict max_samples)) s) as [[ss e] s'].
  exists ss, e, s'. split; reflexivity.
Qed.
End Honest.

(** ** Any object at all *)

Lemma exn_end_formula strict e : exn_end strict e = (if strict then Some e else match e with ZlibError => None | _ => Some e end).
Proof. destruct e, strict; reflexivity. Qed.

Lemma any_drain {St} (o : fileobj St) vs c hb strict : In (vs, c) table -> is_version vs hb ->
  forall todo fuel s, (S (Z.to_nat todo) <= fuel)%nat ->
  exists ss e ds d s',
    with_file o (p_drain dec fuel (GYielded (mkHdr c hb) (gate_of vs) strict todo)) s = ((ss, Some e), s') /\
    dialogue o (p_drain dec fuel (GYielded (mkHdr c hb) (gate_of vs) strict todo)) s = List.concat ds ++ d /\
    Forall2 (sample_exchange dec vs) ss ds /\ Forall (sample_sized c) ss /\ Forall (sample_shape vs c) ss /\
    (zlen ss = Z.max 0 todo /\ d = [] /\ e = None \/ zlen ss < todo /\ last_exchange vs strict d e).
Proof.
  intros Hc Hv todo. induction todo as [n Hn|n Hn IH] using todo_ind; intros fuel s Hf.
  - destruct fuel as [|k]; [lia|]. exists [], None, [], [], s. cbn [p_drain p_next]. unfold p_loop.
    destruct (Z.leb_spec n 0); [|lia]. cbn. repeat (split; [auto|]). left. rewrite Z.max_l by lia. auto.
  - destruct fuel as [|k]; [lia|]. cbn [p_drain p_next]. unfold p_loop.
    destruct (Z.leb_spec n 0); [lia|]. rewrite !with_file_bind, !dialogue_bind.
    pose proof (sample_steps o vs c hb s Hc Hv) as SS. set (pr := p_read_sample dec (mkHdr c hb) (gate_of vs)) in *.
    rewrite with_file_bind.
    destruct (with_file o pr s) as [r s1]. remember (dialogue o pr s) as d1. cbn [fst snd with_file dialogue] in *.
    destruct r as [[y|]|x].
    + destruct (IH k s1) as (ss & e & ds & d & s' & W & Dg & F2 & Fs & Fh & E); [lia|].
      destruct SS as (X1 & X2 & X3).
      rewrite with_file_bind, W, dialogue_bind, Dg. cbn [fst snd with_file dialogue].
      exists (y :: ss), e, (d1 :: ds), d, s'. split; [reflexivity|]. split; [cbn [List.concat]; now rewrite !app_nil_r, app_assoc|].
      split; [constructor; assumption|]. split; [constructor; assumption|]. split; [constructor; assumption|].
      rewrite zlen_cons. destruct E as [(E1 & E2 & E3)|(E1 & E2)]; [left|right]; (split; [lia|auto]).
    + destruct SS as (b & -> & Hz). exists [], None, [], [(AskReadinto (vs_rec vs), Ok b)], s1. split; [reflexivity|]. split; [reflexivity|].
      repeat (split; [constructor|]). right. split; [change (0 < n); lia|]. left. exists b. auto.
    + destruct SS as (rb & Hd & Hp & He).
      exists [], (exn_end strict x), [], d1, s1.
      split; [unfold on_exception, exn_end; destruct x; try reflexivity; destruct strict; reflexivity|].
      split; [cbn [List.concat app]; destruct (on_exception strict x) eqn:Ox; cbn; rewrite ?app_nil_r; try reflexivity|].
      { unfold on_exception in Ox. destruct x; try discriminate Ox. destruct strict; discriminate Ox. }
      repeat (split; [constructor|]). right. split; [change (0 < n); lia|]. right. exists rb, x. rewrite <- exn_end_formula. auto.
Qed.

(** Whatever the object does: iteration ends; each sample yielded cost exactly its own requests, in
    order, each answered with bytes, its record is the answer to the first of them, and its structs
    are complete; then either the bound was reached and nothing more was asked, or one more sample
    was tried, asking for a prefix of a sample's requests. *)
Theorem C56_any_object {St} (o : fileobj St) vs c hb strict max_samples s :
  class_for vs c -> is_version vs hb ->
  exists ss e ds d s',
    with_file o (p_run dec (Some (mkHdr c hb)) strict max_samples) s = ((ss, Some e), s') /\
    dialogue o (p_run dec (Some (mkHdr c hb)) strict max_samples) s = List.concat ds ++ d /\
    Forall2 (sample_exchange dec vs) ss ds /\ Forall (sample_sized c) ss /\ Forall (sample_shape vs c) ss /\
    (zlen ss = Z.max 0 max_samples /\ d = [] /\ e = None \/ zlen ss < max_samples /\ last_exchange vs strict d e).
Proof.
  intros Hcf Hv. pose proof (class_for_table _ _ Hcf) as Hc.
  destruct (version_shape vs (proj1 (table_class _ _ Hc))) as [_ VS].
  assert (cgroup_gate (mkHdr c hb) = Ok (gate_of vs)) as G.
  { rewrite (cgroup_gate_spec _ _ Hc). destruct Hv as [-> ->]. now rewrite VS. }
  destruct (any_drain o vs c hb strict Hc Hv max_samples (S (Z.to_nat max_samples)) s (le_n _)) as (ss & e & ds & d & s' & W & Dg & R).
  exists ss, e, ds, d, s'. unfold p_run, generate_statistics. cbn [p_drain p_next] in *. unfold p_start. rewrite G. auto.
Qed.

(** The header is one request of 480 bytes, whatever the object and its answer. *)
Theorem C56_header_request {St} (o : fileobj St) check s :
  exists a, dialogue o (p_get_header check) s = [(AskReadinto header_size, a)] /\
    fst (with_file o (p_get_header check) s) =
      match a with
      | Ok b => fst (get_header check (plain (filled header_size b)))
      | Raise e => Raise e
      end.
Proof.
  unfold p_get_header, pseq, p_readinto. cbn [pbind with_file dialogue].
  change (sizeof (hc_header default_class)) with header_size.
  destruct (o (AskReadinto header_size) s) as [[b|e] s1]; cbn [pbind with_file dialogue fst snd plift].
  2:{ exists (Raise e). auto. }
  exists (Ok b). split; [reflexivity|].
  change (ztake header_size b ++ zeros (header_size - zlen (ztake header_size b))) with (filled header_size b).
  assert (zlen (filled header_size b) = header_size) as L by (apply filled_len; vm_compute; discriminate).
  unfold get_header, mbind, freadinto, fread. change (sizeof (hc_header default_class)) with header_size.
  cbn [f_rem plain f_fault]. rewrite L, Z.leb_refl, ztake_all by lia. rewrite L, Z.sub_diag. change (zeros 0) with (@nil byte).
  rewrite app_nil_r. reflexivity.
Qed.

End Dec.

(** ** Objects *)

Lemma skipn_twice {A} n m (l : list A) : skipn n (skipn m l) = skipn (m + n) l.
Proof. revert l. induction m as [|m IH]; intros l; [reflexivity|]. destruct l; [now rewrite !skipn_nil|]. apply IH. Qed.

Theorem C56_bytesio_honest : honest bytesio_object (fun s => skipn (io_pos s) (io_bytes s)).
Proof.
  assert (K : forall n s, 0 <= n ->
    skipn (io_pos s + List.length (firstn (Z.to_nat n) (skipn (io_pos s) (io_bytes s)))) (io_bytes s) =
    skipn (Z.to_nat n) (skipn (io_pos s) (io_bytes s))).
  { intros n s N. rewrite skipn_twice, firstn_length, skipn_length.
    destruct (Nat.le_gt_cases (Z.to_nat n) (List.length (io_bytes s) - io_pos s)) as [L|L].
    - rewrite Nat.min_l by exact L. reflexivity.
    - rewrite Nat.min_r by lia. rewrite !skipn_all2 by lia. reflexivity. }
  intros n s N. unfold bytesio_object. destruct (Z.ltb_spec n 0); [lia|].
  split; eexists; (split; [reflexivity|]); cbn [io_pos io_bytes]; apply K, N.
Qed.

(** An object that gives fewer bytes than asked before the end, as unbuffered files and pipes may:
    no exception, no missing byte, and yet in strict mode iteration ends normally with every sample
    lost. *)
Theorem C56_short_record_read_is_silent dec vs hb s ss strict max_samples :
  wf_log dec vs hb (s :: ss) -> 0 < max_samples ->
  exists s',
    with_file raw_object (p_run dec None strict max_samples) (mkRaw (log_bytes hb (s :: ss)) [header_size; 16]) =
      (([], Some None), s') /\
    raw_rem s' = skipn 16 (samples_bytes (s :: ss)).
Proof.
  intros (Hvs & Ha & _) Hm. destruct (class_for_exists vs Hvs) as (c & Hcf). pose proof (class_for_table _ _ Hcf) as Hc.
  pose proof (header_of_log vs c hb [] Hc Ha) as G. rewrite app_nil_r in G.
  destruct Ha as (Lh & _ & Hv & _).
  assert (G1 : get_header_of_bytes hb true = Ok (mkHdr c hb)).
  { unfold get_header, mbind, freadinto, fread, mlift in G. cbn [f_rem plain f_fault] in G.
    change (sizeof (hc_header default_class)) with header_size in G. rewrite Lh, Z.leb_refl, ztake_all in G by lia.
    rewrite Lh, Z.sub_diag in G. change (zeros 0) with (@nil byte) in G. rewrite app_nil_r in G. congruence. }
  unfold p_run, generate_statistics. cbn [p_drain p_next]. unfold p_get_header, pseq, p_readinto. cbn [pbind with_file].
  unfold raw_object at 1. cbn [raw_limits raw_rem tl]. change (sizeof (hc_header default_class)) with header_size.
  rewrite Z.min_id. unfold log_bytes. rewrite ztake_exact, zdrop_exact by exact Lh.
  rewrite ztake_all by lia. rewrite Lh, Z.sub_diag. change (zeros 0) with (@nil byte). rewrite app_nil_r, G1. cbn [pbind plift].
  unfold p_start. rewrite (gate_spec vs c hb Hc Hv). unfold p_loop. destruct (Z.leb_spec max_samples 0); [lia|].
  unfold p_read_sample, p_get_record, pseq, p_readinto. cbn [pbind with_file h_class].
  unfold raw_object at 1. cbn [raw_limits raw_rem tl]. rewrite (rec_size vs c Hc).
  pose proof (spec_sizes vs c Hc) as (SZ & _). rewrite Z.min_r by lia. cbn [pbind with_file pret].
  set (rb := ztake (vs_rec vs) _ ++ zeros _).
  rewrite (rec_int vs c Hc rb _ _ _ (in_rec_scomplen vs)). cbn [num_at plift pbind].
  assert (u32_at rb 16 = 0) as ->.
  { unfold rb. rewrite u32_zeros. unfold u32_at, u16_at. rewrite !at8_out; [reflexivity|..];
      rewrite zlen_ztake; pose proof (zlen_ztake 16 (samples_bytes (s :: ss))); pose proof (zlen_nonneg (samples_bytes (s :: ss))); lia. }
  cbn. eexists. split; reflexivity.
Qed.

(** ** Examples *)

Example C56_bytesio_example vs n : In vs spec_versions -> (n <= 1000)%nat ->
  exists ys e s',
    with_file bytesio_object (p_run zdecompress None true 86400) (mkBIO (log_bytes (make_header vs) (example_log vs n)) 0) = ((ys, e), s') /\
    e = Some None /\ zlen ys = Z.of_nat n.
Proof.
  intros Hvs Hn.
  destruct (C56_honest_object zdecompress bytesio_object _ C56_bytesio_honest None true 86400 (mkBIO (log_bytes (make_header vs) (example_log vs n)) 0))
    as (ys & e & s' & W & R); [discriminate|].
  exists ys, e, s'. split; [exact W|]. cbn [io_pos io_bytes skipn] in R.
  destruct (C09_log_round_trip zdecompress vs (make_header vs) (example_log vs n) true 86400 (example_log_wf vs n Hvs)) as (c & ys' & _ & F & R').
  { rewrite example_log_len. lia. }
  rewrite R' in R. injection R as <- <- _. split; [reflexivity|].
  apply same_length in F. pose proof (example_log_len vs n) as L. unfold zlen in *. lia.
Qed.

(** An object that answers every request with the same 20 bytes, whatever the number asked for, and
    a decompressor that gives zeros: one sample (no tasks, no cgroups), then its eighth request raises. *)
Definition twenty : list byte := zeros 16 ++ [x07; x00; x00; x00].
Definition fickle : fileobj nat := fun q n =>
  match n with 7%nat => (Raise (IOErr 5), n) | _ => (Ok twenty, S n) end.
Definition toy (b : list byte) : option (list byte) := Some (zeros 1200000).
Example C56_any_example :
  let h := mkHdr a2_12_class (make_header latest) in
  let '(ys, e, n) := with_file fickle (p_run toy (Some h) true 5) 0%nat in
  zlen ys = 1 /\ e = Some (Some (IOErr 5)) /\
  map fst (dialogue fickle (p_run toy (Some h) true 5) 0%nat) =
    [AskReadinto 96; AskRead 7; AskRead 0; AskRead 0; AskRead 0; AskReadinto 96; AskRead 7; AskRead 0].
Proof. vm_compute. auto. Qed.
