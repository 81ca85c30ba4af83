(** * Theorems C40: the version cache is transparent *)
From Coq Require Import List ZArith Lia Bool String.
From Coq Require Import Init.Byte.
From Coq Require Import ZifyBool.
From Verif Require Import PyBase CTypes S_shared Model HeaderCache Spec SpecDict SpecLog
  BaseProofs LayoutProofs RepProofs DictProofs TableProofs HeaderProofs PropHeader LogBuild.
Import ListNotations.
Open Scope list_scope.
Open Scope Z_scope.

(** ** Specification: the bytes present at the first read decide the version for good *)

Definition version_out (o : hop) (b : list byte) : option hout :=
  match o with
  | OpMajor => Some (OutInt (Ok (major_of b)))
  | OpMinor => Some (OutInt (Ok (minor_of b)))
  | OpVersion => Some (OutText (Ok (dotted (major_of b) (minor_of b))))
  | _ => None
  end.

(** [first] are the bytes at the first read so far, [now] the current bytes. *)
Fixpoint follows (first : option (list byte)) (now : list byte) (ops : list hop) (outs : list hout) : Prop :=
  match ops, outs with
  | [], [] => True
  | OpWrite b :: ops', OutNone :: outs' => follows first b ops' outs'
  | OpCheck :: ops', OutCheck r :: outs' =>
      follows (Some (match first with Some b => b | None => now end)) now ops' outs'
  | o :: ops', out :: outs' =>
      let b := match first with Some b => b | None => now end in
      version_out o b = Some out /\ follows (Some b) now ops' outs'
  | _, _ => False
  end.

(** ** Proofs *)

Definition cache_of (b : list byte) : cache :=
  mkCache (major_of b) (minor_of b) (dotted (major_of b) (minor_of b)).

Definition consistent (first : option (list byte)) (i : hinst) : Prop :=
  In (h_class (i_hdr i)) versions /\ i_cache i = option_map cache_of first.

Definition seen_first (first : option (list byte)) (now : list byte) : list byte :=
  match first with Some b => b | None => now end.

Lemma dotted_nonempty a b : dotted a b <> EmptyString.
Proof. unfold dotted, dec_text. destruct (a <? 10); [discriminate|]. destruct (a <? 100); discriminate. Qed.

Lemma aversion_read h : In (h_class h) versions -> getint (h_obj h) "aversion" = Ok (aversion_of (h_buf h)).
Proof.
  intros Hc. destruct (class_table _ Hc) as (vs & Ht). destruct h as [c b].
  exact (header_getint _ _ b _ _ _ Ht (in_hdr_aversion vs)).
Qed.

Lemma values_read h : In (h_class h) versions ->
  let a := aversion_of (h_buf h) in
  major_of_aversion a = major_of (h_buf h) /\ minor_of_aversion a = minor_of (h_buf h) /\
  version_text (major_of_aversion a) (minor_of_aversion a) = dotted (major_of (h_buf h)) (minor_of (h_buf h)).
Proof.
  intros Hc a. destruct (C03_version_from_aversion h Hc) as (_ & _ & A & B & S).
  unfold major_version, minor_version, semantic_version in *. rewrite (aversion_read h Hc) in *. cbn [rbind] in *.
  injection A as A. injection B as B. injection S as S. auto.
Qed.

Lemma semantic_c first i : consistent first i ->
  semantic_version_c i =
  (Ok (dotted (major_of (seen_first first (h_buf (i_hdr i)))) (minor_of (seen_first first (h_buf (i_hdr i))))),
   mkInst (i_hdr i) (Some (cache_of (seen_first first (h_buf (i_hdr i)))))).
Proof.
  intros [Hc Hk]. unfold semantic_version_c, cached. destruct i as [h k]. cbn [i_hdr i_cache] in *. subst k.
  destruct first as [b|]; cbn [option_map seen_first].
  - cbn [cache_of k_text]. destruct (String.eqb_spec (dotted (major_of b) (minor_of b)) "") as [E|_].
    + exfalso. exact (dotted_nonempty _ _ E).
    + reflexivity.
  - rewrite (aversion_read h Hc). destruct (values_read h Hc) as (A & B & C). rewrite C, A, B. reflexivity.
Qed.

Lemma consistent_after first i : consistent first i ->
  consistent (Some (seen_first first (h_buf (i_hdr i)))) (mkInst (i_hdr i) (Some (cache_of (seen_first first (h_buf (i_hdr i)))))).
Proof. intros [Hc _]. split; [exact Hc|reflexivity]. Qed.

Lemma major_c first i : consistent first i ->
  major_version_c i = (Ok (major_of (seen_first first (h_buf (i_hdr i)))),
    mkInst (i_hdr i) (Some (cache_of (seen_first first (h_buf (i_hdr i)))))).
Proof. intros H. unfold major_version_c, hbind. rewrite (semantic_c first i H). reflexivity. Qed.

Lemma minor_c first i : consistent first i ->
  minor_version_c i = (Ok (minor_of (seen_first first (h_buf (i_hdr i)))),
    mkInst (i_hdr i) (Some (cache_of (seen_first first (h_buf (i_hdr i)))))).
Proof. intros H. unfold minor_version_c, hbind. rewrite (semantic_c first i H). reflexivity. Qed.

Lemma at_least_c first i n : consistent first i ->
  let b := seen_first first (h_buf (i_hdr i)) in
  version_at_least_2_c n i = (Ok ((2 <=? major_of b) && (n <=? minor_of b)), mkInst (i_hdr i) (Some (cache_of b))).
Proof.
  intros H b. unfold version_at_least_2_c, hbind at 1. rewrite (major_c first i H). fold b.
  destruct (2 <=? major_of b); [|reflexivity]. cbn [andb]. unfold hbind.
  rewrite (minor_c (Some b)); [|apply (consistent_after first i H)]. reflexivity.
Qed.

(** check_compatibility with the version bytes [vb] and the length fields of [h]. *)
Definition check_with (h : hobj) (vb : list byte) : res unit :=
  let c := h_class h in
  let? rawheadlen := getint (h_obj h) "rawheadlen" in
  let? rawreclen := getint (h_obj h) "rawreclen" in
  let? sstatlen := getint (h_obj h) "sstatlen" in
  let sizes :=
    [("Header"%string, rawheadlen, sizeof (hc_header c));
     ("Record"%string, rawreclen, sizeof (hc_record c));
     ("SStat"%string, sstatlen, sizeof (hc_sstat c))] in
  let? sizes :=
    if (2 <=? major_of vb) && (3 <=? minor_of vb) then
      let? tstatlen := getint (h_obj h) "tstatlen" in
      Ok (sizes ++ [("TStat"%string, tstatlen, sizeof (hc_tstat c))])
    else
      let? pstatlen := getint (h_obj h) "pstatlen" in
      Ok (sizes ++ [("PStat"%string, pstatlen, sizeof (hc_tstat c))]) in
  let? sizes :=
    if (2 <=? major_of vb) && (11 <=? minor_of vb) then
      let? cstatlen := getint (h_obj h) "cstatlen" in
      match hc_cstat c with
      | Some ct => Ok (sizes ++ [("CStat"%string, cstatlen, sizeof ct)])
      | None => Raise TypeError
      end
    else Ok sizes in
  if existsb (fun s => negb (snd (fst s) =? snd s)) sizes
  then Raise (ValueError (Incompatible sizes))
  else Ok tt.

Lemma check_with_own h : In (h_class h) versions -> check_compatibility h = check_with h (h_buf h).
Proof.
  intros Hc. unfold check_compatibility, check_with, version_at_least_2.
  destruct (C03_version_from_aversion h Hc) as (_ & _ & A & B & _). rewrite A, B. cbn [rbind].
  change (u16_at (h_buf h) 4 / 256 mod 128) with (major_of (h_buf h)).
  change (u16_at (h_buf h) 4 mod 256) with (minor_of (h_buf h)).
  repeat match goal with |- context [getint (h_obj h) ?n] => destruct (getint (h_obj h) n); cbn [rbind]; [|reflexivity] end;
  destruct (2 <=? major_of (h_buf h)); cbn [rbind andb]; reflexivity.
Qed.

(** The three length fields read first exist in every header class. *)
Lemma first_lengths h : In (h_class h) versions ->
  (exists x, getint (h_obj h) "rawheadlen" = Ok x) /\ (exists x, getint (h_obj h) "rawreclen" = Ok x) /\
  (exists x, getint (h_obj h) "sstatlen" = Ok x).
Proof.
  intros Hc. destruct (class_table _ Hc) as (vs & Ht). destruct h as [c b].
  split; [|split]; eexists; [apply (header_getint _ _ b _ _ _ Ht (in_hdr_rawheadlen vs))|
    apply (header_getint _ _ b _ _ _ Ht (in_hdr_rawreclen vs))|apply (header_getint _ _ b _ _ _ Ht (in_hdr_sstatlen vs))].
Qed.

Lemma hbind_ok {A B} (m : HM A) (k : A -> HM B) i a i' : m i = (Ok a, i') -> hbind m k i = k a i'.
Proof. intros H. unfold hbind. rewrite H. reflexivity. Qed.
Lemma hbind_raise {A B} (m : HM A) (k : A -> HM B) i e i' : m i = (Raise e, i') -> hbind m k i = (Raise e, i').
Proof. intros H. unfold hbind. rewrite H. reflexivity. Qed.

Lemma check_c first i : consistent first i ->
  let b := seen_first first (h_buf (i_hdr i)) in
  check_compatibility_c i = (check_with (i_hdr i) b, mkInst (i_hdr i) (Some (cache_of b))).
Proof.
  intros H b. pose proof (consistent_after first i H) as H'. fold b in H'. unfold check_compatibility_c, check_with.
  destruct (first_lengths _ (proj1 H)) as ((x1 & E1) & (x2 & E2) & (x3 & E3)).
  rewrite E1, E2, E3. cbn [rbind].
  erewrite hbind_ok by (unfold hfield; rewrite E1; reflexivity).
  erewrite hbind_ok by (unfold hfield; rewrite E2; reflexivity).
  erewrite hbind_ok by (unfold hfield; rewrite E3; reflexivity).
  erewrite hbind_ok by (apply (at_least_c first i 3 H)). fold b.
  set (i1 := mkInst (i_hdr i) (Some (cache_of b))) in *.
  assert (forall n, hfield n i1 = (getint (h_obj (i_hdr i)) n, i1)) as F by reflexivity.
  assert (version_at_least_2_c 11 i1 = (Ok ((2 <=? major_of b) && (11 <=? minor_of b)), i1)) as V11
    by (apply (at_least_c (Some b) i1 11 H')).
  assert (forall sizes, hbind (version_at_least_2_c 11) (fun v211 =>
     hbind (if v211 : bool
          then hbind (hfield "cstatlen") (fun x => fun i =>
                 match hc_cstat (h_class (i_hdr i1)) with
                 | Some ct => (Ok (sizes ++ [("CStat"%string, x, sizeof ct)]), i)
                 | None => (Raise TypeError, i)
                 end)
          else hret sizes)
      (fun sizes i =>
      (if existsb (fun s => negb (snd (fst s) =? snd s)) sizes
       then Raise (ValueError (Incompatible sizes)) else Ok tt, i))) i1 =
     ((let? sizes :=
    if (2 <=? major_of b) && (11 <=? minor_of b) then
      let? cstatlen := getint (h_obj (i_hdr i)) "cstatlen" in
      match hc_cstat (h_class (i_hdr i)) with
      | Some ct => Ok (sizes ++ [("CStat"%string, cstatlen, sizeof ct)])
      | None => Raise TypeError
      end
    else Ok sizes in
  if existsb (fun s => negb (snd (fst s) =? snd s)) sizes
  then Raise (ValueError (Incompatible sizes))
  else Ok tt), i1)) as T.
  { intros sizes. erewrite hbind_ok by exact V11. destruct ((2 <=? major_of b) && (11 <=? minor_of b)); [|reflexivity].
    destruct (getint (h_obj (i_hdr i)) "cstatlen") as [x|e] eqn:E.
    - cbn [rbind]. unfold hbind at 1. unfold hbind at 1. rewrite F, E. cbn [i_hdr i1].
      destruct (hc_cstat (h_class (i_hdr i))); reflexivity.
    - cbn [rbind]. erewrite hbind_raise; [reflexivity|]. apply hbind_raise. rewrite F, E. reflexivity. }
  destruct ((2 <=? major_of b) && (3 <=? minor_of b)).
  - destruct (getint (h_obj (i_hdr i)) "tstatlen") as [x|e] eqn:E; cbn [rbind].
    + erewrite hbind_ok by (erewrite hbind_ok by (rewrite F, E; reflexivity); reflexivity). apply T.
    + erewrite hbind_raise; [reflexivity|]. apply hbind_raise. rewrite F, E. reflexivity.
  - destruct (getint (h_obj (i_hdr i)) "pstatlen") as [x|e] eqn:E; cbn [rbind].
    + erewrite hbind_ok by (erewrite hbind_ok by (rewrite F, E; reflexivity); reflexivity). apply T.
    + erewrite hbind_raise; [reflexivity|]. apply hbind_raise. rewrite F, E. reflexivity.
Qed.

Lemma follows_hist ops : forall first i, consistent first i -> follows first (h_buf (i_hdr i)) ops (hhist ops i).
Proof.
  induction ops as [|o ops IH]; intros first i H; [exact I|]. pose proof (consistent_after first i H) as H'.
  cbn [hhist]. destruct o as [| | | |b]; cbn [hstep].
  - rewrite (major_c first i H). cbn [follows]. split; [reflexivity|]. apply (IH _ _ H').
  - rewrite (minor_c first i H). cbn [follows]. split; [reflexivity|]. apply (IH _ _ H').
  - rewrite (semantic_c first i H). cbn [follows]. split; [reflexivity|]. apply (IH _ _ H').
  - rewrite (check_c first i H). cbn [follows]. apply (IH _ _ H').
  - cbn [follows]. apply (IH first (mkInst (mkHdr (h_class (i_hdr i)) b) (i_cache i))). exact H.
Qed.

(** ** Theorems *)

(** Any history of property reads, compatibility checks and memory rewrites on a new header:
    every read gives the version in the bytes present at the first read (or check). *)
Theorem C40_first_read_decides ops c b : In c versions -> follows None b ops (hhist ops (fresh (mkHdr c b))).
Proof. intros Hc. apply (follows_hist ops None (fresh (mkHdr c b))). split; [exact Hc|reflexivity]. Qed.

(** Without rewrites the cache is invisible: each read, at any point, gives what the bytes say,
    and each check what it gives on a new object. *)
Definition plain_out (o : hop) (h : hobj) : hout :=
  match o with
  | OpMajor => OutInt (major_version h)
  | OpMinor => OutInt (minor_version h)
  | OpVersion => OutText (semantic_version h)
  | OpCheck => OutCheck (check_compatibility h)
  | OpWrite _ => OutNone
  end.

Lemma transparent_from ops h : In (h_class h) versions -> forall first i, consistent first i -> i_hdr i = h ->
  seen_first first (h_buf h) = h_buf h -> (forall b, ~ In (OpWrite b) ops) -> hhist ops i = map (fun o => plain_out o h) ops.
Proof.
  intros Hc. destruct (C03_version_from_aversion h Hc) as (_ & _ & A & B & S).
  induction ops as [|o ops IH]; intros first i H Eh Ef Hn; [reflexivity|].
  pose proof (consistent_after first i H) as H'. cbn [hhist map].
  assert (forall b, ~ In (OpWrite b) ops) as Hn' by (intros b Hb; exact (Hn b (or_intror Hb))).
  rewrite Eh, Ef in H'. specialize (IH _ _ H' eq_refl eq_refl Hn').
  destruct o as [| | | |b]; cbn [hstep plain_out].
  - rewrite (major_c first i H), Eh, Ef, IH, A. reflexivity.
  - rewrite (minor_c first i H), Eh, Ef, IH, B. reflexivity.
  - rewrite (semantic_c first i H), Eh, Ef, IH, S. reflexivity.
  - rewrite (check_c first i H), Eh, Ef, IH, (check_with_own h Hc). reflexivity.
  - exfalso. exact (Hn b (or_introl eq_refl)).
Qed.

Theorem C40_transparent ops h : In (h_class h) versions -> (forall b, ~ In (OpWrite b) ops) ->
  hhist ops (fresh h) = map (fun o => plain_out o h) ops.
Proof.
  intros Hc Hn. apply (transparent_from ops h Hc None (fresh h)); [split; [exact Hc|reflexivity]|reflexivity|reflexivity|exact Hn].
Qed.

(** get_header with real header objects, caches included, gives the header and the exceptions of
    the model used everywhere else, and whatever is then read from the object it returns is what
    its bytes say. *)
Theorem C40_get_header_cache_invisible buf check : zlen buf = 480 ->
  match get_header_of_bytes_c buf check with
  | Ok i => get_header_of_bytes buf check = Ok (i_hdr i) /\
            forall ops, (forall b, ~ In (OpWrite b) ops) -> hhist ops i = map (fun o => plain_out o (i_hdr i)) ops
  | Raise e => get_header_of_bytes buf check = Raise e
  end.
Proof.
  intros L. unfold get_header_of_bytes_c, get_header_of_bytes.
  assert (In default_class versions) as Hd by (rewrite default_class_is; apply (table_class _ _ latest_in)).
  set (h0 := mkHdr default_class buf). assert (consistent None (fresh h0)) as C0 by (split; [exact Hd|reflexivity]).
  cbn [fresh i_hdr]. destruct (getint (h_obj h0) "magic") as [m|e]; cbn [rbind]; [|reflexivity].
  destruct (negb (m =? MAGIC)); [reflexivity|].
  change (mkInst h0 None) with (fresh h0). rewrite (semantic_c None (fresh h0) C0). cbn [seen_first fresh i_hdr].
  destruct (C03_version_from_aversion h0 Hd) as (_ & _ & _ & _ & S).
  change (u16_at (h_buf h0) 4 / 256 mod 128) with (major_of (h_buf h0)) in S.
  change (u16_at (h_buf h0) 4 mod 256) with (minor_of (h_buf h0)) in S. rewrite S. cbn [rbind].
  set (v := dotted (major_of (h_buf h0)) (minor_of (h_buf h0))).
  assert (forall i first, consistent first i -> seen_first first (h_buf (i_hdr i)) = h_buf (i_hdr i) ->
    match (if check then match check_compatibility_c i with (Ok _, i') => Ok i' | (Raise e, _) => Raise e end else Ok i) with
    | Ok i' => (if check then let? _ := check_compatibility (i_hdr i) in Ok (i_hdr i) else Ok (i_hdr i)) = Ok (i_hdr i') /\
              forall ops, (forall b, ~ In (OpWrite b) ops) -> hhist ops i' = map (fun o => plain_out o (i_hdr i')) ops
    | Raise e => (if check then let? _ := check_compatibility (i_hdr i) in Ok (i_hdr i) else Ok (i_hdr i)) = Raise e
    end) as K.
  { intros i first Ci Ef. destruct check.
    - rewrite (check_c first i Ci), (check_with_own _ (proj1 Ci)), Ef.
      destruct (check_with (i_hdr i) (h_buf (i_hdr i))) as [[]|e]; cbn [rbind]; [|reflexivity]. split; [reflexivity|].
      intros ops Hn. cbn [i_hdr]. pose proof (consistent_after first i Ci) as C1. rewrite Ef in C1.
      eapply transparent_from; [exact (proj1 Ci)|exact C1|reflexivity|reflexivity|exact Hn].
    - split; [reflexivity|]. intros ops Hn. eapply transparent_from; [exact (proj1 Ci)|exact Ci|reflexivity|exact Ef|exact Hn]. }
  pose proof (consistent_after None (fresh h0) C0) as C1. cbn [seen_first fresh i_hdr] in C1.
  destruct (negb (String.eqb v default_version)).
  - destruct (assoc v header_by_version) as [c|] eqn:Ea.
    + destruct (zlen buf <? sizeof (hc_header c)); cbn [rbind]; [reflexivity|].
      apply (K (fresh (mkHdr c (ztake (sizeof (hc_header c)) buf))) None); [|reflexivity].
      split; [|reflexivity]. cbn [fresh i_hdr h_class]. apply assoc_some_in in Ea. rewrite header_by_version_table in Ea.
      apply in_map_iff in Ea as ([vs c'] & E & Hin). cbn [fst snd] in E. injection E as _ <-.
      apply (table_class _ _ Hin).
    + cbn [rbind]. apply (K _ _ C1). reflexivity.
  - cbn [rbind]. apply (K _ _ C1). reflexivity.
Qed.

(** Non-vacuity: a 2.11 header read, rewritten as 2.12 and read again still says 2.11. *)
Example C40_stale_version :
  let h11 := make_header (mkVS "2.11" 2 11 96 1064016 968 (Some 432)) in
  let h12 := make_header (mkVS "2.12" 2 12 96 1064016 968 (Some 432)) in
  In S_2_11.a2_11_class versions /\
  hhist [OpWrite h11; OpMinor; OpWrite h12; OpMinor; OpVersion] (fresh (mkHdr S_2_11.a2_11_class h12)) =
    [OutNone; OutInt (Ok 11); OutNone; OutInt (Ok 11); OutText (Ok "2.11"%string)].
Proof. split; [do 9 right; left; reflexivity|vm_compute; reflexivity]. Qed.

(** The properties of a header that is not rewritten, read in some order. *)
Example C40_example :
  let h := mkHdr S_2_11.a2_11_class (make_header (mkVS "2.11" 2 11 96 1064016 968 (Some 432))) in
  In (h_class h) versions /\
  hhist [OpMinor; OpVersion; OpMajor; OpMinor] (fresh h) =
    [OutInt (Ok 11); OutText (Ok "2.11"%string); OutInt (Ok 2); OutInt (Ok 11)].
Proof. cbv zeta. split; [do 9 right; left; reflexivity|vm_compute; reflexivity]. Qed.
