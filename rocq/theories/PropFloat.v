(** * The printed document, floats included: C42 with the floats of CPython, C49 *)
From Coq Require Import List ZArith Lia Bool String.
From Coq Require Import QArith.
From Coq Require Import Init.Byte.
From Verif Require Import PyBase CTypes S_shared Model Parsers Json FloatRepr Inflate Gzip Reader.
From Verif Require Import Spec SpecDict SpecLog SpecRows SpecReader SpecJson SpecFloat.
From Verif Require Import BaseProofs TableProofs HeaderProofs GenProofs RunProofs LogBuild JsonProofs ReaderProofs FloatProofs FloatText.
From Verif Require Import PropHeader PropLog PropJson PropReader.
Import ListNotations.
Local Open Scope list_scope.
Local Open Scope Z_scope.

(** ** The text of a float *)

(** The text printed for a finite float is a JSON number that is read as exactly that float. *)
Theorem C42_float_reads_back b : finite32 b -> reads_as_float b (repr32 b).
Proof. apply repr32_reads. Qed.

(** A text is read as at most one float. *)
Lemma bits_split b : b = b / 8388608 * 8388608 + b mod 8388608.
Proof. pose proof (Z.div_mod b 8388608 ltac:(lia)). lia. Qed.

Definition scaled (b : Z) : Z :=
  let e := b / 8388608 mod 256 in let f := b mod 8388608 in
  if e =? 0 then f else (8388608 + f) * 2 ^ (e - 1).

Lemma value32_scaled b : (value32 b == bin_q (if b <? 2147483648 then scaled b else - scaled b) (-149))%Q.
Proof.
  unfold value32, scaled. pose proof (Z.mod_pos_bound (b / 8388608) 256 ltac:(lia)) as B.
  assert ((if b / 8388608 mod 256 =? 0 then bin_q (b mod 8388608) (-149)
           else bin_q (8388608 + b mod 8388608) (b / 8388608 mod 256 - 150)) ==
          bin_q (if b / 8388608 mod 256 =? 0 then b mod 8388608 else (8388608 + b mod 8388608) * 2 ^ (b / 8388608 mod 256 - 1)) (-149))%Q as K.
  { destruct (Z.eqb_spec (b / 8388608 mod 256) 0) as [E|E]; [reflexivity|].
    rewrite <- (bin_shift _ (b / 8388608 mod 256 - 150) (b / 8388608 mod 256 - 1)) by lia.
    replace (b / 8388608 mod 256 - 150 - (b / 8388608 mod 256 - 1)) with (-149) by lia. reflexivity. }
  destruct (b <? 2147483648); [exact K|]. rewrite K. unfold bin_q. rewrite inject_Z_opp. ring.
Qed.

Lemma scaled_inj b b' : scaled b = scaled b' ->
  b / 8388608 mod 256 = b' / 8388608 mod 256 /\ b mod 8388608 = b' mod 8388608.
Proof.
  unfold scaled.
  pose proof (Z.mod_pos_bound (b / 8388608) 256 ltac:(lia)) as B1. pose proof (Z.mod_pos_bound (b' / 8388608) 256 ltac:(lia)) as B2.
  pose proof (Z.mod_pos_bound b 8388608 ltac:(lia)) as B3. pose proof (Z.mod_pos_bound b' 8388608 ltac:(lia)) as B4.
  generalize dependent (b / 8388608 mod 256). generalize dependent (b' / 8388608 mod 256).
  generalize dependent (b mod 8388608). generalize dependent (b' mod 8388608).
  intros f' F' f F e' B' e B. clear b b'.
  assert (forall x y g h, 0 <= g < 8388608 -> 0 <= h < 8388608 -> 0 < x -> x < y ->
            (8388608 + g) * 2 ^ (x - 1) < (8388608 + h) * 2 ^ (y - 1)) as L.
  { intros x y g h G H X Y. replace (y - 1) with (x - 1 + 1 + (y - x - 1)) by lia. rewrite !Z.pow_add_r by lia.
    pose proof (Z.pow_pos_nonneg 2 (x - 1) ltac:(lia) ltac:(lia)). pose proof (Z.pow_pos_nonneg 2 (y - x - 1) ltac:(lia) ltac:(lia)).
    change (2 ^ 1) with 2. nia. }
  assert (forall x g, 0 <= g < 8388608 -> 0 < x -> 8388608 <= (8388608 + g) * 2 ^ (x - 1)) as P.
  { intros x g G X. pose proof (Z.pow_pos_nonneg 2 (x - 1) ltac:(lia) ltac:(lia)). nia. }
  destruct (Z.eqb_spec e 0) as [E|E]; destruct (Z.eqb_spec e' 0) as [E'|E']; intros H.
  - lia.
  - pose proof (P e' f' ltac:(lia) ltac:(lia)). lia.
  - pose proof (P e f ltac:(lia) ltac:(lia)). lia.
  - destruct (Z.lt_trichotomy e e') as [T|[T|T]].
    + pose proof (L e e' f f' ltac:(lia) ltac:(lia) ltac:(lia) T). lia.
    + subst e'. split; [reflexivity|]. pose proof (Z.pow_pos_nonneg 2 (e - 1) ltac:(lia) ltac:(lia)). nia.
    + pose proof (L e' e f' f ltac:(lia) ltac:(lia) ltac:(lia) T). lia.
Qed.

Theorem C42_float_text_unique b b' t : 0 <= b < 4294967296 -> 0 <= b' < 4294967296 ->
  reads_as_float b t -> reads_as_float b' t -> b = b'.
Proof.
  intros H H' (_ & _ & R & S) (_ & _ & R' & S').
  pose proof (rounds_to_unique _ _ _ R R') as E. rewrite !value32_scaled, bin_eq in E.
  unfold negative32 in *.
  assert (scaled b = scaled b') as E1.
  { destruct (Z.ltb_spec b 2147483648); destruct (Z.ltb_spec b' 2147483648); lia. }
  apply scaled_inj in E1. destruct E1 as [E1 E2].
  assert (b / 8388608 / 256 = b' / 8388608 / 256) as E3.
  { rewrite !Z.div_div by lia. change (8388608 * 256) with 2147483648.
    destruct (Z_lt_le_dec b 2147483648), (Z_lt_le_dec b' 2147483648); lia. }
  rewrite (bits_split b), (bits_split b'), E2.
  rewrite (Z.div_mod (b / 8388608) 256), (Z.div_mod (b' / 8388608) 256), E1, E3 by lia. reflexivity.
Qed.

(** ** Values *)

Lemma repr32_number b : finite32 b -> is_number (repr32 b) = true.
Proof. intros H. apply repr32_reads, H. Qed.

Lemma says_impl (P Q : Z -> list Z -> Prop) : (forall b x, P b x -> Q b x) -> forall j t, says P t j -> says Q t j.
Proof.
  intros PQ j. induction j as [z|b|s| |l IH|d IH] using json_ind'; intros t H.
  - exact H.
  - destruct H as (x & -> & H). exists x. split; [reflexivity|apply PQ, H].
  - exact H.
  - exact H.
  - destruct H as (ts & -> & H). exists ts. split; [reflexivity|]. revert ts H.
    induction IH as [|x l Hx _ IHl]; intros [|t ts] H; try exact H. destruct H as [H1 H2]. split; [apply Hx, H1|apply IHl, H2].
  - destruct H as (ts & -> & H). exists ts. split; [reflexivity|]. revert ts H.
    induction IH as [|[k x] l Hx _ IHl]; intros [|[k' t] ts] H; try exact H. destruct H as (H0 & H1 & H2).
    split; [exact H0|]. split; [apply Hx, H1|apply IHl, H2].
Qed.

Lemma says_floats (P Q : Z -> list Z -> Prop) (F : Z -> Prop) : (forall b x, F b -> P b x -> Q b x) ->
  forall j t, all_floats F j -> says P t j -> says Q t j.
Proof.
  intros PQ j. induction j as [z|b|s| |l IH|d IH] using json_ind'; intros t A H.
  - exact H.
  - destruct H as (x & -> & H). exists x. split; [reflexivity|apply PQ; [exact A|exact H]].
  - exact H.
  - exact H.
  - destruct H as (ts & -> & H). exists ts. split; [reflexivity|]. revert ts A H.
    induction IH as [|x l Hx _ IHl]; intros [|t ts] A H; try exact H. destruct H as [H1 H2], A as [A1 A2].
    split; [apply Hx; assumption|apply IHl; assumption].
  - destruct H as (ts & -> & H). exists ts. split; [reflexivity|]. revert ts A H.
    induction IH as [|[k x] l Hx _ IHl]; intros [|[k' t] ts] A H; try exact H. destruct H as (H0 & H1 & H2), A as [A1 A2].
    split; [exact H0|]. split; [apply Hx; assumption|apply IHl; assumption].
Qed.

Lemma floats_in_range j : serialisable j -> all_floats (fun b => 0 <= b < 4294967296) j.
Proof.
  induction j as [z|b|s| |l IH|d IH] using json_ind'; intros H; try exact I.
  - exact H.
  - cbn [serialisable] in H. induction IH as [|x l Hx _ IHl]; [exact I|]. destruct H as [H1 H2].
    split; [apply Hx, H1|apply IHl, H2].
  - cbn [serialisable] in H. induction IH as [|[k x] l Hx _ IHl]; [exact I|]. destruct H as [H1 H2].
    split; [apply Hx, H1|apply IHl, H2].
Qed.

(** Values without infinities and NaNs: the text printed is a JSON document that says exactly the
    value, floats included. *)
Theorem C42_value_reads_back pretty j : serialisable j -> all_floats finite32 j ->
  exists tx t, dumps repr32 pretty 0 j = Some tx /\ json_doc tx = Some t /\ says reads_as_float t j.
Proof.
  intros Hs Hf. destruct (C42_text_reads_back repr32 repr32_number pretty j Hs Hf) as (tx & t & E & D & S).
  exists tx, t. split; [exact E|]. split; [exact D|].
  revert S. apply (says_floats _ _ finite32); [|exact Hf]. intros b x Hb ->. apply repr32_reads, Hb.
Qed.

(** A document says at most one value. *)
Theorem C42_says_one_value t j j' : serialisable j -> serialisable j' ->
  says reads_as_float t j -> says reads_as_float t j' -> j = j'.
Proof.
  intros Hs Hs' H H'. set (P := fun b x => 0 <= b < 4294967296 /\ reads_as_float b x).
  assert (forall j, serialisable j -> says reads_as_float t j -> says P t j) as K.
  { intros k Hk. apply (says_floats _ _ (fun b => 0 <= b < 4294967296)); [|apply floats_in_range, Hk].
    intros b x B R. split; assumption. }
  apply (C42_document_determines_value P t j j').
  - intros b b' x [B R] [B' R']. eapply C42_float_text_unique; eassumption.
  - intros b x [_ (_ & N & _)]. exact N.
  - apply K; assumption.
  - apply K; assumption.
Qed.

(** Different values are printed differently. *)
Theorem C42_printing_injective pretty pretty' j j' tx : serialisable j -> serialisable j' ->
  all_floats finite32 j -> all_floats finite32 j' ->
  dumps repr32 pretty 0 j = Some tx -> dumps repr32 pretty' 0 j' = Some tx -> j = j'.
Proof.
  intros Hs Hs' Hf Hf' E E'.
  destruct (C42_value_reads_back pretty j Hs Hf) as (x & t & X & D & S).
  destruct (C42_value_reads_back pretty' j' Hs' Hf') as (x' & t' & X' & D' & S').
  assert (t = t') by congruence. subst t'. eapply C42_says_one_value; eassumption.
Qed.

(** ** The whole way: from the file to the document (C49) *)
(** [t] is a JSON document for the list [js], or not JSON at all when a float of [js] is an
    infinity or a NaN. *)
Definition document (t : list Z) (js : list json) : Prop :=
  match json_doc t with
  | Some tree => all_floats finite32 (JList js) /\ says reads_as_float tree (JList js)
  | None => ~ all_floats finite32 (JList js)
  end.

Lemma printed_document pretty js : Forall serialisable js ->
  exists t, dumps repr32 pretty 0 (JList js) = Some t /\ document t js.
Proof.
  intros Hs. apply serialisable_list in Hs.
  destruct (C42_non_finite_floats_only repr32 repr32_number pretty (JList js) Hs) as (t & E & N).
  exists t. split; [exact E|]. unfold document. destruct (json_doc t) as [tree|] eqn:D; [|apply N; reflexivity].
  assert (all_floats finite32 (JList js)) as F.
  { assert (forall b, {finite32 b} + {~ finite32 b}) as Dec by (intros b; unfold finite32; destruct (Z.eq_dec (b / 8388608 mod 256) 255); [right|left]; tauto).
    assert (forall j, {all_floats finite32 j} + {~ all_floats finite32 j}) as K.
    { fix IH 1. intros [z|b|s|l|d|]; try (left; exact I).
      - apply Dec.
      - induction l as [|x l IHl]; [left; exact I|]. destruct (IH x) as [A|A]; [|right; intros [B _]; exact (A B)].
        destruct IHl as [B|B]; [left; split; assumption|right; intros [_ C]; exact (B C)].
      - induction d as [|[k x] l IHl]; [left; exact I|]. destruct (IH x) as [A|A]; [|right; intros [B _]; exact (A B)].
        destruct IHl as [B|B]; [left; split; assumption|right; intros [_ C]; exact (B C)]. }
    destruct (K (JList js)) as [A|A]; [exact A|]. apply N in A. discriminate A. }
  split; [exact F|]. destruct (C42_value_reads_back pretty _ Hs F) as (t' & tree' & E' & D' & S).
  assert (tree = tree') by congruence. subst tree'. exact S.
Qed.

Section Document.
Variable dec : list byte -> option (list byte).
Variable disk : list Z -> res (list byte).
Variable salvage : list byte -> list byte.
Variable fault : list byte -> exn.
Let parse := parse_file dec disk salvage fault repr32.

(** A log of any supported version, complete or cut after its header, of any contents: what is
    printed is a JSON document with exactly one entry for each complete sample (up to 86400), in
    order, and each entry is the header, the record and the statistics of that sample. *)
Theorem C49_document path stored vs hb ss p q pretty st sc :
  disk path = Ok stored -> delivers path stored p ->
  wf_log dec vs hb ss -> log_bytes hb ss = p ++ q -> header_size <= zlen p ->
  exists c js t, class_for vs c /\
    Forall2 (full_entry c hb st sc) (at_most_default (complete (zlen p - header_size) ss)) js /\
    parse path [] pretty st sc = Ok t /\ document t js.
Proof.
  intros Hd Hdel Hw E Hp. pose proof Hw as (Hvs & Ha & Hws). destruct (table_spec _ Hvs) as (c & Hc). exists c.
  destruct (default_run dec vs c hb p ss q Hc Hw E Hp) as (f1 & f2 & G & R).
  destruct (samples_full dec path st sc _ _ _ _ _ _ _ G R
    (wf_contents dec vs c _ Hc (firstn_wf _ _ _ (complete_wf _ _ _ _ Hws)))) as (js & J1 & J2 & J3).
  destruct (printed_document pretty js J2) as (t & T1 & T2).
  exists js, t. split; [apply table_class_for, Hc|]. split; [exact J1|]. split; [|exact T2].
  unfold parse, parse_file. rewrite (C39_open disk salvage fault path stored p Hd Hdel). cbn [rbind].
  rewrite J3. cbn [ended rbind]. rewrite T1. reflexivity.
Qed.

(** The same for the rows of parseables of a 1.26 log. *)
Theorem C49_rows_document path stored vs hb ss p q pretty st sc k ps :
  disk path = Ok stored -> delivers path stored p ->
  wf_log dec vs hb ss -> vs_name vs = "1.26"%string -> log_bytes hb ss = p ++ q -> header_size <= zlen p ->
  Forall (fun k => In k parseable_names) (k :: ps) ->
  exists rows e, log_rows hb (k :: ps) (at_most_default (complete (zlen p - header_size) ss)) rows e /\
    match e with
    | Some x => parse path (k :: ps) pretty st sc = Raise x
    | None => exists t, parse path (k :: ps) pretty st sc = Ok t /\ document t rows
    end.
Proof.
  intros Hd Hdel Hw Hn E Hp Hk. pose proof Hw as (Hvs & Ha & Hws). destruct (table_spec _ Hvs) as (c & Hc).
  destruct (default_run dec vs c hb p ss q Hc Hw E Hp) as (f1 & f2 & G & R).
  assert (major_of hb = 1 /\ minor_of hb = 26) as [M1 M2].
  { destruct Ha as (_ & _ & [-> ->] & _). clear -Hvs Hn. cbn [spec_versions In] in Hvs.
    repeat (destruct Hvs as [<- | Hvs]; [try discriminate Hn; auto|]). destruct Hvs. }
  destruct (samples_parseable dec path k ps st sc _ _ _ _ _ _ _ Hk G M1 M2 R
    (wf_contents dec vs c _ Hc (firstn_wf _ _ _ (complete_wf _ _ _ _ Hws)))) as (rows & e & L1 & L2 & L3).
  exists rows, e. split; [exact L1|].
  unfold parse, parse_file. rewrite (C39_open disk salvage fault path stored p Hd Hdel). cbn [rbind]. rewrite L3.
  destruct e as [x|]; [reflexivity|]. cbn [ended rbind].
  destruct (printed_document pretty rows L2) as (t & T1 & T2). exists t. rewrite T1. split; [reflexivity|exact T2].
Qed.
End Document.

(** Two files, of whatever logs, versions and names, print the same JSON document only if their
    entries are the same. *)
Theorem C49_output_determines_entries dec disk salvage fault path stored vs hb ss p q pretty st sc
    path' stored' vs' hb' ss' p' q' pretty' st' sc' t tree :
  disk path = Ok stored -> delivers path stored p ->
  wf_log dec vs hb ss -> log_bytes hb ss = p ++ q -> header_size <= zlen p ->
  disk path' = Ok stored' -> delivers path' stored' p' ->
  wf_log dec vs' hb' ss' -> log_bytes hb' ss' = p' ++ q' -> header_size <= zlen p' ->
  parse_file dec disk salvage fault repr32 path [] pretty st sc = Ok t ->
  parse_file dec disk salvage fault repr32 path' [] pretty' st' sc' = Ok t ->
  json_doc t = Some tree ->
  exists c c' js, class_for vs c /\ class_for vs' c' /\
    Forall2 (full_entry c hb st sc) (at_most_default (complete (zlen p - header_size) ss)) js /\
    Forall2 (full_entry c' hb' st' sc') (at_most_default (complete (zlen p' - header_size) ss')) js.
Proof.
  intros Hd Hdel Hw E Hp Hd' Hdel' Hw' E' Hp' P P' D.
  assert (forall path stored vs hb ss p q pretty st sc, disk path = Ok stored -> delivers path stored p ->
    wf_log dec vs hb ss -> log_bytes hb ss = p ++ q -> header_size <= zlen p ->
    parse_file dec disk salvage fault repr32 path [] pretty st sc = Ok t ->
    exists c js, class_for vs c /\ Forall2 (full_entry c hb st sc) (at_most_default (complete (zlen p - header_size) ss)) js /\
      serialisable (JList js) /\ says reads_as_float tree (JList js)) as K.
  { clear -D. intros path stored vs hb ss p q pretty st sc Hd Hdel Hw E Hp P.
    pose proof Hw as (Hvs & Ha & Hws). destruct (table_spec _ Hvs) as (c & Hc). exists c.
    destruct (default_run dec vs c hb p ss q Hc Hw E Hp) as (f1 & f2 & G & R).
    destruct (samples_full dec path st sc _ _ _ _ _ _ _ G R
      (wf_contents dec vs c _ Hc (firstn_wf _ _ _ (complete_wf _ _ _ _ Hws)))) as (js & J1 & J2 & J3).
    destruct (printed_document pretty js J2) as (t' & T1 & T2).
    unfold parse_file in P. rewrite (C39_open disk salvage fault path stored p Hd Hdel) in P. cbn [rbind] in P.
    rewrite J3 in P. cbn [ended rbind] in P. rewrite T1 in P. injection P as ->.
    unfold document in T2. rewrite D in T2.
    exists js. split; [apply table_class_for, Hc|]. split; [exact J1|]. split; [apply serialisable_list, J2|apply T2]. }
  destruct (K _ _ _ _ _ _ _ _ _ _ Hd Hdel Hw E Hp P) as (c & js & C & F & S & Y).
  destruct (K _ _ _ _ _ _ _ _ _ _ Hd' Hdel' Hw' E' Hp' P') as (c' & js' & C' & F' & S' & Y').
  pose proof (C42_says_one_value tree _ _ S S' Y Y') as X. injection X as ->.
  exists c, c', js'. auto.
Qed.

(** ** Examples *)

Example C42_float_examples :
  repr32 1065353216 = text "1.0" /\ repr32 1036831949 = text "0.10000000149011612" /\
  repr32 2147483648 = text "-0.0" /\ repr32 1 = text "1.401298464324817e-45" /\
  repr32 2139095039 = text "3.4028234663852886e+38" /\ repr32 3267887104 = text "-100.0" /\
  finite32 1036831949 /\ finite32 2147483648 /\ finite32 1 /\ finite32 2139095039.
Proof.
  do 6 (split; [vm_compute; reflexivity|]). do 3 (split; [vm_compute; discriminate|]). vm_compute. discriminate.
Qed.

(** The CPU rows of a 1.26 log hold no floats and are always a JSON document. *)
Example C49_example n salvage fault pretty :
  exists hb ss rows t tree, wf_log zdecompress (mkVS "1.26" 1 26 80 88368 616 None) hb ss /\ zlen ss = Z.of_nat n /\
    log_rows hb ["CPU"%string] (at_most_default ss) rows None /\
    parse_file zdecompress (fun _ => Ok (log_bytes hb ss)) salvage fault repr32 log_name ["CPU"%string] pretty false false = Ok t /\
    json_doc t = Some tree /\ says reads_as_float tree (JList rows).
Proof.
  assert (forall hb ss rows e, log_rows hb ["CPU"%string] ss rows e -> e = None /\ Forall (all_floats finite32) rows) as K.
  { intros hb ss rows e H. induction H as [|s ss rows more e R _ IH|s ss rows e R].
    - split; [reflexivity|constructor].
    - destruct IH as [-> IH]. split; [reflexivity|]. apply Forall_app. split; [|exact IH].
      inversion R as [|? ? rw ? ? R1 R2|]; subst. inversion R1; subst. inversion R2; subst.
      cbn [map app]. constructor; [|constructor]. apply all_floats_dict. unfold cpu_row. cbn [app].
      repeat (apply Forall_cons; [exact I|]). apply Forall_nil.
    - exfalso. inversion R as [|? ? rw ? ? R1 R2|? ? ? ? R1]; subst; [inversion R2|inversion R1]. }
  set (vs := mkVS "1.26" 1 26 80 88368 616 None).
  assert (exists hb ss, wf_log zdecompress vs hb ss /\ zlen ss = Z.of_nat n) as (hb & ss & Hw & L).
  { eexists. eexists. split; [apply (example_log_wf _ n); left; reflexivity|apply example_log_len]. }
  assert (zlen hb = header_size) as Lh by apply Hw.
  assert (zlen (log_bytes hb ss) - header_size = zlen (samples_bytes ss)) as LL by (unfold log_bytes; rewrite zlen_app; lia).
  destruct (C49_rows_document zdecompress (fun _ => Ok (log_bytes hb ss)) salvage fault log_name _ vs hb ss (log_bytes hb ss) [] pretty false false
    "CPU"%string [] eq_refl (or_intror (conj log_name_plain eq_refl)) Hw eq_refl) as (rows & e & R & P).
  { rewrite app_nil_r. reflexivity. }
  { pose proof (zlen_nonneg (samples_bytes ss)). lia. }
  { repeat (apply Forall_cons; [cbn; tauto|]). constructor. }
  rewrite LL, complete_all in R. destruct (K _ _ _ _ R) as [-> F]. destruct P as (t & P & D).
  unfold document in D. apply all_floats_list in F. destruct (json_doc t) as [tree|] eqn:J; [|tauto].
  exists hb, ss, rows, t, tree. destruct D as [_ D]. auto 10.
Qed.
