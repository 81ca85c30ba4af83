(** * The printed JSON text is faithful (C42) *)
From Coq Require Import List ZArith Lia Bool Ascii String.
From Verif Require Import PyBase Model Parsers Json Spec SpecDict SpecJson BaseProofs JsonProofs.
Import ListNotations.
Local Open Scope list_scope.
Local Open Scope Z_scope.

Section C42.
(** [float.__repr__] is not part of the code; all that is used is that the text of a finite
    float is a JSON number. *)
Variable float_repr : Z -> list Z.
Hypothesis float_ok : forall b, finite32 b -> is_number (float_repr b) = true.

Theorem C42_text_reads_back pretty j :
  serialisable j -> all_floats finite32 j ->
  exists tx t, dumps float_repr pretty 0 j = Some tx /\ json_doc tx = Some t /\
               says (fun b x => x = float_repr b) t j.
Proof.
  intros Hs Hf. destruct (dumps_reads float_repr pretty float_ok j Hs Hf 0) as (tx & t & E & S & St & n & L & V).
  exists tx, t. split; [exact E|]. split; [|exact S].
  unfold json_doc. specialize (V [] I). rewrite app_nil_r in V.
  rewrite (value_more n (Datatypes.S (List.length tx)) tx _ ltac:(lia) V). reflexivity.
Qed.

Theorem C42_non_finite_floats_only pretty j : serialisable j ->
  exists tx, dumps float_repr pretty 0 j = Some tx /\
    (json_doc tx = None <-> ~ all_floats finite32 j).
Proof.
  intros Hs. destruct (dumps_total float_repr pretty j Hs 0) as (tx & E). exists tx. split; [exact E|]. split.
  - intros N F. destruct (C42_text_reads_back pretty j Hs F) as (tx' & t & E' & D & _). congruence.
  - intros N. unfold json_doc.
    pose proof (dumps_unreadable float_repr pretty float_ok j 0 Hs N tx E (S (List.length tx)) []) as V.
    rewrite app_nil_r in V. rewrite V. reflexivity.
Qed.
End C42.

(** Different values never share a document: the tree read determines the value. *)
Lemma codes_inj a b : codes a = codes b -> a = b.
Proof.
  unfold codes. revert b. induction a as [|c a IH]; intros [|d b]; cbn [list_ascii_of_string map]; intros E;
    try discriminate E; [reflexivity|].
  injection E as E1 E2. apply Nat2Z.inj in E1.
  assert (c = d) as -> by (rewrite <- (ascii_nat_embedding c), E1; apply ascii_nat_embedding).
  f_equal. apply IH. exact E2.
Qed.

Theorem C42_document_determines_value (float_text : Z -> list Z -> Prop) t j j' :
  (forall b b' x, float_text b x -> float_text b' x -> b = b') ->
  (forall b x, float_text b x -> int_text x = None) ->
  says float_text t j -> says float_text t j' -> j = j'.
Proof.
  intros Hf Hi. revert t j'. induction j as [z|b|s| |l IH|d IH] using json_ind'; intros t j' H H'.
  - destruct H as (x & -> & E). destruct j' as [z'|b'|s'|l'|d'|]; cbn [says] in H'; try discriminate H'.
    + destruct H' as (x' & X & H'). injection X as <-. congruence.
    + destruct H' as (x' & X & H'). injection X as <-. apply Hi in H'. congruence.
    + destruct H' as (x' & X & _). discriminate X.
    + destruct H' as (x' & X & _). discriminate X.
    + destruct H'.
  - destruct H as (x & -> & E). destruct j' as [z'|b'|s'|l'|d'|]; cbn [says] in H'; try discriminate H'.
    + destruct H' as (x' & X & H'). injection X as <-. apply Hi in E. congruence.
    + destruct H' as (x' & X & H'). injection X as <-. f_equal. eapply Hf; eassumption.
    + destruct H' as (x' & X & _). discriminate X.
    + destruct H' as (x' & X & _). discriminate X.
    + destruct H'.
  - cbn [says] in H. subst t. destruct j' as [z'|b'|s'|l'|d'|]; cbn [says] in H';
      try (destruct H' as (x' & X & _); discriminate X).
    + injection H' as ->. reflexivity.
    + destruct H'.
  - destruct H.
  - destruct H as (ts & -> & H). destruct j' as [z'|b'|s'|l'|d'|]; cbn [says] in H'; try discriminate H';
      try (destruct H' as (x' & X & _); discriminate X).
    + destruct H' as (ts' & X & H'). injection X as <-. f_equal.
      revert ts l' H H'. induction IH as [|x l Hx _ IHl]; intros [|t ts] [|x' l'] H H'; try (destruct H; fail); try (destruct H'; fail).
      * reflexivity.
      * destruct H as [H1 H2], H' as [H1' H2']. f_equal; [eapply Hx; eassumption|eapply IHl; eassumption].
    + destruct H'.
  - destruct H as (ts & -> & H). destruct j' as [z'|b'|s'|l'|d'|]; cbn [says] in H'; try discriminate H';
      try (destruct H' as (x' & X & _); discriminate X).
    + destruct H' as (ts' & X & H'). injection X as <-. f_equal.
      revert ts d' H H'. induction IH as [|[k x] l Hx _ IHl]; intros [|[k0 t] ts] [|[k' x'] l'] H H';
        try (destruct H; fail); try (destruct H'; fail).
      * reflexivity.
      * destruct H as (K & H1 & H2), H' as (K' & H1' & H2').
        f_equal; [|eapply IHl; eassumption]. f_equal; [apply codes_inj; congruence|]. eapply Hx; eassumption.
    + destruct H'.
Qed.

(** The text is printable ASCII and newlines only. *)
Definition ascii_text (t : list Z) : Prop := Forall (fun c => c = 10 \/ 32 <= c <= 126) t.

Ltac asc := unfold ascii_text; repeat (apply Forall_cons; [right; cbn; lia|]); apply Forall_nil.

Lemma ascii_app a b : ascii_text a -> ascii_text b -> ascii_text (a ++ b).
Proof. unfold ascii_text. intros. apply Forall_app. split; assumption. Qed.
Lemma ascii_newline i lv : ascii_text (newline i lv).
Proof.
  unfold newline, ascii_text. destruct i; [|constructor]. constructor; [left; reflexivity|].
  apply Forall_forall. intros c H. apply repeat_spec in H. lia.
Qed.
Lemma ascii_sep i lv : ascii_text (item_sep i lv).
Proof.
  unfold item_sep. destruct i.
  - constructor; [right; lia|apply ascii_newline].
  - asc.
Qed.
Lemma hexdigit_ascii d : 0 <= d < 16 -> 32 <= hexdigit d <= 126.
Proof. unfold hexdigit. destruct (Z.ltb_spec d 10); lia. Qed.
Lemma ascii_u n : ascii_text (u_escape n).
Proof.
  unfold u_escape, ascii_text. repeat (apply Forall_cons; [right|]); try apply Forall_nil; try lia;
    (apply hexdigit_ascii; apply Z.mod_pos_bound; lia).
Qed.
Lemma ascii_str s : ascii_text (dump_str s).
Proof.
  unfold dump_str. apply ascii_app; [asc|]. apply ascii_app; [|asc].
  induction s as [|c s IH]; [constructor|]. cbn [flat_map]. apply ascii_app; [|exact IH].
  unfold dump_char.
  repeat match goal with |- ascii_text (if ?b then _ else _) => destruct b eqn:? end;
    try (asc; fail); [apply ascii_u|]. apply ascii_app; apply ascii_u.
Qed.
Lemma ascii_tail {A} (f : A -> option (list Z)) sep l t : ascii_text sep ->
  Forall (fun x => forall t, f x = Some t -> ascii_text t) l -> dump_tail f sep l = Some t -> ascii_text t.
Proof.
  intros Hs F. revert t. induction F as [|x l Hx _ IH]; intros t E.
  - injection E as <-. constructor.
  - cbn [dump_tail] in E. destruct (f x) as [a|]; [|discriminate E]. destruct (dump_tail f sep l) as [b|]; [|discriminate E].
    injection E as <-. apply ascii_app; [exact Hs|]. apply ascii_app; auto.
Qed.

Lemma ascii_number t : is_number t = true -> ascii_text t.
Proof.
  intros H. apply is_number_chars in H. apply Forall_forall. intros c Hc. rewrite forallb_forall in H.
  specialize (H c Hc). unfold number_char, is_digit in H. lia.
Qed.

Theorem C42_text_is_ascii float_repr pretty lv j tx :
  (forall b, finite32 b -> is_number (float_repr b) = true) ->
  dumps float_repr pretty lv j = Some tx -> ascii_text tx.
Proof.
  intros Hf. revert lv tx. induction j as [z|b|s| |l IH|d IH] using json_ind'; intros lv tx E.
  - cbn [dumps] in E. assert (tx = text (str_of_int z)) as -> by congruence. apply ascii_number.
    pose proof (int_text_str z) as X. unfold int_text in X. destruct (is_number (text (str_of_int z))); [reflexivity|discriminate X].
  - cbn [dumps] in E. assert (tx = dump_float float_repr b) as -> by congruence. clear E. unfold dump_float.
    destruct (f32_finite b) eqn:Fb; [apply ascii_number, Hf, f32_finite_spec, Fb|].
    destruct (negb _); [|destruct (_ <=? b)]; asc.
  - cbn [dumps] in E. assert (tx = dump_str s) as -> by congruence. apply ascii_str.
  - discriminate E.
  - destruct l as [|x r]; [injection E as <-; asc|].
    inversion IH as [|? ? Hx Hr]; subst.
    rewrite dumps_list in E. destruct (dumps float_repr pretty (S lv) x) as [t1|] eqn:E1; [|discriminate E].
    destruct (dump_tail _ _ r) as [t2|] eqn:E2; [|discriminate E]. injection E as <-.
    match goal with |- ascii_text (?c :: ?q) => change (c :: q) with ([c] ++ q) end.
    repeat apply ascii_app; try apply ascii_newline; try (asc; fail); [eapply Hx; eassumption|].
    eapply ascii_tail; [apply ascii_sep| |exact E2]. eapply Forall_impl; [|exact Hr]. intros y Hy t Et. eapply Hy; eassumption.
  - destruct d as [|x r]; [injection E as <-; asc|].
    inversion IH as [|? ? Hx Hr]; subst.
    assert (forall p, (forall lv tx, dumps float_repr pretty lv (snd p) = Some tx -> ascii_text tx) ->
              forall t, dump_member float_repr pretty (S lv) p = Some t -> ascii_text t) as M.
    { intros p Hp t Ep. apply member_form in Ep as (tv & Ev & ->). apply ascii_app; [apply ascii_str|].
      apply ascii_app; [asc|eapply Hp; eassumption]. }
    rewrite dumps_dict in E. destruct (dump_member float_repr pretty (S lv) x) as [t1|] eqn:E1; [|discriminate E].
    destruct (dump_tail _ _ r) as [t2|] eqn:E2; [|discriminate E]. injection E as <-.
    match goal with |- ascii_text (?c :: ?q) => change (c :: q) with ([c] ++ q) end.
    repeat apply ascii_app; try apply ascii_newline; try (asc; fail); [exact (M x Hx _ E1)|].
    eapply ascii_tail; [apply ascii_sep| |exact E2]. eapply Forall_impl; [|exact Hr]. intros y Hy t Et. exact (M y Hy _ Et).
Qed.

(** ** Examples: a float text satisfying the hypotheses, and a document *)

(** The exact decimal text of a finite binary32: an integer and a power of ten. *)
Definition exact_text (b : Z) : list Z :=
  let e := b / 8388608 mod 256 in
  let m := b mod 8388608 + (if e =? 0 then 0 else 8388608) in
  let k := (if e =? 0 then -149 else e - 150) in
  (if 2147483648 <=? b then [45] else []) ++
  (if k <? 0 then text (str_of_int (m * 5 ^ (- k))) ++ [101] ++ text (str_of_int k)
   else text (str_of_int (m * 2 ^ k)) ++ text ".0").

Definition sample_value : json :=
  JList [JDict [("name"%string, JStr [97; 34; 10; 233; 8364; 128512]); ("n"%string, JInt (-12));
                ("load"%string, JFloat 1067030938); ("l"%string, JList [JInt 0; JInt 18446744073709551616])];
         JDict []; JList []].

Example C42_example : serialisable sample_value /\ all_floats finite32 sample_value.
Proof.
  split; unfold sample_value; [cbn [serialisable map fold_right snd fst]|cbn [all_floats]; unfold finite32].
  - repeat apply conj; try exact I; try lia. repeat (apply Forall_cons; [unfold scalar; lia|]). apply Forall_nil.
  - repeat apply conj; try exact I. vm_compute. discriminate.
Qed.

Example C42_text_example :
  is_number (exact_text 1067030938) = true /\
  (match dumps exact_text true 0 sample_value with
   | Some tx => match json_doc tx with Some _ => true | None => false end
   | None => false
   end = true) /\
  dumps exact_text false 0 (JList [JFloat 2143289344]) = Some (text "[NaN]") /\
  json_doc (text "[NaN]") = None.
Proof.
  split; [vm_compute; reflexivity|]. split; [vm_compute; reflexivity|]. split; vm_compute; reflexivity.
Qed.
