(** * json.dumps writes JSON that reads back to the same value *)
From Coq Require Decimal DecimalZ DecimalFacts DecimalPos DecimalN.
From Coq Require Import List ZArith Lia Bool Ascii String DecimalString.
From Verif Require Import PyBase Model Parsers Json Spec SpecDict SpecJson BaseProofs.
Import ListNotations.
Local Open Scope list_scope.
Local Open Scope Z_scope.

(** ** Integers *)

Fixpoint uint_codes (d : Decimal.uint) : list Z :=
  match d with
  | Decimal.Nil => []
  | Decimal.D0 r => 48 :: uint_codes r
  | Decimal.D1 r => 49 :: uint_codes r
  | Decimal.D2 r => 50 :: uint_codes r
  | Decimal.D3 r => 51 :: uint_codes r
  | Decimal.D4 r => 52 :: uint_codes r
  | Decimal.D5 r => 53 :: uint_codes r
  | Decimal.D6 r => 54 :: uint_codes r
  | Decimal.D7 r => 55 :: uint_codes r
  | Decimal.D8 r => 56 :: uint_codes r
  | Decimal.D9 r => 57 :: uint_codes r
  end.

Lemma text_uint d : text (NilEmpty.string_of_uint d) = uint_codes d.
Proof. induction d; cbn [NilEmpty.string_of_uint text uint_codes]; try rewrite IHd; reflexivity. Qed.

Lemma uint_codes_digits d : forallb is_digit (uint_codes d) = true.
Proof. induction d; cbn; auto. Qed.

Lemma fold_digits_acc s a :
  fold_left (fun a c => 10 * a + (c - 48)) s a =
  a * 10 ^ zlen s + fold_left (fun a c => 10 * a + (c - 48)) s 0.
Proof.
  revert a. induction s as [|c s IH]; intros a; cbn [fold_left].
  - change (zlen (@nil Z)) with 0. lia.
  - rewrite IH, (IH (10 * 0 + (c - 48))), zlen_cons, Z.pow_add_r by (pose proof (zlen_nonneg s); lia). lia.
Qed.

Lemma of_uint_acc_codes d acc :
  Z.pos (Pos.of_uint_acc d acc) = fold_left (fun a c => 10 * a + (c - 48)) (uint_codes d) (Z.pos acc).
Proof.
  revert acc. induction d; intros acc; cbn [Pos.of_uint_acc uint_codes fold_left]; try reflexivity;
    rewrite IHd; f_equal; lia.
Qed.

Lemma of_uint_codes d : Z.of_uint d = digits_value (uint_codes d).
Proof.
  unfold Z.of_uint, digits_value.
  induction d; cbn [Pos.of_uint uint_codes fold_left]; try reflexivity; try exact IHd;
    cbn [Z.of_N]; rewrite of_uint_acc_codes; f_equal; lia.
Qed.

Lemma skip_digits_all s : forallb is_digit s = true -> skip_digits s = [].
Proof.
  induction s as [|c s IH]; cbn [forallb skip_digits]; intros H; [reflexivity|].
  apply andb_prop in H as [-> H]. auto.
Qed.

(** A normal numeral is "0" or does not start with "0". *)
Lemma unorm_codes d : exists c s, uint_codes (Decimal.unorm d) = c :: s /\ forallb is_digit (c :: s) = true /\
  (c = 48 -> s = []).
Proof.
  unfold Decimal.unorm. destruct (Decimal.nzhead d) eqn:E.
  1: exists 48, []; cbn; auto.
  1: { exfalso. revert u E. clear. induction d; cbn [Decimal.nzhead]; intros u E; try discriminate E. eapply IHd; exact E. }
  all: match goal with |- exists c s, uint_codes ?x = _ /\ _ =>
         pose proof (uint_codes_digits x) as Hd; cbn [uint_codes] in *;
         eexists _, _; split; [reflexivity|]; split; [exact Hd|]; intros X; exfalso; lia end.
Qed.

Lemma is_number_digits c s : forallb is_digit (c :: s) = true -> (c = 48 -> s = []) ->
  is_number (c :: s) = true /\ is_number (45 :: c :: s) = true /\ c <> 45.
Proof.
  intros Hd H0. cbn [forallb] in Hd. apply andb_prop in Hd as [Hc Hd].
  assert (48 <= c <= 57) as Rc by (unfold is_digit in Hc; lia).
  assert (match skip_int (c :: s) with
          | Some s => match skip_frac s with
              | Some s => match skip_exp s with Some [] => true | _ => false end
              | None => false
              end
          | None => false
          end = true) as K.
  { cbn [skip_int]. destruct (Z.eqb_spec c 48) as [->|Hne].
    - rewrite (H0 eq_refl). reflexivity.
    - rewrite Hc, skip_digits_all by exact Hd. reflexivity. }
  unfold is_number. destruct (Z.eqb_spec c 45) as [->|Hne]; [lia|]. rewrite Z.eqb_refl. auto.
Qed.

Lemma int_text_str z : int_text (text (str_of_int z)) = Some z.
Proof.
  unfold str_of_int. pose proof (DecimalZ.of_to z) as E.
  assert (Z.to_int z = Decimal.norm (Z.to_int z)) as N.
  { rewrite <- (DecimalZ.to_of (Z.to_int z)) , E. reflexivity. }
  destruct (Z.to_int z) as [d|d] eqn:Ez.
  - cbn [Decimal.norm] in N. injection N as N. destruct (unorm_codes d) as (c & s & Ec & Hd & H0). rewrite <- N in Ec.
    cbn [NilZero.string_of_int].
    assert (text (NilZero.string_of_uint d) = c :: s) as ->.
    { destruct d; [discriminate Ec|..]; cbn [NilZero.string_of_uint]; rewrite text_uint; exact Ec. }
    unfold int_text. destruct (is_number_digits c s Hd H0) as (-> & _ & Hc).
    destruct (Z.eqb_spec c 45) as [->|_]; [congruence|]. rewrite Hd. f_equal.
    rewrite <- Ec, <- of_uint_codes. exact E.
  - cbn [Decimal.norm] in N. destruct (Decimal.nzhead d) eqn:En; try discriminate N; [|..].
    all: try (injection N as N).
    all: assert (Decimal.unorm d = d) as Nu by (unfold Decimal.unorm; rewrite En; congruence).
    all: destruct (unorm_codes d) as (c & s & Ec & Hd & H0); rewrite Nu in Ec.
    all: cbn [NilZero.string_of_int text].
    all: assert (text (NilZero.string_of_uint d) = c :: s) as ->
           by (destruct d; [discriminate Ec|..]; cbn [NilZero.string_of_uint]; rewrite text_uint; exact Ec).
    all: change (Z.of_nat (Ascii.nat_of_ascii "-"%char)) with 45.
    all: unfold int_text; destruct (is_number_digits c s Hd H0) as (_ & -> & _).
    all: rewrite Z.eqb_refl, Hd; f_equal; rewrite <- Ec, <- of_uint_codes; exact E.
Qed.

Lemma text_codes s : text s = codes s.
Proof. unfold codes. induction s as [|c s IH]; [reflexivity|]. cbn [text list_ascii_of_string map]. rewrite IH. reflexivity. Qed.

Lemma codes_range s : Forall (fun c => 0 <= c < 256) (codes s).
Proof.
  unfold codes. induction s as [|c s IH]; cbn [list_ascii_of_string map]; constructor; [|exact IH].
  pose proof (Ascii.nat_ascii_bounded c). lia.
Qed.

(** ** Numbers are read maximally *)

Definition stops (rest : list Z) : Prop := match rest with [] => True | c :: _ => number_char c = false end.

Lemma skip_digits_suffix s : exists a, s = a ++ skip_digits s /\ forallb number_char a = true.
Proof.
  induction s as [|c s [a [E H]]]; [exists []; auto|]. cbn [skip_digits].
  destruct (is_digit c) eqn:D; [|exists []; auto].
  exists (c :: a). split; [cbn; congruence|]. cbn. unfold number_char. rewrite D. exact H.
Qed.

Lemma some_digits_suffix s r : some_digits s = Some r -> exists a, s = a ++ r /\ forallb number_char a = true.
Proof.
  destruct s as [|c s]; cbn [some_digits]; intros H; [discriminate H|].
  destruct (is_digit c) eqn:D; [|discriminate H]. injection H as <-.
  destruct (skip_digits_suffix s) as (a & E & F). exists (c :: a). split; [cbn; congruence|].
  cbn. unfold number_char. rewrite D. exact F.
Qed.

Lemma is_number_chars t : is_number t = true -> forallb number_char t = true.
Proof.
  unfold is_number. intros H.
  set (s := match t with c :: r => if c =? 45 then r else t | [] => t end) in H.
  assert (exists a, t = a ++ s /\ forallb number_char a = true) as (a & Et & Fa).
  { subst s. destruct t as [|c r]; [exists []; auto|].
    destruct (Z.eqb_spec c 45) as [->|]; [exists [45]; auto|exists []; auto]. }
  rewrite Et, forallb_app, Fa. cbn [andb]. clear Et Fa a. clearbody s. clear t.
  destruct (skip_int s) as [s1|] eqn:E1; [|discriminate H].
  destruct (skip_frac s1) as [s2|] eqn:E2; [|discriminate H].
  destruct (skip_exp s2) as [[|]|] eqn:E3; try discriminate H. clear H.
  assert (forallb number_char s2 = true) as F2.
  { destruct s2 as [|c r]; [reflexivity|]. cbn [skip_exp] in E3.
    destruct ((c =? 101) || (c =? 69)) eqn:Ec; [|discriminate E3].
    assert (number_char c = true) as Hc by (unfold number_char; lia).
    destruct r as [|d r']; [discriminate E3|].
    destruct ((d =? 43) || (d =? 45)) eqn:Ed.
    - apply some_digits_suffix in E3 as (a & -> & F). rewrite List.app_nil_r. cbn. rewrite Hc, F.
      assert (number_char d = true) as -> by (unfold number_char; lia). reflexivity.
    - apply some_digits_suffix in E3 as (a & -> & F). rewrite List.app_nil_r. cbn. rewrite Hc. exact F. }
  assert (forallb number_char s1 = true) as F1.
  { destruct s1 as [|c r]; [reflexivity|]. cbn [skip_frac] in E2.
    destruct (Z.eqb_spec c 46) as [->|].
    - apply some_digits_suffix in E2 as (a & -> & F). cbn. rewrite forallb_app, F, F2. reflexivity.
    - injection E2 as <-. exact F2. }
  destruct s as [|c r]; [reflexivity|]. cbn [skip_int] in E1.
  destruct (Z.eqb_spec c 48) as [->|].
  - injection E1 as ->. cbn. exact F1.
  - destruct (is_digit c) eqn:D; [|discriminate E1]. injection E1 as <-.
    destruct (skip_digits_suffix r) as (a & Er & F). cbn [forallb].
    assert (number_char c = true) as -> by (unfold number_char; rewrite D; reflexivity).
    rewrite Er, forallb_app, F, F1. reflexivity.
Qed.

Lemma number_prefix_all t rest : forallb number_char t = true -> stops rest -> number_prefix (t ++ rest) = (t, rest).
Proof.
  intros H S. induction t as [|c t IH]; cbn [app].
  - destruct rest as [|c r]; [reflexivity|]. cbn [number_prefix]. unfold stops in S. rewrite S. reflexivity.
  - cbn [forallb] in H. apply andb_prop in H as [Hc H]. cbn [number_prefix]. rewrite Hc, (IH H). reflexivity.
Qed.

Lemma literal_no w c s : match w with [] => False | x :: _ => x <> c end -> literal w (c :: s) = None.
Proof.
  destruct w as [|x w]; intros H; [destruct H|]. unfold literal.
  destruct (list_eq_dec _ _ _) as [E|]; [|reflexivity]. exfalso. cbn [List.length firstn] in E. injection E as E _. congruence.
Qed.

Lemma atom_number t rest : is_number t = true -> stops rest -> atom (t ++ rest) = Some (TNum t, rest).
Proof.
  intros H S. pose proof (is_number_chars t H) as C. unfold atom.
  destruct t as [|c t]; [discriminate H|].
  assert (number_char c = true) as Hc by (cbn [forallb] in C; apply andb_prop in C; tauto).
  assert (c <> 116 /\ c <> 102 /\ c <> 110) as (N1 & N2 & N3) by (unfold number_char, is_digit in Hc; lia).
  change ((c :: t) ++ rest) with (c :: (t ++ rest)).
  rewrite !literal_no by congruence. change (c :: (t ++ rest)) with ((c :: t) ++ rest).
  rewrite (number_prefix_all _ _ C S), H. reflexivity.
Qed.

(** ** Strings *)

Lemma hex_digit d : 0 <= d < 16 -> hex_value (hexdigit d) = Some d.
Proof.
  intros H. unfold hexdigit. destruct (Z.ltb_spec d 10).
  - unfold hex_value, is_digit. replace ((48 <=? 48 + d) && (48 + d <=? 57)) with true by lia. f_equal. lia.
  - unfold hex_value, is_digit. replace ((48 <=? 87 + d) && (87 + d <=? 57)) with false by lia.
    replace ((97 <=? 87 + d) && (87 + d <=? 102)) with true by lia. f_equal. lia.
Qed.

Lemma hex4_escape n rest : 0 <= n < 65536 ->
  hex4 ([hexdigit (n / 4096 mod 16); hexdigit (n / 256 mod 16); hexdigit (n / 16 mod 16); hexdigit (n mod 16)] ++ rest)
  = Some (n, rest).
Proof.
  intros H. cbn [app hex4]. rewrite !hex_digit by (apply Z.mod_pos_bound; lia). f_equal. f_equal.
  pose proof (Z.div_mod n 16 ltac:(lia)) as E1.
  pose proof (Z.div_mod (n / 16) 16 ltac:(lia)) as E2.
  pose proof (Z.div_mod (n / 16 / 16) 16 ltac:(lia)) as E3.
  rewrite !Z.div_div in * by lia. change (16 * 16) with 256 in *. change (256 * 16) with 4096 in *.
  assert (0 <= n / 4096 < 16) by (split; [apply Z.div_pos; lia|apply Z.div_lt_upper_bound; lia]).
  rewrite (Z.mod_small (n / 4096)) by lia. lia.
Qed.

Lemma dump_char_escape c rest : scalar c ->
  (exists x, dump_char c = [x] /\ x = c /\ x <> 34 /\ x <> 92 /\ 32 <= x) \/
  (exists e, dump_char c = 92 :: e /\ escape (e ++ rest) = Some (c, rest)).
Proof.
  intros Hs. unfold dump_char.
  destruct (Z.eqb_spec c 34) as [->|]; [right; exists [34]; split; reflexivity|].
  destruct (Z.eqb_spec c 92) as [->|]; [right; exists [92]; split; reflexivity|].
  destruct (Z.eqb_spec c 10) as [->|]; [right; exists [110]; split; reflexivity|].
  destruct (Z.eqb_spec c 13) as [->|]; [right; exists [114]; split; reflexivity|].
  destruct (Z.eqb_spec c 9) as [->|]; [right; exists [116]; split; reflexivity|].
  destruct (Z.eqb_spec c 12) as [->|]; [right; exists [102]; split; reflexivity|].
  destruct (Z.eqb_spec c 8) as [->|]; [right; exists [98]; split; reflexivity|].
  destruct ((32 <=? c) && (c <=? 126)) eqn:Ep; [left; exists c; repeat split; lia|].
  right. destruct (Z.ltb_spec c 65536) as [L|L].
  - eexists. split; [reflexivity|]. cbn [app escape].
    change (117 =? 34) with false; change (117 =? 92) with false; change (117 =? 47) with false;
    change (117 =? 98) with false; change (117 =? 102) with false; change (117 =? 110) with false;
    change (117 =? 114) with false; change (117 =? 116) with false; change (117 =? 117) with true. cbn iota.
    pose proof (hex4_escape c rest ltac:(destruct Hs; lia)) as E. cbn [app] in E. rewrite E.
    assert ((55296 <=? c) && (c <? 56320) = false) as -> by (destruct Hs; lia). reflexivity.
  - assert (65536 <= c < 1114112) as R by (destruct Hs; lia).
    assert (0 <= (c - 65536) / 1024 < 1024) as R1
      by (split; [apply Z.div_pos; lia|apply Z.div_lt_upper_bound; lia]).
    pose proof (Z.mod_pos_bound (c - 65536) 1024 ltac:(lia)) as R2.
    pose proof (Z.div_mod (c - 65536) 1024 ltac:(lia)) as R3.
    set (h := (c - 65536) / 1024) in *. set (l := (c - 65536) mod 1024) in *.
    eexists. split; [reflexivity|]. cbn [app escape u_escape].
    change (117 =? 34) with false; change (117 =? 92) with false; change (117 =? 47) with false;
    change (117 =? 98) with false; change (117 =? 102) with false; change (117 =? 110) with false;
    change (117 =? 114) with false; change (117 =? 116) with false; change (117 =? 117) with true. cbn iota.
    match goal with |- context [hex4 (?a :: ?b :: ?c' :: ?d :: ?q)] => pose proof (hex4_escape (55296 + h) q ltac:(lia)) as E end.
    cbn [app] in E. rewrite E.
    replace ((55296 <=? 55296 + h) && (55296 + h <? 56320)) with true by lia.
    change ((92 =? 92) && (117 =? 117)) with true. cbn iota.
    pose proof (hex4_escape (56320 + l) rest ltac:(lia)) as E'. cbn [app] in E'. rewrite E'.
    replace ((56320 <=? 56320 + l) && (56320 + l <? 57344)) with true by lia. f_equal. f_equal. lia.
Qed.

Lemma dump_char_len c : (1 <= List.length (dump_char c))%nat.
Proof. unfold dump_char. repeat match goal with |- context [if ?b then _ else _] => destruct b end; cbn; lia. Qed.

Lemma string_rest_dump s : Forall scalar s -> forall n rest, (List.length s < n)%nat ->
  string_rest n (flat_map dump_char s ++ 34 :: rest) = Some (s, rest).
Proof.
  intros H. induction H as [|c s Hc Hs IH]; intros n rest Hn; (destruct n as [|n]; [cbn in Hn; lia|]).
  - reflexivity.
  - cbn [flat_map]. rewrite <- app_assoc.
    destruct (dump_char_escape c (flat_map dump_char s ++ 34 :: rest) Hc) as [(x & -> & -> & N1 & N2 & N3)|(e & -> & E)].
    + cbn [app string_rest]. destruct (Z.eqb_spec c 34); [lia|]. destruct (Z.ltb_spec c 32); [lia|].
      destruct (Z.eqb_spec c 92); [lia|]. rewrite IH by (cbn in Hn; lia). reflexivity.
    + cbn [app string_rest]. change (92 =? 34) with false. change (92 <? 32) with false. change (92 =? 92) with true.
      cbn iota. rewrite E, IH by (cbn in Hn; lia). reflexivity.
Qed.

Lemma flat_map_dump_len s : (List.length s <= List.length (flat_map dump_char s))%nat.
Proof. induction s as [|c s IH]; cbn [flat_map List.length]; [lia|]. rewrite app_length. pose proof (dump_char_len c). lia. Qed.

Lemma string_rest_ok s rest : Forall scalar s ->
  string_rest (List.length (flat_map dump_char s ++ 34 :: rest)) (flat_map dump_char s ++ 34 :: rest) = Some (s, rest).
Proof.
  intros H. apply string_rest_dump; [exact H|]. rewrite app_length. cbn [List.length].
  pose proof (flat_map_dump_len s). lia.
Qed.

Lemma codes_scalar s : Forall scalar (codes s).
Proof. eapply Forall_impl; [|apply codes_range]. intros c H. cbv beta in H. left. lia. Qed.


(** ** Whitespace *)

Definition is_ws (c : Z) : bool := (c =? 32) || (c =? 10) || (c =? 13) || (c =? 9).

Lemma skip_ws_app w s : forallb is_ws w = true -> skip_ws (w ++ s) = skip_ws s.
Proof.
  induction w as [|c w IH]; cbn [app forallb skip_ws]; intros H; [reflexivity|].
  apply andb_prop in H as [Hc H]. unfold is_ws in Hc. rewrite Hc. auto.
Qed.

Lemma newline_ws i lv : forallb is_ws (newline i lv) = true.
Proof.
  unfold newline. destruct i; [|reflexivity]. cbn [forallb]. change (is_ws 10) with true. cbn [andb].
  induction (2 * lv)%nat as [|k IH]; [reflexivity|]. cbn [repeat forallb]. rewrite IH. reflexivity.
Qed.

Lemma value_ws n w s : forallb is_ws w = true -> value n (w ++ s) = value n s.
Proof. intros H. destruct n; [reflexivity|]. cbn [value]. rewrite skip_ws_app by exact H. reflexivity. Qed.

(** A text that starts a value: not blank, not a closing bracket, not a quote-less key. *)
Definition starts (s : list Z) : Prop :=
  match s with [] => False | c :: _ => is_ws c = false /\ c <> 93 /\ c <> 125 end.

Lemma skip_ws_starts s : starts s -> skip_ws s = s.
Proof. destruct s as [|c s]; [reflexivity|]. cbn [starts skip_ws]. unfold is_ws. intros [-> _]. reflexivity. Qed.

Lemma starts_app a b : starts a -> starts (a ++ b).
Proof. destruct a; [intros []|]. exact id. Qed.

(** ** More fuel changes nothing *)

Lemma value_mono : forall n,
  (forall s x, value n s = Some x -> value (S n) s = Some x) /\
  (forall s x, elements n s = Some x -> elements (S n) s = Some x) /\
  (forall s x, members n s = Some x -> members (S n) s = Some x).
Proof.
  induction n as [|n (IV & IE & IM)].
  - split; [|split]; intros s x H; discriminate H.
  - split; [|split]; intros s x H.
    + cbn [value] in H. change (value (S (S n)) s) with
        (match skip_ws s with
         | [] => None
         | c :: r =>
            if c =? 34 then match string_rest (List.length r) r with Some (x, q) => Some (TStr x, q) | None => None end
            else if c =? 91 then
              match skip_ws r with
              | [] => None
              | d :: q => if d =? 93 then Some (TList [], q)
                          else match elements (S n) r with Some (l, q) => Some (TList l, q) | None => None end
              end
            else if c =? 123 then
              match skip_ws r with
              | [] => None
              | d :: q => if d =? 125 then Some (TObj [], q)
                          else match members (S n) r with Some (l, q) => Some (TObj l, q) | None => None end
              end
            else atom (c :: r)
         end).
      destruct (skip_ws s) as [|c r]; [exact H|].
      destruct (c =? 34); [exact H|]. destruct (c =? 91).
      { destruct (skip_ws r) as [|d q]; [exact H|]. destruct (d =? 93); [exact H|].
        destruct (elements n r) as [y|] eqn:E; [|discriminate H]. rewrite (IE _ _ E). exact H. }
      destruct (c =? 123); [|exact H].
      destruct (skip_ws r) as [|d q]; [exact H|]. destruct (d =? 125); [exact H|].
      destruct (members n r) as [y|] eqn:E; [|discriminate H]. rewrite (IM _ _ E). exact H.
    + cbn [elements] in H. change (elements (S (S n)) s) with
        (match value (S n) s with
         | None => None
         | Some (v, r) =>
            match skip_ws r with
            | [] => None
            | d :: q => if d =? 93 then Some ([v], q)
                        else if d =? 44 then
                          match elements (S n) q with Some (l, q') => Some (v :: l, q') | None => None end
                        else None
            end
         end).
      destruct (value n s) as [[v r]|] eqn:E; [|discriminate H]. rewrite (IV _ _ E).
      destruct (skip_ws r) as [|d q]; [exact H|]. destruct (d =? 93); [exact H|]. destruct (d =? 44); [|exact H].
      destruct (elements n q) as [y|] eqn:E'; [|discriminate H]. rewrite (IE _ _ E'). exact H.
    + cbn [members] in H. change (members (S (S n)) s) with
        (match skip_ws s with
         | [] => None
         | c :: r =>
          if c =? 34 then
            match string_rest (List.length r) r with
            | None => None
            | Some (k, r1) =>
                match skip_ws r1 with
                | [] => None
                | col :: r2 =>
                    if col =? 58 then
                      match value (S n) r2 with
                      | None => None
                      | Some (v, r3) =>
                          match skip_ws r3 with
                          | [] => None
                          | d :: q => if d =? 125 then Some ([(k, v)], q)
                                      else if d =? 44 then
                                        match members (S n) q with Some (l, q') => Some ((k, v) :: l, q') | None => None end
                                      else None
                          end
                      end
                    else None
                end
            end
          else None
         end).
      destruct (skip_ws s) as [|c r]; [exact H|]. destruct (c =? 34); [|exact H].
      destruct (string_rest (List.length r) r) as [[k r1]|]; [|exact H].
      destruct (skip_ws r1) as [|col r2]; [exact H|]. destruct (col =? 58); [|exact H].
      destruct (value n r2) as [[v r3]|] eqn:E; [|discriminate H]. rewrite (IV _ _ E).
      destruct (skip_ws r3) as [|d q]; [exact H|]. destruct (d =? 125); [exact H|]. destruct (d =? 44); [|exact H].
      destruct (members n q) as [y|] eqn:E'; [|discriminate H]. rewrite (IM _ _ E'). exact H.
Qed.

Lemma value_more n m s x : (n <= m)%nat -> value n s = Some x -> value m s = Some x.
Proof. intros L. induction L; [auto|]. intros H. apply value_mono. auto. Qed.
Lemma elements_more n m s x : (n <= m)%nat -> elements n s = Some x -> elements m s = Some x.
Proof. intros L. induction L; [auto|]. intros H. apply value_mono. auto. Qed.
Lemma members_more n m s x : (n <= m)%nat -> members n s = Some x -> members m s = Some x.
Proof. intros L. induction L; [auto|]. intros H. apply value_mono. auto. Qed.

(** ** dumps, item by item *)

Section Tail.
Context {A : Type} (f : A -> option (list Z)) (sep : list Z).
Fixpoint dump_tail (l : list A) : option (list Z) :=
  match l with
  | [] => Some []
  | y :: l' => match f y, dump_tail l' with
               | Some ty, Some tl => Some (sep ++ ty ++ tl)
               | _, _ => None
               end
  end.
End Tail.

Section Dumps.
Variable float_repr : Z -> list Z.
Variable i : bool.
Notation dmp := (dumps float_repr i).

Definition dump_member (lv : nat) (p : string * json) : option (list Z) :=
  match dmp lv (snd p) with
  | Some t => Some (dump_str (text (fst p)) ++ [58; 32] ++ t)
  | None => None
  end.

Lemma dumps_list lv x r : dmp lv (JList (x :: r)) =
  match dmp (S lv) x, dump_tail (dmp (S lv)) (item_sep i (S lv)) r with
  | Some tx, Some tr => Some ([91] ++ newline i (S lv) ++ tx ++ tr ++ newline i lv ++ [93])
  | _, _ => None
  end.
Proof. cbn [dumps]. destruct (dmp (S lv) x); reflexivity. Qed.

Lemma dumps_dict lv p r : dmp lv (JDict (p :: r)) =
  match dump_member (S lv) p, dump_tail (dump_member (S lv)) (item_sep i (S lv)) r with
  | Some tx, Some tr => Some ([123] ++ newline i (S lv) ++ tx ++ tr ++ newline i lv ++ [125])
  | _, _ => None
  end.
Proof.
  destruct p as [k x]. cbn [dumps]. unfold dump_member at 1. cbn [fst snd].
  destruct (dmp (S lv) x) as [tx|]; [|reflexivity].
  match goal with |- match ?a with _ => _ end = match ?b with _ => _ end => assert (a = b) as -> end.
  { induction r as [|[k' y] r IH]; [reflexivity|]. cbn [dump_tail]. unfold dump_member at 1. cbn [fst snd].
    rewrite IH. destruct (dmp (S lv) y); [|reflexivity].
    destruct (dump_tail (dump_member (S lv)) (item_sep i (S lv)) r); [|reflexivity]. rewrite !app_assoc. reflexivity. }
  destruct (dump_tail _ _ r); [|reflexivity]. rewrite !app_assoc. reflexivity.
Qed.

(** ** Induction on values *)

Lemma json_ind' (P : json -> Prop) :
  (forall z, P (JInt z)) -> (forall b, P (JFloat b)) -> (forall s, P (JStr s)) -> P JRaw ->
  (forall l, Forall P l -> P (JList l)) -> (forall d, Forall (fun p => P (snd p)) d -> P (JDict d)) ->
  forall j, P j.
Proof.
  intros HI HF HS HR HL HD. fix IH 1. intros [z|b|s|l|d|].
  - apply HI.
  - apply HF.
  - apply HS.
  - apply HL. induction l as [|x l IHl]; constructor; [apply IH|exact IHl].
  - apply HD. induction d as [|[k x] d IHd]; constructor; [apply IH|exact IHd].
  - exact HR.
Qed.

(** ** Reading back *)

Hypothesis float_ok : forall b, finite32 b -> is_number (float_repr b) = true.
Definition float_text (b : Z) (t : list Z) : Prop := t = float_repr b.

(** The text [tx] reads as [t], whatever follows. *)
Definition reads (tx : list Z) (t : jtree) : Prop :=
  starts tx /\ exists n, (n <= List.length tx)%nat /\
    forall rest, stops rest -> value n (tx ++ rest) = Some (t, rest).

Lemma stops_ws w s : forallb is_ws w = true -> stops s -> stops (w ++ s).
Proof.
  intros H S. destruct w as [|c w]; [exact S|]. cbn [forallb] in H. apply andb_prop in H as [Hc _].
  cbn [app stops]. unfold is_ws in Hc. unfold number_char, is_digit. lia.
Qed.

Lemma sep_form lv : exists w, item_sep i lv = 44 :: w /\ forallb is_ws w = true.
Proof.
  unfold item_sep. destruct i eqn:Ei.
  - exists (newline true lv). split; [reflexivity|apply newline_ws].
  - exists [32]. auto.
Qed.

Lemma number_starts t : is_number t = true -> starts t.
Proof.
  intros H. pose proof (is_number_chars t H) as C. destruct t as [|c t]; [discriminate H|].
  cbn [forallb] in C. apply andb_prop in C as [C _]. cbn [starts]. unfold number_char, is_digit in C.
  unfold is_ws. lia.
Qed.

Lemma reads_number t : is_number t = true -> reads t (TNum t).
Proof.
  intros H. pose proof (number_starts t H) as S. split; [exact S|]. exists 1%nat. split.
  - destruct t; [discriminate H|cbn; lia].
  - intros rest R. cbn [value]. rewrite skip_ws_starts by (apply starts_app; exact S).
    destruct t as [|c t]; [discriminate H|].
    pose proof (is_number_chars _ H) as C. cbn [forallb] in C. apply andb_prop in C as [C _].
    cbn [app]. unfold number_char, is_digit in C.
    destruct (Z.eqb_spec c 34); [lia|]. destruct (Z.eqb_spec c 91); [lia|]. destruct (Z.eqb_spec c 123); [lia|].
    change (c :: t ++ rest) with ((c :: t) ++ rest). apply atom_number; assumption.
Qed.

Lemma reads_string s : Forall scalar s -> reads (dump_str s) (TStr s).
Proof.
  intros H. split; [cbn; repeat split; discriminate|]. exists 1%nat. split; [cbn; lia|].
  intros rest _. unfold dump_str. rewrite <- !app_assoc. cbn [app value skip_ws].
  change (34 =? 32) with false. change (34 =? 10) with false. change (34 =? 13) with false. change (34 =? 9) with false.
  cbn [orb]. change (34 =? 34) with true. cbn iota.
  change (flat_map dump_char s ++ [34] ++ rest) with (flat_map dump_char s ++ 34 :: rest).
  rewrite string_rest_ok by exact H. reflexivity.
Qed.

Lemma reads_elements lv w w' r : forallb is_ws w' = true ->
  Forall (fun y => exists ty t, dmp lv y = Some ty /\ says float_text t y /\ reads ty t) r ->
  forall x tx t, dmp lv x = Some tx -> says float_text t x -> reads tx t -> forallb is_ws w = true ->
  exists tr ts n, dump_tail (dmp lv) (item_sep i lv) r = Some tr /\
    says float_text (TList (t :: ts)) (JList (x :: r)) /\
    (n <= List.length tx + List.length tr + 1)%nat /\
    forall rest, elements n (w ++ tx ++ tr ++ w' ++ 93 :: rest) = Some (t :: ts, rest).
Proof.
  intros Hw' F. revert w. induction F as [|y r (ty & u & Ey & Sy & Ry) F IH]; intros w x tx t Ex Sx Rx Hw.
  - destruct Rx as (Stx & n & Ln & V). exists [], [], (S n). split; [reflexivity|].
    split; [exists [t]; split; [reflexivity|split; [exact Sx|exact I]]|]. split; [cbn; lia|].
    intros rest. cbn [elements app]. rewrite value_ws by exact Hw.
    rewrite V by (apply stops_ws; [exact Hw'|reflexivity]).
    rewrite skip_ws_app by exact Hw'. reflexivity.
  - destruct (sep_form lv) as (w2 & Esep & Hw2).
    destruct (IH w2 y ty u Ey Sy Ry Hw2) as (tr & ts & m & Etr & St & Lm & V2).
    destruct Rx as (Stx & n & Ln & V).
    exists (item_sep i lv ++ ty ++ tr), (u :: ts), (S (Nat.max n m)).
    split; [cbn [dump_tail]; rewrite Ey, Etr; reflexivity|].
    split; [exists (t :: u :: ts); split; [reflexivity|]; destruct St as (ts' & E & St); injection E as <-; split; assumption|].
    rewrite Esep. cbn [app]. cbn [List.length]. rewrite !app_length. split; [lia|].
    intros rest. cbn [elements app]. rewrite value_ws by exact Hw.
    match goal with |- context [value _ (tx ++ 44 :: ?q)] =>
      rewrite (value_more n _ _ _ (Nat.le_max_l n m) (V (44 :: q) ltac:(reflexivity))) end.
    cbn [skip_ws]. change (44 =? 32) with false. change (44 =? 10) with false. change (44 =? 13) with false.
    change (44 =? 9) with false. cbn [orb]. change (44 =? 93) with false. change (44 =? 44) with true. cbn iota.
    specialize (V2 rest). rewrite <- !app_assoc. 
    rewrite (elements_more m _ _ _ (Nat.le_max_r n m) V2). reflexivity.
Qed.

Lemma reads_list lv x r tx tr t ts n :
  starts tx -> (n <= List.length tx + List.length tr + 1)%nat ->
  (forall rest, elements n (newline i (S lv) ++ tx ++ tr ++ newline i lv ++ 93 :: rest) = Some (t :: ts, rest)) ->
  says float_text (TList (t :: ts)) (JList (x :: r)) ->
  reads ([91] ++ newline i (S lv) ++ tx ++ tr ++ newline i lv ++ [93]) (TList (t :: ts)).
Proof.
  intros Stx Ln V _. split; [cbn; repeat split; discriminate|]. exists (S n).
  split; [cbn [app List.length]; rewrite !app_length; cbn [List.length]; lia|].
  intros rest _. cbn [app value skip_ws].
  change (91 =? 32) with false. change (91 =? 10) with false. change (91 =? 13) with false. change (91 =? 9) with false.
  cbn [orb]. change (91 =? 34) with false. change (91 =? 91) with true. cbn iota.
  rewrite <- !app_assoc. cbn [app].
  rewrite skip_ws_app by apply newline_ws.
  rewrite skip_ws_starts by (apply starts_app; exact Stx).
  specialize (V rest). destruct tx as [|c tx]; [destruct Stx|]. cbn [app].
  destruct (Z.eqb_spec c 93) as [->|]; [cbn in Stx; tauto|].
  cbn [app] in V. rewrite V. reflexivity.
Qed.

(** Members. *)
Definition member_reads (lv : nat) (p : string * json) : Prop :=
  exists ty t, dmp lv (snd p) = Some ty /\ says float_text t (snd p) /\ reads ty t.

Lemma reads_members lv w w' r : forallb is_ws w' = true -> Forall (member_reads lv) r ->
  forall p, member_reads lv p -> forallb is_ws w = true ->
  exists tx tr ts n, dump_member lv p = Some tx /\
    dump_tail (dump_member lv) (item_sep i lv) r = Some tr /\
    says float_text (TObj ts) (JDict (p :: r)) /\ starts tx /\
    (n <= List.length tx + List.length tr)%nat /\
    forall rest, members n (w ++ tx ++ tr ++ w' ++ 125 :: rest) = Some (ts, rest).
Proof.
  intros Hw' F. revert w. induction F as [|y r Hy F IH]; intros w [k j] (tv & t & Ev & Sv & Sts & nv & Lv & V) Hw;
    cbn [fst snd] in *.
  - exists (dump_str (text k) ++ [58; 32] ++ tv), [], [(codes k, t)], (S nv).
    unfold dump_member. cbn [fst snd]. rewrite Ev. split; [reflexivity|]. split; [reflexivity|].
    split; [exists [(codes k, t)]; split; [reflexivity|]; repeat split; exact Sv|].
    split; [cbn; repeat split; discriminate|].
    unfold dump_str. cbn [app]. cbn [List.length]. rewrite !app_length. cbn [List.length]. split; [lia|].
    intros rest. cbn [members]. rewrite skip_ws_app by exact Hw. rewrite <- !app_assoc. cbn [app skip_ws].
    change (34 =? 32) with false. change (34 =? 10) with false. change (34 =? 13) with false. change (34 =? 9) with false.
    cbn [orb]. change (34 =? 34) with true. cbn iota.
    rewrite text_codes. rewrite string_rest_ok by apply codes_scalar.
    cbn [skip_ws]. change (58 =? 32) with false. change (58 =? 10) with false. change (58 =? 13) with false.
    change (58 =? 9) with false. cbn [orb]. change (58 =? 58) with true. cbn iota.
    change (32 :: tv ++ w' ++ 125 :: rest) with ([32] ++ tv ++ w' ++ 125 :: rest). rewrite value_ws by reflexivity.
    rewrite V by (apply stops_ws; [exact Hw'|reflexivity]).
    rewrite skip_ws_app by exact Hw'. reflexivity.
  - destruct (sep_form lv) as (w2 & Esep & Hw2).
    destruct (IH w2 y Hy Hw2) as (ty & tr & ts & m & Ey & Etr & St & _ & Lm & V2).
    exists (dump_str (text k) ++ [58; 32] ++ tv), (item_sep i lv ++ ty ++ tr), ((codes k, t) :: ts), (S (Nat.max nv m)).
    unfold dump_member at 1. cbn [fst snd]. rewrite Ev. split; [reflexivity|].
    split; [cbn [dump_tail]; rewrite Ey, Etr; reflexivity|].
    split.
    { exists ((codes k, t) :: ts). split; [reflexivity|]. destruct St as (ts' & E & St). injection E as <-.
      split; [reflexivity|]. split; [exact Sv|exact St]. }
    split; [cbn; repeat split; discriminate|].
    rewrite Esep. unfold dump_str. cbn [app]. cbn [List.length]. rewrite !app_length. cbn [List.length].
    split; [lia|].
    intros rest. cbn [members]. rewrite skip_ws_app by exact Hw. rewrite <- !app_assoc. cbn [app skip_ws].
    change (34 =? 32) with false. change (34 =? 10) with false. change (34 =? 13) with false. change (34 =? 9) with false.
    cbn [orb]. change (34 =? 34) with true. cbn iota.
    rewrite text_codes. rewrite string_rest_ok by apply codes_scalar.
    cbn [skip_ws]. change (58 =? 32) with false. change (58 =? 10) with false. change (58 =? 13) with false.
    change (58 =? 9) with false. cbn [orb]. change (58 =? 58) with true. cbn iota.
    match goal with |- context [value _ (32 :: ?q)] => change (32 :: q) with ([32] ++ q) end.
    rewrite value_ws by reflexivity.
    match goal with |- context [value _ (tv ++ 44 :: ?q)] =>
      rewrite (value_more nv _ _ _ (Nat.le_max_l nv m) (V (44 :: q) ltac:(reflexivity))) end.
    cbn [skip_ws]. change (44 =? 32) with false. change (44 =? 10) with false. change (44 =? 13) with false.
    change (44 =? 9) with false. cbn [orb]. change (44 =? 125) with false. change (44 =? 44) with true. cbn iota.
    rewrite (members_more m _ _ _ (Nat.le_max_r nv m) (V2 rest)). reflexivity.
Qed.

Lemma f32_finite_spec b : f32_finite b = true <-> finite32 b.
Proof.
  unfold f32_finite, f32_exponent, finite32. change (2 ^ 23) with 8388608.
  destruct (Z.eqb_spec (b / 8388608 mod 256) 255); split; intros H; try discriminate H; try reflexivity; auto.
Qed.

Lemma all_floats_list P l : all_floats P (JList l) <-> Forall (all_floats P) l.
Proof.
  cbn [all_floats]. induction l as [|x l IH]; [split; [constructor|exact (fun _ => I)]|].
  rewrite Forall_cons_iff, <- IH. tauto.
Qed.
Lemma all_floats_dict P d : all_floats P (JDict d) <-> Forall (fun p => all_floats P (snd p)) d.
Proof.
  cbn [all_floats]. induction d as [|[k x] l IH]; [split; [constructor|exact (fun _ => I)]|].
  rewrite Forall_cons_iff, <- IH. cbn [snd]. tauto.
Qed.
Lemma serialisable_list l : serialisable (JList l) <-> Forall serialisable l.
Proof.
  cbn [serialisable]. induction l as [|x l IH]; [split; [constructor|exact (fun _ => I)]|].
  rewrite Forall_cons_iff, <- IH. cbn [map fold_right]. tauto.
Qed.
Lemma serialisable_dict d : serialisable (JDict d) <-> Forall (fun p => serialisable (snd p)) d.
Proof.
  cbn [serialisable]. induction d as [|x l IH]; [split; [constructor|exact (fun _ => I)]|].
  rewrite Forall_cons_iff, <- IH. cbn [map fold_right]. tauto.
Qed.

Lemma dumps_reads j : serialisable j -> all_floats finite32 j -> forall lv,
  exists tx t, dmp lv j = Some tx /\ says float_text t j /\ reads tx t.
Proof.
  induction j as [z|b|s| |l IH|d IH] using json_ind'; intros Hs Hf lv.
  - exists (text (str_of_int z)), (TNum (text (str_of_int z))). split; [reflexivity|].
    pose proof (int_text_str z) as E. split; [exists (text (str_of_int z)); auto|].
    apply reads_number. unfold int_text in E. destruct (is_number (text (str_of_int z))); [reflexivity|discriminate E].
  - cbn [all_floats] in Hf. exists (float_repr b), (TNum (float_repr b)). cbn [dumps]. unfold dump_float.
    assert (f32_finite b = true) as -> by (apply f32_finite_spec; exact Hf).
    split; [reflexivity|]. split; [exists (float_repr b); split; reflexivity|].
    apply reads_number, float_ok, Hf.
  - exists (dump_str s), (TStr s). split; [reflexivity|]. split; [reflexivity|]. apply reads_string. exact Hs.
  - destruct Hs.
  - apply serialisable_list in Hs. apply all_floats_list in Hf.
    destruct l as [|x r].
    + exists [91; 93], (TList []). split; [reflexivity|]. split; [exists []; split; reflexivity|].
      split; [cbn; repeat split; discriminate|]. exists 1%nat. split; [cbn; lia|]. reflexivity.
    + inversion IH as [|? ? IHx IHr]; inversion Hs as [|? ? Sx Sr]; inversion Hf as [|? ? Fx Fr]; subst.
      destruct (IHx Sx Fx (S lv)) as (tx & t & Ex & Sax & Rx).
      destruct (reads_elements (S lv) (newline i (S lv)) (newline i lv) r (newline_ws _ _)) with (x := x) (tx := tx) (t := t)
        as (tr & ts & n & Etr & St & Ln & V); try assumption.
      { clear -IHr Sr Fr. induction IHr as [|y r Hy _ IH]; constructor.
        - inversion Sr; inversion Fr; subst. apply Hy; assumption.
        - inversion Sr; inversion Fr; subst. auto. }
      { apply newline_ws. }
      rewrite dumps_list, Ex, Etr. eexists _, _. split; [reflexivity|]. split; [exact St|].
      eapply reads_list; try eassumption. exact (proj1 Rx).
  - apply serialisable_dict in Hs. apply all_floats_dict in Hf.
    destruct d as [|p r].
    + exists [123; 125], (TObj []). split; [reflexivity|]. split; [exists []; split; reflexivity|].
      split; [cbn; repeat split; discriminate|]. exists 1%nat. split; [cbn; lia|]. reflexivity.
    + inversion IH as [|? ? IHx IHr]; inversion Hs as [|? ? Sx Sr]; inversion Hf as [|? ? Fx Fr]; subst.
      destruct (reads_members (S lv) (newline i (S lv)) (newline i lv) r (newline_ws _ _)) with (p := p)
        as (tx & tr & ts & n & Ex & Etr & St & Stx & Ln & V).
      { clear -IHr Sr Fr. induction IHr as [|y r Hy _ IH]; constructor.
        - inversion Sr; inversion Fr; subst. apply Hy; assumption.
        - inversion Sr; inversion Fr; subst. auto. }
      { apply IHx; assumption. }
      { apply newline_ws. }
      rewrite dumps_dict, Ex, Etr. eexists _, _. split; [reflexivity|]. split; [exact St|].
      split; [cbn; repeat split; discriminate|]. exists (S n).
      split; [cbn [app List.length]; rewrite !app_length; cbn [List.length]; lia|].
      intros rest _. cbn [app value skip_ws].
      change (123 =? 32) with false. change (123 =? 10) with false. change (123 =? 13) with false. change (123 =? 9) with false.
      cbn [orb]. change (123 =? 34) with false. change (123 =? 91) with false. change (123 =? 123) with true. cbn iota.
      rewrite <- !app_assoc. cbn [app]. rewrite skip_ws_app by apply newline_ws.
      rewrite skip_ws_starts by (apply starts_app; exact Stx).
      specialize (V rest). destruct tx as [|c tx]; [destruct Stx|]. cbn [app].
      destruct (Z.eqb_spec c 125) as [->|]; [cbn in Stx; tauto|].
      cbn [app] in V. rewrite V. reflexivity.
Qed.

(** ** Texts with a non-finite float are not JSON *)

Lemma dump_tail_total {A} (f : A -> option (list Z)) sep l :
  Forall (fun x => exists t, f x = Some t) l -> exists t, dump_tail f sep l = Some t.
Proof.
  intros F. induction F as [|x l (t & E) _ (tl & IH)]; [exists []; reflexivity|].
  cbn [dump_tail]. rewrite E, IH. eexists. reflexivity.
Qed.

Lemma dumps_total j : serialisable j -> forall lv, exists tx, dmp lv j = Some tx.
Proof.
  induction j as [z|b|s| |l IH|d IH] using json_ind'; intros Hs lv; try (eexists; reflexivity).
  - destruct Hs.
  - apply serialisable_list in Hs.
    assert (Forall (fun x => exists t, dmp (S lv) x = Some t) l) as F.
    { clear -IH Hs. induction IH as [|x l Hx _ IH]; constructor; inversion Hs; subst; auto. }
    destruct l as [|x r]; [eexists; reflexivity|]. inversion F as [|? ? (tx & E) Fr]; subst.
    destruct (dump_tail_total (dmp (S lv)) (item_sep i (S lv)) r Fr) as (tr & Etr).
    rewrite dumps_list, E, Etr. eexists. reflexivity.
  - apply serialisable_dict in Hs.
    assert (Forall (fun x => exists t, dump_member (S lv) x = Some t) d) as F.
    { clear -IH Hs. induction IH as [|x l Hx _ IH]; constructor; inversion Hs; subst; auto.
      destruct (Hx ltac:(assumption) (S lv)) as (t & E). unfold dump_member. rewrite E. eexists. reflexivity. }
    destruct d as [|x r]; [eexists; reflexivity|]. inversion F as [|? ? (tx & E) Fr]; subst.
    destruct (dump_tail_total (dump_member (S lv)) (item_sep i (S lv)) r Fr) as (tr & Etr).
    rewrite dumps_dict, E, Etr. eexists. reflexivity.
Qed.

Lemma dumps_starts j lv tx : dmp lv j = Some tx -> starts tx.
Proof.
  destruct j as [z|b|s|l|d|].
  - cbn [dumps]. intros E. assert (tx = text (str_of_int z)) as -> by congruence. clear E.
    apply number_starts. pose proof (int_text_str z) as X. unfold int_text in X.
    destruct (is_number (text (str_of_int z))); [reflexivity|discriminate X].
  - cbn [dumps]. intros E. assert (tx = dump_float float_repr b) as -> by congruence. clear E.
    unfold dump_float. destruct (f32_finite b) eqn:Fb.
    + apply number_starts, float_ok, f32_finite_spec, Fb.
    + destruct (negb _); [cbn; repeat split; discriminate|]. destruct (_ <=? b); cbn; repeat split; discriminate.
  - cbn [dumps]. intros E. injection E as <-. cbn. repeat split; discriminate.
  - destruct l as [|x r].
    + intros E. injection E as <-. cbn. repeat split; discriminate.
    + rewrite dumps_list. destruct (dmp (S lv) x); [|discriminate]. destruct (dump_tail _ _ r); [|discriminate].
      intros E. injection E as <-. cbn. repeat split; discriminate.
  - destruct d as [|x r].
    + intros E. injection E as <-. cbn. repeat split; discriminate.
    + rewrite dumps_dict. destruct (dump_member (S lv) x); [|discriminate]. destruct (dump_tail _ _ r); [|discriminate].
      intros E. injection E as <-. cbn. repeat split; discriminate.
  - discriminate.
Qed.

Lemma all_floats_dec P (D : forall b : Z, {P b} + {~ P b}) j : all_floats P j \/ ~ all_floats P j.
Proof.
  induction j as [z|b|s| |l IH|d IH] using json_ind'; try (left; exact I).
  - cbn [all_floats]. destruct (D b); auto.
  - rewrite all_floats_list. induction IH as [|x l Hx _ IH]; [left; constructor|].
    rewrite Forall_cons_iff. tauto.
  - rewrite all_floats_dict. induction IH as [|x l Hx _ IH]; [left; constructor|].
    rewrite Forall_cons_iff. tauto.
Qed.

Lemma finite_dec b : {finite32 b} + {~ finite32 b}.
Proof. unfold finite32. destruct (Z.eq_dec (b / 8388608 mod 256) 255); [right; tauto|left; assumption]. Defined.

(** With any fuel, the text of a finite value reads as that value or not at all. *)
Lemma value_fuel tx t n rest : reads tx t -> stops rest ->
  value n (tx ++ rest) = None \/ value n (tx ++ rest) = Some (t, rest).
Proof.
  intros (_ & m & _ & V) S. destruct (value n (tx ++ rest)) as [x|] eqn:E; [|auto]. right.
  pose proof (value_more m (Nat.max n m) _ _ (Nat.le_max_r n m) (V rest S)) as E1.
  rewrite (value_more n (Nat.max n m) _ _ (Nat.le_max_l n m) E) in E1. exact E1.
Qed.

Definition unreadable (lv : nat) (j : json) : Prop :=
  serialisable j -> ~ all_floats finite32 j -> forall tx, dmp lv j = Some tx -> forall n rest, value n (tx ++ rest) = None.

Lemma unreadable_elements lv w' r : forallb is_ws w' = true ->
  Forall (unreadable lv) r -> Forall serialisable r ->
  forall x, unreadable lv x -> serialisable x -> ~ Forall (all_floats finite32) (x :: r) ->
  forall w tx tr, forallb is_ws w = true -> dmp lv x = Some tx -> dump_tail (dmp lv) (item_sep i lv) r = Some tr ->
  forall n rest, elements n (w ++ tx ++ tr ++ w' ++ 93 :: rest) = None.
Proof.
  intros Hw' F. induction F as [|y r Hy F IH]; intros Sr x Hx Sx Hn w tx tr Hw Ex Etr n rest;
    (destruct n as [|n]; [reflexivity|]); cbn [elements]; rewrite value_ws by exact Hw.
  - cbn [dump_tail] in Etr. injection Etr as <-. rewrite Hx; [reflexivity|exact Sx| |exact Ex].
    intros K. apply Hn. constructor; [exact K|constructor].
  - destruct (all_floats_dec finite32 finite_dec x) as [Fx|Fx].
    + inversion Sr as [|? ? Sy Sr']; subst.
      destruct (dumps_reads x Sx Fx lv) as (tx' & t & Ex' & _ & Rx).
      assert (tx' = tx) as -> by congruence.
      cbn [dump_tail] in Etr. destruct (dmp lv y) as [ty|] eqn:Ey; [|discriminate Etr].
      destruct (dump_tail (dmp lv) (item_sep i lv) r) as [tr'|] eqn:Er; [|discriminate Etr].
      destruct (sep_form lv) as (w2 & Esep & Hw2). rewrite Esep in Etr. injection Etr as <-.
      rewrite <- ?app_assoc. cbn [app].
      match goal with |- context [value n (tx ++ 44 :: ?q)] =>
        destruct (value_fuel tx t n (44 :: q) Rx ltac:(reflexivity)) as [-> | ->] end; [reflexivity|].
      cbn [skip_ws]. change (44 =? 32) with false. change (44 =? 10) with false. change (44 =? 13) with false.
      change (44 =? 9) with false. cbn [orb]. change (44 =? 93) with false. change (44 =? 44) with true. cbn iota.
      rewrite <- !app_assoc.
      rewrite (IH Sr' y Hy Sy ltac:(intros K; apply Hn; constructor; assumption) w2 ty tr' Hw2 Ey eq_refl). reflexivity.
    + rewrite Hx; [reflexivity|exact Sx|exact Fx|exact Ex].
Qed.

Definition unreadable_member (lv : nat) (p : string * json) : Prop := unreadable lv (snd p).

Lemma member_form lv p tx : dump_member lv p = Some tx ->
  exists tv, dmp lv (snd p) = Some tv /\ tx = dump_str (text (fst p)) ++ [58; 32] ++ tv.
Proof. unfold dump_member. destruct (dmp lv (snd p)) as [tv|]; [|discriminate]. intros E. injection E as <-. eauto. Qed.

Lemma unreadable_members lv w' r : forallb is_ws w' = true ->
  Forall (unreadable_member lv) r -> Forall (fun p => serialisable (snd p)) r ->
  forall p, unreadable_member lv p -> serialisable (snd p) ->
  ~ Forall (fun p => all_floats finite32 (snd p)) (p :: r) ->
  forall w tx tr, forallb is_ws w = true -> dump_member lv p = Some tx ->
  dump_tail (dump_member lv) (item_sep i lv) r = Some tr ->
  forall n rest, members n (w ++ tx ++ tr ++ w' ++ 125 :: rest) = None.
Proof.
  intros Hw' F. induction F as [|y r Hy F IH]; intros Sr [k j] Hx Sx Hn w tx tr Hw Ex Etr n rest;
    (destruct n as [|n]; [reflexivity|]); cbn [members]; rewrite skip_ws_app by exact Hw;
    apply member_form in Ex as (tv & Ev & ->); cbn [fst snd] in *; unfold dump_str; rewrite <- !app_assoc;
    cbn [app skip_ws];
    change (34 =? 32) with false; change (34 =? 10) with false; change (34 =? 13) with false; change (34 =? 9) with false;
    cbn [orb]; change (34 =? 34) with true; cbn iota;
    rewrite text_codes; rewrite string_rest_ok by apply codes_scalar;
    cbn [skip_ws]; change (58 =? 32) with false; change (58 =? 10) with false; change (58 =? 13) with false;
    change (58 =? 9) with false; cbn [orb]; change (58 =? 58) with true; cbn iota;
    (match goal with |- context [value _ (32 :: ?q)] => change (32 :: q) with ([32] ++ q) end);
    rewrite value_ws by reflexivity.
  - rewrite (Hx Sx ltac:(intros K; apply Hn; constructor; [exact K|constructor]) tv Ev). reflexivity.
  - destruct (all_floats_dec finite32 finite_dec j) as [Fx|Fx].
    + inversion Sr as [|? ? Sy Sr']; subst.
      destruct (dumps_reads j Sx Fx lv) as (tv' & t & Ev' & _ & Rx).
      assert (tv' = tv) as -> by congruence.
      cbn [dump_tail] in Etr. destruct (dump_member lv y) as [ty|] eqn:Ey; [|discriminate Etr].
      destruct (dump_tail (dump_member lv) (item_sep i lv) r) as [tr'|] eqn:Er; [|discriminate Etr].
      destruct (sep_form lv) as (w2 & Esep & Hw2). rewrite Esep in Etr. injection Etr as <-.
      rewrite <- ?app_assoc. cbn [app]. rewrite <- ?app_assoc.
      match goal with |- context [value n (tv ++ 44 :: ?q)] =>
        destruct (value_fuel tv t n (44 :: q) Rx ltac:(reflexivity)) as [-> | ->] end; [reflexivity|].
      cbn [skip_ws]. change (44 =? 32) with false. change (44 =? 10) with false. change (44 =? 13) with false.
      change (44 =? 9) with false. cbn [orb]. change (44 =? 125) with false. change (44 =? 44) with true. cbn iota.
      rewrite (IH Sr' y Hy Sy ltac:(intros K; apply Hn; constructor; assumption) w2 ty tr' Hw2 Ey eq_refl). reflexivity.
    + rewrite (Hx Sx Fx tv Ev). reflexivity.
Qed.

Lemma dumps_unreadable j lv : unreadable lv j.
Proof.
  revert lv. induction j as [z|b|s| |l IH|d IH] using json_ind'; intros lv Hs Hn tx Et n rest.
  - exfalso. apply Hn. exact I.
  - cbn [all_floats] in Hn. cbn [dumps] in Et. unfold dump_float in Et.
    destruct (f32_finite b) eqn:Fb; [exfalso; apply Hn, f32_finite_spec, Fb|].
    destruct n as [|n]; [reflexivity|].
    destruct (negb _); [|destruct (_ <=? b)]; injection Et as <-; reflexivity.
  - exfalso. apply Hn. exact I.
  - exfalso. apply Hn. exact I.
  - apply serialisable_list in Hs. rewrite all_floats_list in Hn.
    destruct l as [|x r]; [exfalso; apply Hn; constructor|].
    inversion IH as [|? ? IHx IHr]; inversion Hs as [|? ? Sx Sr]; subst.
    rewrite dumps_list in Et. destruct (dmp (S lv) x) as [t1|] eqn:E1; [|discriminate Et].
    destruct (dump_tail (dmp (S lv)) (item_sep i (S lv)) r) as [t2|] eqn:E2; [|discriminate Et].
    injection Et as <-. destruct n as [|n]; [reflexivity|]. cbn [app value skip_ws].
    change (91 =? 32) with false. change (91 =? 10) with false. change (91 =? 13) with false. change (91 =? 9) with false.
    cbn [orb]. change (91 =? 34) with false. change (91 =? 91) with true. cbn iota.
    rewrite <- !app_assoc. cbn [app]. rewrite skip_ws_app by apply newline_ws.
    pose proof (dumps_starts _ _ _ E1) as St. rewrite skip_ws_starts by (apply starts_app; exact St).
    rewrite (unreadable_elements (S lv) (newline i lv) r (newline_ws _ _)) with (x := x) (w := newline i (S lv));
      try assumption; try apply newline_ws; [|eapply Forall_impl; [|exact IHr]; intros a Ha; apply Ha|apply IHx].
    destruct t1 as [|c t1]; [destruct St|]. cbn [app]. destruct (Z.eqb_spec c 93) as [->|]; [cbn in St; tauto|reflexivity].
  - apply serialisable_dict in Hs. rewrite all_floats_dict in Hn.
    destruct d as [|p r]; [exfalso; apply Hn; constructor|].
    inversion IH as [|? ? IHx IHr]; inversion Hs as [|? ? Sx Sr]; subst.
    rewrite dumps_dict in Et. destruct (dump_member (S lv) p) as [t1|] eqn:E1; [|discriminate Et].
    destruct (dump_tail (dump_member (S lv)) (item_sep i (S lv)) r) as [t2|] eqn:E2; [|discriminate Et].
    injection Et as <-. destruct n as [|n]; [reflexivity|]. cbn [app value skip_ws].
    change (123 =? 32) with false. change (123 =? 10) with false. change (123 =? 13) with false. change (123 =? 9) with false.
    cbn [orb]. change (123 =? 34) with false. change (123 =? 91) with false. change (123 =? 123) with true. cbn iota.
    rewrite <- !app_assoc. cbn [app]. rewrite skip_ws_app by apply newline_ws.
    assert (starts t1) as St by (apply member_form in E1 as (tv & _ & ->); cbn; repeat split; discriminate).
    rewrite skip_ws_starts by (apply starts_app; exact St).
    rewrite (unreadable_members (S lv) (newline i lv) r (newline_ws _ _)) with (p := p) (w := newline i (S lv));
      try assumption; try apply newline_ws; [|eapply Forall_impl; [|exact IHr]; intros a Ha; apply Ha|apply IHx].
    destruct t1 as [|c t1]; [destruct St|]. cbn [app]. destruct (Z.eqb_spec c 125) as [->|]; [cbn in St; tauto|reflexivity].
Qed.
End Dumps.
