(** * The decompressor agrees with the RFCs: headers, blocks, streams (for C41) *)
From Coq Require Import List ZArith Lia Bool.
From Coq Require Import Init.Byte.
From Coq Require Import ZifyBool.
From Verif Require Import PyBase Inflate SpecDeflate BaseProofs InflateProofs DeflateProofs.
Import ListNotations.
Local Open Scope list_scope.
Local Open Scope Z_scope.

(** ** Which codes are accepted *)

Definition wsum (lens ns : list Z) : Z := fold_right (fun n s => occurs n lens * 2 ^ (15 - n) + s) 0 ns.

Lemma wsum_nonneg lens ns : Forall (fun n => n <= 15) ns -> 0 <= wsum lens ns.
Proof.
  induction 1 as [|n ns H _ IH]; cbn [wsum fold_right]; [lia|]. fold (wsum lens ns).
  pose proof (occurs_nonneg n lens). assert (0 < 2 ^ (15 - n)) by (apply Z.pow_pos_nonneg; lia). nia.
Qed.
Lemma upto_le n k : (n + k <= 16)%nat -> Forall (fun n => n <= 15) (upto n k).
Proof. intros H. apply Forall_forall. intros x Hx. apply in_map_iff in Hx. destruct Hx as (m & <- & I). apply in_seq in I. lia. Qed.

Lemma code_space_spec lens k : forall n s, (n + k = 16)%nat ->
  code_space (map (fun n => zlen (syms_of_len lens n)) (upto n k)) s =
  (if (0 <? Z.of_nat k) && (s * 2 ^ Z.of_nat k - wsum lens (upto n k) <? 0) then None else Some (s * 2 ^ Z.of_nat k - wsum lens (upto n k))).
Proof.
  induction k as [|k IH]; intros n s H.
  - change (upto n 0) with (@nil Z). cbn [map code_space wsum fold_right]. change (2 ^ Z.of_nat 0) with 1. change (0 <? Z.of_nat 0) with false. cbn [andb]. f_equal. lia.
  - unfold upto. cbn [seq map code_space]. fold (upto (S n) k). cbn zeta. rewrite syms_len.
    cbn [wsum fold_right]. fold (wsum lens (upto (S n) k)). replace (15 - Z.of_nat n) with (Z.of_nat k) by lia.
    replace (2 ^ Z.of_nat (S k)) with (2 * 2 ^ Z.of_nat k) by (rewrite <- Z.pow_succ_r by lia; f_equal; lia).
    pose proof (wsum_nonneg lens (upto (S n) k) (upto_le (S n) k ltac:(lia))) as WN.
    assert (0 < 2 ^ Z.of_nat k) as P by (apply Z.pow_pos_nonneg; lia).
    set (q := 2 ^ Z.of_nat k) in *. set (o := occurs (Z.of_nat n) lens) in *. set (ws := wsum lens (upto (S n) k)) in *.
    replace (0 <? Z.of_nat (S k)) with true by lia. cbn [andb].
    destruct (Z.ltb_spec (2 * s - o) 0) as [L|L].
    + replace (s * (2 * q) - (o * q + ws) <? 0) with true by nia. reflexivity.
    + rewrite IH by lia. fold q ws. replace (s * (2 * q) - (o * q + ws)) with ((2 * s - o) * q - ws) by lia.
      destruct k as [|k]; [|reflexivity]. change (0 <? Z.of_nat 0) with false. cbn [andb].
      replace ((2 * s - o) * q - ws <? 0) with false; [reflexivity|]. subst q ws. change (2 ^ Z.of_nat 0) with 1. change (upto (S n) 0) with (@nil Z). cbn [wsum fold_right]. lia.
Qed.

Lemma occurs_cons n x l : occurs n (x :: l) = (if x =? n then 1 else 0) + occurs n l.
Proof. unfold occurs. cbn [filter]. destruct (x =? n); [rewrite zlen_cons|]; lia. Qed.

Lemma kraft_wsum lens : lens_ok lens -> kraft lens = wsum lens (upto 1 15).
Proof.
  induction 1 as [|x l Hx _ IH]; [reflexivity|]. cbn [kraft fold_right]. fold (kraft l). rewrite IH.
  assert (x = 0 \/ x = 1 \/ x = 2 \/ x = 3 \/ x = 4 \/ x = 5 \/ x = 6 \/ x = 7 \/ x = 8 \/ x = 9 \/ x = 10 \/ x = 11 \/ x = 12 \/ x = 13 \/ x = 14 \/ x = 15) as D by lia.
  change (upto 1 15) with [1; 2; 3; 4; 5; 6; 7; 8; 9; 10; 11; 12; 13; 14; 15]. cbn [wsum fold_right]. rewrite !occurs_cons.
  destruct D as [->|[->|[->|[->|[->|[->|[->|[->|[->|[->|[->|[->|[->|[->|[->| ->]]]]]]]]]]]]]]]; cbn iota;
    repeat match goal with |- context [2 ^ (15 - ?a)] => let v := eval vm_compute in (2 ^ (15 - a)) in change (2 ^ (15 - a)) with v end;
    cbn -[occurs Z.mul Z.add]; lia.
Qed.

Lemma no_syms lens : lens_ok lens -> (hf_syms (mk_huff lens) = [] <-> no_code lens).
Proof.
  intros Hl. cbn [mk_huff hf_syms]. split.
  - intros E. apply Forall_forall. intros x Hx. pose proof (proj1 (Forall_forall _ _) Hl x Hx) as B. cbn beta in B. destruct (Z.eq_dec x 0) as [->|N]; [reflexivity|exfalso].
    apply In_nth_error in Hx. destruct Hx as (k & Hk). pose proof (proj1 (nth_error_Some lens k) ltac:(rewrite Hk; discriminate)) as L.
    assert (In (Z.of_nat k) (flat_map (syms_of_len lens) lens_1_15)) as I.
    { apply in_flat_map. exists x. split.
      - change lens_1_15 with (map Z.of_nat (seq 1 15)). apply in_map_iff. exists (Z.to_nat x). split; [lia|]. apply in_seq. lia.
      - apply (nth_error_In _ (Z.to_nat (occurs x (ztake (Z.of_nat k) lens)))). apply syms_nth; [lia|].
        split; [unfold zlen; lia|]. split; [unfold len_of; rewrite Nat2Z.id; apply nth_error_nth, Hk|]. pose proof (occurs_nonneg x (ztake (Z.of_nat k) lens)). lia. }
    rewrite E in I. exact I.
  - intros N. assert (forall n, 0 < n -> syms_of_len lens n = []) as S.
    { intros n Hn. destruct (syms_of_len lens n) as [|y r] eqn:E; [reflexivity|exfalso].
      assert (nth_error (syms_of_len lens n) 0 = Some y) as E0 by (rewrite E; reflexivity). apply syms_nth in E0; [|exact Hn].
      destruct E0 as (B & E0 & _). unfold len_of in E0. assert (Z.to_nat y < List.length lens)%nat as L by (unfold zlen in B; lia).
      pose proof (proj1 (Forall_nth _ _) N (Z.to_nat y) 0 L) as Z. cbn beta in Z. lia. }
    unfold lens_1_15. cbn [flat_map]. rewrite !S by lia. reflexivity.
Qed.

Lemma code_space_kraft lens : lens_ok lens ->
  code_space (hf_counts (mk_huff lens)) 1 = (if 2 ^ 15 <? kraft lens then None else Some (2 ^ 15 - kraft lens)).
Proof.
  intros Hl. cbn [mk_huff hf_counts]. change lens_1_15 with (upto 1 15). rewrite (code_space_spec lens 15 1 1 eq_refl), <- kraft_wsum by exact Hl.
  change (2 ^ Z.of_nat 15) with (2 ^ 15). change (0 <? Z.of_nat 15) with true. cbn [andb]. rewrite Z.mul_1_l.
  destruct (Z.ltb_spec (2 ^ 15) (kraft lens)); [replace (2 ^ 15 - kraft lens <? 0) with true by lia|replace (2 ^ 15 - kraft lens <? 0) with false by lia]; reflexivity.
Qed.

Lemma counts_zero lens n : 0 < n -> (zlen (syms_of_len lens n) = 0 <-> Forall (fun x => x <> n) lens).
Proof.
  intros Hn. rewrite syms_len. induction lens as [|x l IH].
  - split; [constructor|reflexivity].
  - rewrite occurs_cons. pose proof (occurs_nonneg n l). destruct (Z.eqb_spec x n) as [->|N]; split; intros H1.
    + lia.
    + inversion H1; congruence.
    + constructor; [exact N|]. apply IH. lia.
    + inversion H1; subst. rewrite (proj2 IH) by assumption. lia.
Qed.

Lemma kraft_ones lens : Forall (fun n => n = 0 \/ n = 1) lens -> exists c, 0 <= c /\ kraft lens = 2 ^ 14 * c /\ (c = 0 -> no_code lens).
Proof.
  induction 1 as [|x l Hx _ (c & C & K & N)].
  - exists 0. split; [lia|]. split; [reflexivity|constructor].
  - cbn [kraft fold_right]. fold (kraft l). destruct Hx as [-> | ->].
    + exists c. split; [exact C|]. split; [cbn -[kraft]; exact K|]. intros Z. constructor; [reflexivity|apply N, Z].
    + exists (c + 1). split; [lia|]. split; [|lia]. rewrite K. change (0 <? 1) with true. cbn iota. change (2 ^ (15 - 1)) with (2 ^ 14). lia.
Qed.

Lemma tl_zero lens : lens_ok lens -> (forallb (fun c => c =? 0) (tl (hf_counts (mk_huff lens))) = true <-> Forall (fun n => n = 0 \/ n = 1) lens).
Proof.
  intros Hl. rewrite forallb_forall. cbn [mk_huff hf_counts lens_1_15 map tl]. split.
  - intros H. assert (forall n, 2 <= n <= 15 -> Forall (fun x => x <> n) lens) as F.
    { intros n Hn. apply counts_zero; [lia|]. apply Z.eqb_eq, H.
      change (In (zlen (syms_of_len lens n)) (map (fun n => zlen (syms_of_len lens n)) [2; 3; 4; 5; 6; 7; 8; 9; 10; 11; 12; 13; 14; 15])).
      apply (in_map (fun n => zlen (syms_of_len lens n))). cbn [In]. lia. }
    apply Forall_forall. intros x Hx. pose proof (proj1 (Forall_forall _ _) Hl x Hx) as B. cbn beta in B.
    destruct (Z_le_gt_dec x 1) as [L|L]; [lia|exfalso]. exact (proj1 (Forall_forall _ _) (F x ltac:(lia)) x Hx eq_refl).
  - intros F y Hy. change (In y (map (fun n => zlen (syms_of_len lens n)) [2; 3; 4; 5; 6; 7; 8; 9; 10; 11; 12; 13; 14; 15])) in Hy.
    apply in_map_iff in Hy. destruct Hy as (n & <- & I). assert (2 <= n <= 15) as B by (cbn [In] in I; lia).
    apply Z.eqb_eq, counts_zero; [lia|]. eapply Forall_impl; [|exact F]. cbn beta. intros a [-> | ->]; lia.
Qed.

Lemma kraft_zero lens : no_code lens -> kraft lens = 0.
Proof. induction 1 as [|x l -> _ IH]; [reflexivity|]. cbn [kraft fold_right]. fold (kraft l). rewrite IH. reflexivity. Qed.

Lemma code_ok_strict lens : lens_ok lens -> (code_ok false (mk_huff lens) = true <-> no_code lens \/ complete_code lens).
Proof.
  intros Hl. unfold code_ok. pose proof (no_syms lens Hl) as NS. pose proof (code_space_kraft lens Hl) as CS.
  destruct (hf_syms (mk_huff lens)) as [|y r] eqn:E.
  - split; [|reflexivity]. intros _. left. apply NS. reflexivity.
  - rewrite CS. unfold complete_code. cbn [andb]. destruct (Z.ltb_spec (2 ^ 15) (kraft lens)) as [L|L].
    + split; [discriminate|]. intros [N|K]; [apply NS in N; discriminate N|lia].
    + rewrite orb_false_r. split; [intros H; right; lia|]. intros [N|K]; [apply NS in N; discriminate N|lia].
Qed.

Lemma code_ok_lone lens : lens_ok lens -> (code_ok true (mk_huff lens) = true <-> no_code lens \/ complete_code lens \/ lone_code lens).
Proof.
  intros Hl. unfold code_ok. pose proof (no_syms lens Hl) as NS. pose proof (code_space_kraft lens Hl) as CS. pose proof (tl_zero lens Hl) as TZ.
  destruct (hf_syms (mk_huff lens)) as [|y r] eqn:E.
  - split; [|reflexivity]. intros _. left. apply NS. reflexivity.
  - rewrite CS. unfold complete_code, lone_code. cbn [andb]. destruct (Z.ltb_spec (2 ^ 15) (kraft lens)) as [L|L].
    + split; [discriminate|]. intros [N|[K|[_ K]]]; [apply NS in N; discriminate N|lia|lia].
    + rewrite orb_true_iff. split.
      * intros [H|H]; [right; left; lia|]. apply TZ in H. destruct (kraft_ones lens H) as (c & C & K & N). right.
        assert (c <> 0) as C0 by (intros Z; apply N, NS in Z; discriminate Z).
        assert (c = 1 \/ c = 2) as [-> | ->] by lia; [right; split; [exact H|lia]|left; lia].
      * intros [N|[K|[H K]]]; [apply NS in N; discriminate N|left; lia|right; apply TZ, H].
Qed.

(** ** The lengths of the code length code *)

Lemma Rd_getcl n : Rd (getcl n) (fun raw w _ => exists ws, w = List.concat ws /\ List.length ws = n /\
  Forall (fun x => zlen x = 3) ws /\ raw = map lsb_value ws).
Proof.
  induction n as [|n IH]; cbn [getcl].
  - eapply Rd_iff; [|apply Rd_ret]. intros raw w rest. split.
    + intros [-> ->]. exists []. repeat split; constructor.
    + intros (ws & -> & L & _ & ->). destruct ws; [split; reflexivity|discriminate L].
  - eapply Rd_iff; [|apply Rd_bind; [apply Rd_getbits|intros x; apply Rd_bind; [apply IH|intros r; apply Rd_ret]]].
    intros raw w rest. cbn beta. split.
    + intros (x & w1 & w2 & -> & [L1 ->] & r & w3 & w4 & -> & (ws & -> & L & F & ->) & -> & ->). rewrite app_nil_r.
      exists (w1 :: ws). split; [reflexivity|]. split; [cbn; lia|]. split; [constructor; [unfold zlen; lia|exact F]|reflexivity].
    + intros (ws & -> & L & F & ->). destruct ws as [|x ws]; [discriminate L|]. injection L as L. inversion F as [|? ? F1 F2]; subst.
      exists (lsb_value x), x, (List.concat ws). split; [reflexivity|]. split; [split; [unfold zlen in F1; lia|reflexivity]|].
      exists (map lsb_value ws), (List.concat ws), []. rewrite app_nil_r. split; [reflexivity|]. split; [exists ws; auto|]. auto.
Qed.

Lemma combine_nth_key ks : NoDup ks -> forall raw i, (i < List.length ks)%nat ->
  fold_right (fun p acc => if fst p =? nth i ks 0 then snd p else acc) 0 (combine ks raw) = nth i raw 0.
Proof.
  induction 1 as [|k ks NI _ IH]; intros raw i L; [cbn in L; lia|]. destruct raw as [|r raw]; [destruct i; reflexivity|].
  cbn [combine fold_right fst snd]. destruct i as [|i]; cbn [nth].
  - rewrite Z.eqb_refl. reflexivity.
  - cbn [List.length] in L. replace (k =? nth i ks 0) with false; [apply IH; lia|]. symmetry. apply Z.eqb_neq. intros ->. apply NI, nth_In. lia.
Qed.

Lemma order_nodup : NoDup cl_order.
Proof. unfold cl_order. repeat (constructor; [cbn [In]; lia|]). constructor. Qed.

Lemma cl_lens_len raw : zlen (cl_lens raw) = 19.
Proof. reflexivity. Qed.

Lemma cl_lens_nth raw i : 0 <= i < 19 -> len_of (cl_lens raw) (nth (Z.to_nat i) length_order 0) = nth (Z.to_nat i) raw 0.
Proof.
  intros H. rewrite <- (combine_nth_key cl_order order_nodup raw (Z.to_nat i)) by (cbn; lia). change length_order with cl_order.
  assert (0 <= nth (Z.to_nat i) cl_order 0 < 19) as B.
  { assert (In (nth (Z.to_nat i) cl_order 0) cl_order) as I by (apply nth_In; cbn; lia). revert I. generalize (nth (Z.to_nat i) cl_order 0). intros z I. cbn [cl_order In] in I. lia. }
  revert B. generalize (nth (Z.to_nat i) cl_order 0). intros z B.
  unfold len_of, cl_lens. set (f := fun sym : Z => _).
  replace (map fst (number_from 0 (repeat tt 19))) with (map Z.of_nat (seq 0 19)) by reflexivity.
  rewrite nth_indep with (d' := f 0) by (rewrite !map_length, seq_length; lia). rewrite map_nth.
  rewrite nth_indep with (d' := Z.of_nat 0) by (rewrite map_length, seq_length; lia). rewrite map_nth, seq_nth by lia.
  replace (Z.of_nat (0 + Z.to_nat z)) with z by lia. reflexivity.
Qed.

Lemma cl_unique cl raw : zlen cl = 19 ->
  (forall i, 0 <= i < 19 -> len_of cl (nth (Z.to_nat i) length_order 0) = lsb_value (nth (Z.to_nat i) raw [])) ->
  cl = cl_lens (map lsb_value raw).
Proof.
  intros L H. apply nth_ext with (d := 0) (d' := 0); [unfold zlen in L; change (List.length (cl_lens (map lsb_value raw))) with 19%nat; lia|].
  intros k Hk. assert (k < 19)%nat as B by (unfold zlen in L; lia).
  assert (exists i, 0 <= i < 19 /\ nth (Z.to_nat i) length_order 0 = Z.of_nat k) as (i & Bi & E).
  { assert (In (Z.of_nat k) length_order) as I by (cbn [length_order In]; lia).
    apply (In_nth _ _ 0) in I. destruct I as (i & Li & E). exists (Z.of_nat i). rewrite Nat2Z.id. split; [cbn in Li; lia|exact E]. }
  pose proof (H i Bi) as H1. pose proof (cl_lens_nth (map lsb_value raw) i Bi) as H2. rewrite E in *. unfold len_of in *. rewrite Nat2Z.id in *.
  rewrite H1, H2. change 0 with (lsb_value []). rewrite map_nth. reflexivity.
Qed.

Lemma cl_lens_ok raw : Forall (fun x => zlen x = 3) raw -> lens_ok (cl_lens (map lsb_value raw)).
Proof.
  intros F. apply Forall_forall. intros x Hx. apply (In_nth _ _ 0) in Hx. destruct Hx as (k & Lk & <-). change (List.length _) with 19%nat in Lk.
  assert (exists i, 0 <= i < 19 /\ nth (Z.to_nat i) length_order 0 = Z.of_nat k) as (i & Bi & E).
  { assert (In (Z.of_nat k) length_order) as I by (cbn [length_order In]; lia).
    apply (In_nth _ _ 0) in I. destruct I as (i & Li & E). exists (Z.of_nat i). rewrite Nat2Z.id. split; [cbn in Li; lia|exact E]. }
  pose proof (cl_lens_nth (map lsb_value raw) i Bi) as H. rewrite E in H. unfold len_of in H. rewrite Nat2Z.id in H. rewrite H.
  change (nth (Z.to_nat i) (map lsb_value raw) 0) with (nth (Z.to_nat i) (map lsb_value raw) (lsb_value [])). rewrite map_nth. destruct (Nat.lt_ge_cases (Z.to_nat i) (List.length raw)) as [L|L].
  - pose proof (proj1 (Forall_nth _ _) F (Z.to_nat i) [] L) as L3. cbn beta in L3. pose proof (lsb_range (nth (Z.to_nat i) raw [])) as R. rewrite L3 in R. change (2 ^ 3) with 8 in R. lia.
  - rewrite nth_overflow by exact L. cbn. lia.
Qed.

(** ** Run-length coded lengths *)

Lemma runs_grow cl ls w ls' : runs cl ls w ls' -> exists m, ls' = ls ++ m /\ (m = [] -> w = []).
Proof.
  induction 1 as [ls|ls n w more ls' B C _ (m & -> & _)|ls p w x more ls' C X _ (m & -> & _)|ls w x more ls' C X _ (m & -> & _)|ls w x more ls' C X _ (m & -> & _)].
  - exists []. rewrite app_nil_r. auto.
  - exists ([n] ++ m). split; [rewrite <- app_assoc; reflexivity|discriminate].
  - pose proof (lsb_range x). eexists (repeat p (Z.to_nat (3 + lsb_value x)) ++ m). split; [rewrite <- !app_assoc; reflexivity|].
    intros E. apply app_eq_nil in E. destruct E as [E _]. apply (f_equal (@List.length Z)) in E. rewrite repeat_length in E. change (List.length (@nil Z)) with 0%nat in E. lia.
  - pose proof (lsb_range x). eexists (repeat 0 (Z.to_nat (3 + lsb_value x)) ++ m). split; [rewrite <- !app_assoc; reflexivity|].
    intros E. apply app_eq_nil in E. destruct E as [E _]. apply (f_equal (@List.length Z)) in E. rewrite repeat_length in E. change (List.length (@nil Z)) with 0%nat in E. lia.
  - pose proof (lsb_range x). eexists (repeat 0 (Z.to_nat (11 + lsb_value x)) ++ m). split; [rewrite <- !app_assoc; reflexivity|].
    intros E. apply app_eq_nil in E. destruct E as [E _]. apply (f_equal (@List.length Z)) in E. rewrite repeat_length in E. change (List.length (@nil Z)) with 0%nat in E. lia.
Qed.

Lemma repeat_ok n x : 0 <= x <= 15 -> lens_ok (repeat x n).
Proof. intros H. induction n; constructor; assumption. Qed.

Lemma runs_ok cl ls w ls' : runs cl ls w ls' -> lens_ok ls -> lens_ok ls'.
Proof.
  induction 1 as [ls|ls n w more ls' B C _ IH|ls p w x more ls' C X _ IH|ls w x more ls' C X _ IH|ls w x more ls' C X _ IH]; intros H.
  - exact H.
  - apply IH, Forall_app. split; [exact H|constructor; [exact B|constructor]].
  - apply IH, Forall_app. split; [exact H|]. apply repeat_ok. apply Forall_app in H. destruct H as [_ H]. inversion H; assumption.
  - apply IH, Forall_app. split; [exact H|apply repeat_ok; lia].
  - apply IH, Forall_app. split; [exact H|apply repeat_ok; lia].
Qed.

Lemma rev_repeat {A} n (x : A) : rev (repeat x n) = repeat x n.
Proof.
  induction n as [|n IH]; [reflexivity|]. cbn [repeat rev]. rewrite IH. clear IH. induction n as [|n IH]; [reflexivity|]. cbn [repeat app]. rewrite IH. reflexivity.
Qed.

Lemma getlens_rd cl want : lens_ok cl -> zlen cl = 19 -> forall fuel ls, want - zlen ls < Z.of_nat fuel -> 
  Rd (getlens fuel (mk_huff cl) want (rev ls)) (fun l w _ => zlen l = want /\ runs cl ls w l).
Proof.
  intros Hcl H19. induction fuel as [|k IH]; intros ls Hf.
  - eapply Rd_iff; [|apply Rd_fail]. intros l w rest. split; [intros []|]. intros [L R]. apply runs_grow in R. destruct R as (m & -> & _).
    rewrite zlen_app in L. pose proof (zlen_nonneg m). lia.
  - cbn [getlens]. assert (zlen (rev ls) = zlen ls) as ZR by (unfold zlen; rewrite rev_length; reflexivity). rewrite ZR. clear ZR.
    destruct (Z.leb_spec want (zlen ls)) as [L|L].
    + destruct (Z.eqb_spec (zlen ls) want) as [E|N].
      * eapply Rd_iff; [|apply Rd_ret]. intros l w rest. rewrite rev_involutive. split.
        -- intros [-> ->]. split; [exact E|constructor].
        -- intros [Ll R]. destruct (runs_grow _ _ _ _ R) as (m & -> & Hm). rewrite zlen_app in Ll. destruct m; [|rewrite zlen_cons in Ll; pose proof (zlen_nonneg m); lia].
           rewrite app_nil_r. auto.
      * eapply Rd_iff; [|apply Rd_fail]. intros l w rest. split; [intros []|]. intros [Ll R]. apply runs_grow in R. destruct R as (m & -> & _).
        rewrite zlen_app in Ll. pose proof (zlen_nonneg m). lia.
    + eapply Rd_iff; [|apply (Rd_bind_if _ _ (fun s w _ => is_code cl s w) (fun s l w (_ : list bool) => zlen l = want /\
         if s <? 16 then runs cl (ls ++ [s]) w l
         else if s =? 16 then exists ls0 p x more, ls = ls0 ++ [p] /\ w = x ++ more /\ zlen x = 2 /\ runs cl (ls ++ repeat p (Z.to_nat (3 + lsb_value x))) more l
         else if s =? 17 then exists x more, w = x ++ more /\ zlen x = 3 /\ runs cl (ls ++ repeat 0 (Z.to_nat (3 + lsb_value x))) more l
         else exists x more, w = x ++ more /\ zlen x = 7 /\ runs cl (ls ++ repeat 0 (Z.to_nat (11 + lsb_value x))) more l)
         (fun s => 0 <= s < 19)); [apply Rd_decode, Hcl| |]].
      * intros l w rest. cbn beta. split.
        -- intros (s & w1 & w2 & -> & C & Ll & H). split; [exact Ll|]. pose proof (proj1 C) as B.
           destruct (Z.ltb_spec s 16) as [S1|S1]; [apply rn_length with (n := s); [lia|exact C|exact H]|].
           destruct (Z.eqb_spec s 16) as [->|S2].
           { destruct H as (ls0 & p & x & more & -> & -> & X & R). apply rn_repeat; assumption. }
           destruct (Z.eqb_spec s 17) as [->|S3].
           { destruct H as (x & more & -> & X & R). apply rn_zeros; assumption. }
           assert (s = 18) as -> by lia. destruct H as (x & more & -> & X & R). apply rn_many_zeros; assumption.
        -- intros [Ll R]. destruct R as [ls|ls n w more ls' B C R|ls p w x more ls' C X R|ls w x more ls' C X R|ls w x more ls' C X R]; [lia| | | |].
           ++ exists n, w, more. split; [reflexivity|]. split; [exact C|]. split; [exact Ll|]. replace (n <? 16) with true by lia. exact R.
           ++ exists 16, w, (x ++ more). split; [reflexivity|]. split; [exact C|]. split; [exact Ll|]. cbn [Z.ltb Z.eqb Z.compare Pos.compare Pos.compare_cont Pos.eqb].
              exists ls, p, x, more. auto.
           ++ exists 17, w, (x ++ more). split; [reflexivity|]. split; [exact C|]. split; [exact Ll|]. exists x, more. auto.
           ++ exists 18, w, (x ++ more). split; [reflexivity|]. split; [exact C|]. split; [exact Ll|]. exists x, more. auto.
      * intros s w rest C. pose proof (proj1 C). lia.
      * intros s Bs. destruct (s <? 16) eqn:S1.
        { replace (s :: rev ls) with (rev (ls ++ [s])) by (rewrite rev_app_distr; reflexivity). apply IH. rewrite zlen_app. change (zlen [s]) with 1. lia. }
        destruct (s =? 16) eqn:S2.
        { destruct (rev ls) as [|p r] eqn:ER.
          - eapply Rd_iff; [|apply Rd_fail]. intros l w rest. split; [intros []|]. intros (_ & ls0 & p & x & more & -> & _). rewrite rev_app_distr in ER. discriminate ER.
          - assert (ls = rev r ++ [p]) as -> by (rewrite <- (rev_involutive ls), ER; reflexivity).
            eapply Rd_iff; [|apply (Rd_bind_if _ _ (fun v w _ => List.length w = 2%nat /\ v = lsb_value w)
              (fun v l w (_ : list bool) => zlen l = want /\ runs cl ((rev r ++ [p]) ++ repeat p (Z.to_nat (3 + v))) w l) (fun v => 0 <= v)); [apply Rd_getbits| |]].
            + intros l w rest. cbn beta. split.
              * intros (v & w1 & w2 & -> & [L2 ->] & Ll & R). split; [exact Ll|]. exists (rev r), p, w1, w2. split; [reflexivity|]. split; [reflexivity|]. split; [unfold zlen; lia|exact R].
              * intros (Ll & ls0 & p' & x & more & E & -> & X & R). apply app_inj_tail in E. destruct E as [_ <-].
                exists (lsb_value x), x, more. split; [reflexivity|]. split; [split; [unfold zlen in X; lia|reflexivity]|]. auto.
            + intros v w rest [_ ->]. apply lsb_range.
            + intros v Hv. replace (repeat p (Z.to_nat (3 + v)) ++ p :: r) with (rev ((rev r ++ [p]) ++ repeat p (Z.to_nat (3 + v)))).
              * apply IH. rewrite zlen_app. unfold zlen at 2. rewrite repeat_length. lia.
              * rewrite !rev_app_distr, rev_repeat, rev_involutive. reflexivity. }
        destruct (s =? 17) eqn:S3.
        { eapply Rd_iff; [|apply (Rd_bind_if _ _ (fun v w _ => List.length w = 3%nat /\ v = lsb_value w)
              (fun v l w (_ : list bool) => zlen l = want /\ runs cl (ls ++ repeat 0 (Z.to_nat (3 + v))) w l) (fun v => 0 <= v)); [apply Rd_getbits| |]].
          - intros l w rest. cbn beta. split.
            + intros (v & w1 & w2 & -> & [L2 ->] & Ll & R). split; [exact Ll|]. exists w1, w2. split; [reflexivity|]. split; [unfold zlen; lia|exact R].
            + intros (Ll & x & more & -> & X & R).
              exists (lsb_value x), x, more. split; [reflexivity|]. split; [split; [unfold zlen in X; lia|reflexivity]|]. auto.
          - intros v w rest [_ ->]. apply lsb_range.
          - intros v Hv. replace (repeat 0 (Z.to_nat (3 + v)) ++ rev ls) with (rev (ls ++ repeat 0 (Z.to_nat (3 + v)))) by (rewrite rev_app_distr, rev_repeat; reflexivity).
            apply IH. rewrite zlen_app. unfold zlen at 2. rewrite repeat_length. lia. }
        { eapply Rd_iff; [|apply (Rd_bind_if _ _ (fun v w _ => List.length w = 7%nat /\ v = lsb_value w)
              (fun v l w (_ : list bool) => zlen l = want /\ runs cl (ls ++ repeat 0 (Z.to_nat (11 + v))) w l) (fun v => 0 <= v)); [apply Rd_getbits| |]].
          - intros l w rest. cbn beta. split.
            + intros (v & w1 & w2 & -> & [L2 ->] & Ll & R). split; [exact Ll|]. exists w1, w2. split; [reflexivity|]. split; [unfold zlen; lia|exact R].
            + intros (Ll & x & more & -> & X & R).
              exists (lsb_value x), x, more. split; [reflexivity|]. split; [split; [unfold zlen in X; lia|reflexivity]|]. auto.
          - intros v w rest [_ ->]. apply lsb_range.
          - intros v Hv. replace (repeat 0 (Z.to_nat (11 + v)) ++ rev ls) with (rev (ls ++ repeat 0 (Z.to_nat (11 + v)))) by (rewrite rev_app_distr, rev_repeat; reflexivity).
            apply IH. rewrite zlen_app. unfold zlen at 2. rewrite repeat_length. lia. }
Qed.
