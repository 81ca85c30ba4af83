(** * The decompressor agrees with the RFCs: blocks and streams (for C41) *)
From Coq Require Import List ZArith Lia Bool.
From Coq Require Import Init.Byte.
From Coq Require Import ZifyBool.
From Verif Require Import PyBase Inflate SpecDeflate BaseProofs InflateProofs DeflateProofs DeflateProofs2.
Import ListNotations.
Local Open Scope list_scope.
Local Open Scope Z_scope.

Lemma Rd_ext {A} (m m' : P A) R : (forall s, m s = m' s) -> Rd m R -> Rd m' R.
Proof. intros E H s W. rewrite <- E. apply H, W. Qed.
Lemma RdN_ext {A} N (m m' : P A) R : (forall s, m s = m' s) -> RdN N m R -> RdN N m' R.
Proof. intros E H s W. rewrite <- E. apply H, W. Qed.

(** ** Dynamic headers *)

(** [dynamic_codes] before the codes are built. *)
Definition dynamic_lens : P (list Z * list Z) :=
  let* hlit := getbits 5 in
  let* hdist := getbits 5 in
  let* hclen := getbits 4 in
  let nlen := hlit + 257 in
  let ndist := hdist + 1 in
  if (286 <? nlen) || (30 <? ndist) then pfail else
  let* raw := getcl (Z.to_nat (hclen + 4)) in
  let clh := mk_huff (cl_lens raw) in
  if negb (code_ok false clh) then pfail else
  let* lens := getlens 320 clh (nlen + ndist) [] in
  let litlens := ztake nlen lens in
  let distlens := zdrop nlen lens in
  if nth 256 litlens 0 =? 0 then pfail else
  if code_ok true (mk_huff litlens) && code_ok true (mk_huff distlens) then pret (litlens, distlens) else pfail.

Lemma dynamic_codes_lens s : dynamic_codes s = pbind dynamic_lens (fun p => pret (mk_huff (fst p), mk_huff (snd p))) s.
Proof.
  unfold dynamic_codes, dynamic_lens, pbind.
  destruct (getbits 5 s) as [[hlit s1]|]; [|reflexivity]. destruct (getbits 5 s1) as [[hdist s2]|]; [|reflexivity].
  destruct (getbits 4 s2) as [[hclen s3]|]; [|reflexivity]. cbn zeta.
  destruct ((286 <? hlit + 257) || (30 <? hdist + 1)); [reflexivity|].
  destruct (getcl (Z.to_nat (hclen + 4)) s3) as [[raw s4]|]; [|reflexivity].
  destruct (negb (code_ok false (mk_huff (cl_lens raw)))); [reflexivity|].
  destruct (getlens 320 (mk_huff (cl_lens raw)) (hlit + 257 + (hdist + 1)) [] s4) as [[lens s5]|]; [|reflexivity].
  destruct (nth 256 (ztake (hlit + 257) lens) 0 =? 0); [reflexivity|].
  destruct (code_ok true (mk_huff (ztake (hlit + 257) lens)) && code_ok true (mk_huff (zdrop (hlit + 257) lens))); reflexivity.
Qed.

Definition codes_accepted (ll dl : list Z) : Prop :=
  len_of ll 256 <> 0 /\ (complete_code ll \/ lone_code ll) /\ (no_code dl \/ complete_code dl \/ lone_code dl).

Lemma lens_ok_app a b : lens_ok (a ++ b) <-> lens_ok a /\ lens_ok b.
Proof. apply Forall_app. Qed.

Lemma final_rd n lens : lens_ok lens ->
  Rd (if nth 256 (ztake n lens) 0 =? 0 then pfail else
      if code_ok true (mk_huff (ztake n lens)) && code_ok true (mk_huff (zdrop n lens)) then pret (ztake n lens, zdrop n lens) else pfail)
     (fun p w _ => w = [] /\ p = (ztake n lens, zdrop n lens) /\ codes_accepted (ztake n lens) (zdrop n lens)).
Proof.
  intros Hl. rewrite <- (ztake_zdrop n lens) in Hl. apply lens_ok_app in Hl. destruct Hl as [H1 H2].
  change (nth 256 (ztake n lens) 0) with (len_of (ztake n lens) 256). unfold codes_accepted.
  pose proof (code_ok_lone _ H1) as C1. pose proof (code_ok_lone _ H2) as C2. set (ll := ztake n lens) in *. set (dl := zdrop n lens) in *. clearbody ll dl.
  destruct (Z.eqb_spec (len_of ll 256) 0) as [E|N].
  - eapply Rd_iff; [|apply Rd_fail]. intros p w rest. split; [intros []|]. intros (_ & _ & H & _). congruence.
  - assert (~ no_code ll) as NN.
    { intros Z. apply N. unfold len_of. destruct (Nat.lt_ge_cases (Z.to_nat 256) (List.length ll)) as [L|L].
      - exact (proj1 (Forall_nth _ _) Z (Z.to_nat 256) 0 L).
      - apply nth_overflow, L. }
    destruct (code_ok true (mk_huff ll)) eqn:E1; cbn [andb].
    + destruct (code_ok true (mk_huff dl)) eqn:E2.
      * eapply Rd_iff; [|apply Rd_ret]. intros p w rest. split.
        -- intros [-> ->]. split; [reflexivity|]. split; [reflexivity|]. split; [exact N|]. split; [|apply C2; reflexivity].
           destruct (proj1 C1 eq_refl) as [Z|Z]; [destruct (NN Z)|exact Z].
        -- intros (-> & -> & _). auto.
      * eapply Rd_iff; [|apply Rd_fail]. intros p w rest. split; [intros []|]. intros (_ & _ & _ & _ & H). apply C2 in H. discriminate H.
    + eapply Rd_iff; [|apply Rd_fail]. intros p w rest. split; [intros []|]. intros (_ & _ & _ & H & _).
      assert (false = true) as F by (apply C1; right; exact H). discriminate F.
Qed.

Lemma lens_rd n m raw : 257 <= n <= 286 -> 1 <= m <= 30 -> lens_ok (cl_lens raw) ->
  Rd (if negb (code_ok false (mk_huff (cl_lens raw))) then pfail else
      let* lens := getlens 320 (mk_huff (cl_lens raw)) (n + m) [] in
      if nth 256 (ztake n lens) 0 =? 0 then pfail else
      if code_ok true (mk_huff (ztake n lens)) && code_ok true (mk_huff (zdrop n lens)) then pret (ztake n lens, zdrop n lens) else pfail)
     (fun p w _ => (no_code (cl_lens raw) \/ complete_code (cl_lens raw)) /\ runs (cl_lens raw) [] w (fst p ++ snd p) /\
        zlen (fst p) = n /\ zlen (snd p) = m /\ codes_accepted (fst p) (snd p)).
Proof.
  intros Hn Hm Hc. pose proof (code_ok_strict _ Hc) as C. destruct (code_ok false (mk_huff (cl_lens raw))) eqn:E; cbn [negb].
  2:{ eapply Rd_iff; [|apply Rd_fail]. intros p w rest. split; [intros []|]. intros (H & _). apply C in H. discriminate H. }
  eapply Rd_iff; [|apply (Rd_bind_if _ _ (fun l w _ => zlen l = n + m /\ runs (cl_lens raw) [] w l)
     (fun lens p w (_ : list bool) => w = [] /\ p = (ztake n lens, zdrop n lens) /\ codes_accepted (ztake n lens) (zdrop n lens)) lens_ok)].
  - intros p w rest. cbn beta. split.
    + intros (lens & w1 & w2 & -> & [L R] & -> & -> & A). rewrite app_nil_r. cbn [fst snd]. rewrite ztake_zdrop.
      split; [apply C; reflexivity|]. split; [exact R|]. rewrite zlen_ztake, zlen_zdrop. split; [lia|]. split; [lia|exact A].
    + intros (_ & R & L1 & L2 & A). destruct p as [ll dl]. cbn [fst snd] in *. exists (ll ++ dl), w, []. rewrite app_nil_r.
      split; [reflexivity|]. split; [split; [rewrite zlen_app; lia|exact R]|]. split; [reflexivity|].
      assert (ztake n (ll ++ dl) = ll) as -> by (apply ztake_exact, L1).
      assert (zdrop n (ll ++ dl) = dl) as -> by (apply zdrop_exact, L1). auto.
  - apply (getlens_rd (cl_lens raw) (n + m) Hc (cl_lens_len raw) 320 []). change (zlen (@nil Z)) with 0. lia.
  - intros lens w rest [_ R]. eapply runs_ok; [exact R|constructor].
  - intros lens Hl. apply final_rd, Hl.
Qed.

Lemma Rd_dynamic : Rd dynamic_lens (fun p w _ => dynamic_header w (fst p) (snd p)).
Proof.
  unfold dynamic_lens.
  eapply Rd_iff; [|apply (Rd_bind_if _ _ (fun v w _ => List.length w = 5%nat /\ v = lsb_value w)
    (fun hlit p w (_ : list bool) => exists b c raw r, w = b ++ c ++ List.concat raw ++ r /\
        zlen b = 5 /\ zlen c = 4 /\ zlen (fst p) = hlit + 257 /\ zlen (fst p) <= 286 /\
        zlen (snd p) = lsb_value b + 1 /\ zlen (snd p) <= 30 /\ zlen raw = lsb_value c + 4 /\ Forall (fun x => zlen x = 3) raw /\
        (no_code (cl_lens (map lsb_value raw)) \/ complete_code (cl_lens (map lsb_value raw))) /\
        runs (cl_lens (map lsb_value raw)) [] r (fst p ++ snd p) /\ codes_accepted (fst p) (snd p))
    (fun v => 0 <= v)); [apply Rd_getbits|intros v w rest [_ ->]; apply lsb_range|]].
  - intros [ll dl] w rest. cbn beta. cbn [fst snd]. unfold dynamic_header. split.
    + intros (hlit & a & w2 & -> & [La ->] & b & c & raw & r & -> & Lb & Lc & L1 & L2 & L3 & L4 & L5 & F & K & R & A).
      exists a, b, c, raw, r, (cl_lens (map lsb_value raw)). split; [reflexivity|]. split; [unfold zlen; lia|].
      do 8 (split; [assumption|]). split; [apply cl_lens_len|].
      split.
      { intros i Hi. rewrite cl_lens_nth by exact Hi. change 0 with (lsb_value []). apply map_nth. }
      split; [exact K|]. split; [exact R|]. exact A.
    + intros (a & b & c & raw & r & cl & -> & La & Lb & Lc & L1 & L2 & L3 & L4 & L5 & F & L19 & O & K & R & A).
      pose proof (cl_unique cl raw L19 O) as ->. exists (lsb_value a), a, (b ++ c ++ List.concat raw ++ r). split; [reflexivity|].
      split; [split; [unfold zlen in La; lia|reflexivity]|]. exists b, c, raw, r. split; [reflexivity|]. do 8 (split; [assumption|]).
      split; [exact K|]. split; [exact R|exact A].
  - intros hlit H1.
    eapply Rd_iff; [|apply (Rd_bind_if _ _ (fun v w _ => List.length w = 5%nat /\ v = lsb_value w)
      (fun hdist p w (_ : list bool) => exists c raw r, w = c ++ List.concat raw ++ r /\
        zlen c = 4 /\ zlen (fst p) = hlit + 257 /\ zlen (fst p) <= 286 /\
        zlen (snd p) = hdist + 1 /\ zlen (snd p) <= 30 /\ zlen raw = lsb_value c + 4 /\ Forall (fun x => zlen x = 3) raw /\
        (no_code (cl_lens (map lsb_value raw)) \/ complete_code (cl_lens (map lsb_value raw))) /\
        runs (cl_lens (map lsb_value raw)) [] r (fst p ++ snd p) /\ codes_accepted (fst p) (snd p))
      (fun v => 0 <= v)); [apply Rd_getbits|intros v w rest [_ ->]; apply lsb_range|]].
    + intros p w rest. cbn beta. split.
      * intros (hdist & b & w2 & -> & [Lb ->] & c & raw & r & -> & H). exists b, c, raw, r. split; [reflexivity|].
        split; [unfold zlen; lia|exact H].
      * intros (b & c & raw & r & -> & Lb & H). exists (lsb_value b), b, (c ++ List.concat raw ++ r). split; [reflexivity|].
        split; [split; [unfold zlen in Lb; lia|reflexivity]|]. exists c, raw, r. auto.
    + intros hdist H2.
      eapply Rd_iff; [|apply (Rd_bind_if _ _ (fun v w _ => List.length w = 4%nat /\ v = lsb_value w)
        (fun hclen p w (_ : list bool) => exists raw r, w = List.concat raw ++ r /\
          zlen (fst p) = hlit + 257 /\ zlen (fst p) <= 286 /\
          zlen (snd p) = hdist + 1 /\ zlen (snd p) <= 30 /\ zlen raw = hclen + 4 /\ Forall (fun x => zlen x = 3) raw /\
          (no_code (cl_lens (map lsb_value raw)) \/ complete_code (cl_lens (map lsb_value raw))) /\
          runs (cl_lens (map lsb_value raw)) [] r (fst p ++ snd p) /\ codes_accepted (fst p) (snd p))
        (fun v => 0 <= v)); [apply Rd_getbits|intros v w rest [_ ->]; apply lsb_range|]].
      * intros p w rest. cbn beta. split.
        -- intros (hclen & c & w2 & -> & [Lc ->] & raw & r & -> & H). exists c, raw, r. split; [reflexivity|].
           split; [unfold zlen; lia|exact H].
        -- intros (c & raw & r & -> & Lc & H). exists (lsb_value c), c, (List.concat raw ++ r). split; [reflexivity|].
           split; [split; [unfold zlen in Lc; lia|reflexivity]|]. exists raw, r. auto.
      * intros hclen H3. cbn zeta. destruct ((286 <? hlit + 257) || (30 <? hdist + 1)) eqn:Big.
        { eapply Rd_iff; [|apply Rd_fail]. intros p w rest. split; [intros []|]. intros (raw & r & _ & L1 & L2 & L3 & L4 & _). lia. }
        eapply Rd_iff; [|apply (Rd_bind_if _ _ (fun raw w _ => exists ws, w = List.concat ws /\ List.length ws = Z.to_nat (hclen + 4) /\
             Forall (fun x => zlen x = 3) ws /\ raw = map lsb_value ws)
          (fun raw p w (_ : list bool) => (no_code (cl_lens raw) \/ complete_code (cl_lens raw)) /\ runs (cl_lens raw) [] w (fst p ++ snd p) /\
             zlen (fst p) = hlit + 257 /\ zlen (snd p) = hdist + 1 /\ codes_accepted (fst p) (snd p))
          (fun raw => lens_ok (cl_lens raw))); [apply Rd_getcl| |]].
        -- intros p w rest. cbn beta. split.
           ++ intros (raw & w1 & w2 & -> & (ws & -> & L & F & ->) & K & R & L1 & L2 & A). exists ws, w2. split; [reflexivity|].
              split; [exact L1|]. split; [lia|]. split; [exact L2|]. split; [lia|]. split; [unfold zlen; lia|]. auto.
           ++ intros (ws & r & -> & L1 & L2 & L3 & L4 & L5 & F & K & R & A). exists (map lsb_value ws), (List.concat ws), r.
              split; [reflexivity|]. split; [exists ws; split; [reflexivity|]; split; [unfold zlen in L5; lia|]; auto|]. auto.
        -- intros raw w rest (ws & -> & _ & F & ->). apply cl_lens_ok, F.
        -- intros raw Hraw. apply lens_rd; [lia|lia|exact Hraw].
Qed.

Lemma header_ok h ll dl : dynamic_header h ll dl -> lens_ok ll /\ lens_ok dl.
Proof.
  intros (a & b & c & raw & r & cl & _ & _ & _ & _ & _ & _ & _ & _ & _ & _ & _ & _ & _ & R & _).
  apply lens_ok_app. eapply runs_ok; [exact R|constructor].
Qed.

(** ** Stored blocks *)

Lemma byte_bits_value b : lsb_value (byte_bits b) = bval b.
Proof. destruct b; reflexivity. Qed.
Lemma byte_bits_inj a b : byte_bits a = byte_bits b -> a = b.
Proof. intros E. apply (f_equal lsb_value) in E. rewrite !byte_bits_value in E. rewrite <- (byte_of_bval a), <- (byte_of_bval b), E. reflexivity. Qed.

Lemma data_bits_split a : forall r b, data_bits a ++ r = data_bits b -> exists b', b = a ++ b' /\ r = data_bits b'.
Proof.
  induction a as [|x a IH]; intros r b E.
  - exists b. auto.
  - destruct b as [|y b].
    + exfalso. apply (f_equal (@List.length bool)) in E. rewrite app_length, data_bits_len in E. cbn in E. lia.
    + change (data_bits (x :: a)) with (byte_bits x ++ data_bits a) in E. change (data_bits (y :: b)) with (byte_bits y ++ data_bits b) in E.
      rewrite <- app_assoc in E. apply app_inj_len in E; [|reflexivity]. destruct E as [E1 E2]. apply byte_bits_inj in E1. subst y.
      destruct (IH _ _ E2) as (b' & -> & ->). exists b'. auto.
Qed.
Lemma data_bits_inj a b : data_bits a = data_bits b -> a = b.
Proof.
  intros E. rewrite <- (app_nil_r (data_bits a)) in E. apply data_bits_split in E. destruct E as (b' & -> & E).
  destruct b'; [rewrite app_nil_r; reflexivity|discriminate E].
Qed.

Lemma getbytes_n_spec n : forall o l, getbytes_n n o (mkB [] l) =
  if (n <=? List.length l)%nat then Some (rev (firstn n l) ++ o, mkB [] (skipn n l)) else None.
Proof.
  induction n as [|n IH]; intros o l; cbn [getbytes_n]; [reflexivity|]. unfold pbind, getbyte. cbn [b_bytes b_bits].
  destruct l as [|x l]; [reflexivity|]. rewrite IH. cbn [List.length firstn skipn rev]. change (S n <=? S (List.length l))%nat with (n <=? List.length l)%nat.
  destruct (n <=? List.length l)%nat; [|reflexivity]. rewrite <- app_assoc. reflexivity.
Qed.

Lemma bytes_len2 (l : list byte) : zlen l = 2 -> exists a b, l = [a; b].
Proof. intros H. destruct l as [|a [|b [|c l]]]; try (exfalso; unfold zlen in H; cbn in H; lia). eauto. Qed.

Lemma stored_rd out : Rd (stored (rev out)) (fun o w rest => exists pad n c m, w = pad ++ data_bits (n ++ c ++ m) /\
  zlen pad < 8 /\ zlen rest mod 8 = 0 /\ zlen n = 2 /\ zlen c = 2 /\ le16 c = 65535 - le16 n /\ zlen m = le16 n /\ o = rev (out ++ m)).
Proof.
  intros [bits bytes] W. unfold wfb in W. cbn [b_bits] in W. unfold sb. cbn [b_bits b_bytes].
  assert (forall s, stored (rev out) (mkB bits s) = match s with
    | l0 :: l1 :: n0 :: n1 :: r => if bval l0 + 256 * bval l1 =? 65535 - (bval n0 + 256 * bval n1)
         then getbytes_n (Z.to_nat (bval l0 + 256 * bval l1)) (rev out) (mkB [] r) else None
    | _ => None end) as ST.
  { intros s. unfold stored, pbind, align, getbyte, pfail. cbn [b_bytes b_bits]. destruct s as [|l0 [|l1 [|n0 [|n1 r]]]]; try reflexivity. cbn [b_bytes b_bits].
    destruct (bval l0 + 256 * bval l1 =? 65535 - (bval n0 + 256 * bval n1)); reflexivity. }
  rewrite ST. clear ST. split.
  - intros o s' E. destruct bytes as [|l0 [|l1 [|n0 [|n1 r]]]]; try discriminate E.
    destruct (Z.eqb_spec (bval l0 + 256 * bval l1) (65535 - (bval n0 + 256 * bval n1))) as [C|C]; [|discriminate E].
    rewrite getbytes_n_spec in E. destruct (Nat.leb_spec (Z.to_nat (bval l0 + 256 * bval l1)) (List.length r)) as [L|L]; [|discriminate E].
    injection E as <- <-. unfold wfb, sb. cbn [b_bits b_bytes List.length app]. split; [lia|].
    set (n := Z.to_nat (bval l0 + 256 * bval l1)) in *.
    exists (bits ++ data_bits ([l0; l1] ++ [n0; n1] ++ firstn n r)). split.
    { rewrite <- app_assoc, <- data_bits_app. f_equal. f_equal. cbn [app]. rewrite firstn_skipn. reflexivity. }
    exists bits, [l0; l1], [n0; n1], (firstn n r). split; [reflexivity|]. split; [unfold zlen; lia|].
    split; [unfold zlen; rewrite data_bits_len, Nat2Z.inj_mul, Z.mul_comm; apply Z.mod_mul; lia|].
    split; [reflexivity|]. split; [reflexivity|]. cbn [le16]. split; [lia|]. split.
    + unfold zlen. rewrite firstn_length. pose proof (bval_range l0). pose proof (bval_range l1). lia.
    + rewrite rev_app_distr. reflexivity.
  - intros o w rest S (pad & n & c & m & -> & Lp & Lr & Ln & Lc & C & Lm & ->).
    rewrite <- app_assoc in S.
    assert (List.length bits = List.length pad) as EL.
    { apply (f_equal (@List.length bool)) in S. rewrite !app_length, !data_bits_len in S.
      apply Z.mod_divide in Lr; [|lia]. destruct Lr as (q & Lr). unfold zlen in *. lia. }
    apply app_inj_len in S; [|exact EL]. destruct S as [-> S]. symmetry in S. apply data_bits_split in S. destruct S as (b' & -> & ->).
    destruct (bytes_len2 n Ln) as (l0 & l1 & ->). destruct (bytes_len2 c Lc) as (n0 & n1 & ->). cbn [app le16] in *.
    replace (bval l0 + 256 * bval l1 =? 65535 - (bval n0 + 256 * bval n1)) with true by lia. rewrite getbytes_n_spec.
    assert (Z.to_nat (bval l0 + 256 * bval l1) = List.length m) as -> by (unfold zlen in Lm; lia).
    rewrite app_length. replace (List.length m <=? List.length m + List.length b')%nat with true by lia.
    exists (mkB [] b'). split; [|split; [unfold wfb; cbn; lia|reflexivity]].
    f_equal. f_equal.
    + rewrite firstn_app, Nat.sub_diag, firstn_all. cbn [firstn]. rewrite app_nil_r, rev_app_distr. reflexivity.
    + f_equal. rewrite skipn_app, Nat.sub_diag, skipn_all. reflexivity.
Qed.

(** ** Blocks *)

Definition block_rel (ty : Z) (out out' : list byte) (w rest : list bool) : Prop :=
  (ty = 0 /\ exists pad n c m, w = pad ++ data_bits (n ++ c ++ m) /\
     zlen pad < 8 /\ zlen rest mod 8 = 0 /\ zlen n = 2 /\ zlen c = 2 /\ le16 c = 65535 - le16 n /\ zlen m = le16 n /\ out' = out ++ m) \/
  (ty = 1 /\ tokens fixed_lengths fixed_distances out w out') \/
  (ty = 2 /\ exists h ll dl w', w = h ++ w' /\ dynamic_header h ll dl /\ tokens ll dl out w' out').

Lemma block_iff x out out' w rest : List.length x = 2%nat ->
  block out (x ++ w ++ rest) out' rest <-> block_rel (lsb_value x) out out' w rest.
Proof.
  intros Lx. split.
  - intros B. remember (x ++ w ++ rest) as W eqn:EW. destruct B as [out pad n c m rest Lp Lr Ln Lc C Lm|out w' out' rest T|out h ll dl w' out' rest H T].
    + rewrite !app_assoc in EW. apply app_inv_tail in EW. rewrite <- !app_assoc in EW. symmetry in EW. apply app_inj_len in EW; [|rewrite Lx; reflexivity].
      destruct EW as [-> ->]. left. split; [reflexivity|]. exists pad, n, c, m. auto 10.
    + rewrite !app_assoc in EW. apply app_inv_tail in EW. symmetry in EW. apply app_inj_len in EW; [|rewrite Lx; reflexivity].
      destruct EW as [-> ->]. right. left. auto.
    + rewrite !app_assoc in EW. apply app_inv_tail in EW. rewrite <- !app_assoc in EW. symmetry in EW. apply app_inj_len in EW; [|rewrite Lx; reflexivity].
      destruct EW as [-> ->]. right. right. split; [reflexivity|]. exists h, ll, dl, w'. auto.
  - destruct x as [|b1 [|b2 [|b3 x]]]; try discriminate Lx. cbn [lsb_value].
    intros [(T & pad & n & c & m & -> & Lp & Lr & Ln & Lc & C & Lm & ->)|[(T & K)|(T & h & ll & dl & w' & -> & H & K)]].
    + destruct b1, b2; try discriminate T. rewrite <- app_assoc. apply bl_stored; assumption.
    + destruct b1, b2; try discriminate T. apply bl_fixed, K.
    + destruct b1, b2; try discriminate T. rewrite <- app_assoc. eapply bl_dynamic; eassumption.
Qed.

Lemma fixed_eq : fixed_lit = mk_huff fixed_lengths /\ fixed_dist = mk_huff fixed_distances /\ lens_ok fixed_lengths /\ lens_ok fixed_distances.
Proof.
  split; [unfold fixed_lit; f_equal|]. split; [reflexivity|]. split.
  - apply Forall_forall. intros x Hx. unfold fixed_lengths in Hx. apply in_map_iff in Hx. destruct Hx as (i & <- & _). cbn zeta.
    destruct (Z.of_nat i <=? 143); [lia|]. destruct (Z.of_nat i <=? 255); [lia|]. destruct (Z.of_nat i <=? 279); lia.
  - apply repeat_ok. lia.
Qed.

Lemma body_rd ty sub out : RdN sub
  (if ty =? 0 then stored (rev out)
   else if ty =? 1 then codes_loop sub fixed_lit fixed_dist (rev out)
   else if ty =? 2 then let* ld := dynamic_codes in codes_loop sub (fst ld) (snd ld) (rev out)
   else pfail)
  (fun o w rest => exists out', o = rev out' /\ block_rel ty out out' w rest).
Proof.
  destruct fixed_eq as (-> & -> & F1 & F2). unfold block_rel. destruct (Z.eqb_spec ty 0) as [->|N0].
  { eapply RdN_iff; [|apply Rd_RdN, stored_rd]. intros o w rest. cbn beta. split.
    - intros (pad & n & c & m & -> & Lp & Lr & Ln & Lc & C & Lm & ->). exists (out ++ m). split; [reflexivity|]. left. split; [reflexivity|].
      exists pad, n, c, m. auto 10.
    - intros (out' & -> & [(_ & pad & n & c & m & -> & Lp & Lr & Ln & Lc & C & Lm & ->)|[[T _]|[T _]]]); [|discriminate T|discriminate T].
      exists pad, n, c, m. auto 10. }
  destruct (Z.eqb_spec ty 1) as [->|N1].
  { eapply RdN_iff; [|apply (codes_rd _ _ F1 F2)]. intros o w rest. cbn beta. split.
    - intros (out' & -> & T). exists out'. auto.
    - intros (out' & -> & [[T _]|[[_ K]|[T _]]]); [discriminate T| |discriminate T]. exists out'. auto. }
  destruct (Z.eqb_spec ty 2) as [->|N2].
  2:{ eapply RdN_iff; [|apply Rd_RdN, Rd_fail]. intros o w rest. split; [intros []|]. intros (out' & _ & [[T _]|[[T _]|[T _]]]); congruence. }
  apply (RdN_ext sub (pbind dynamic_lens (fun p => codes_loop sub (mk_huff (fst p)) (mk_huff (snd p)) (rev out)))).
  { intros s. unfold pbind at 2. rewrite dynamic_codes_lens. unfold pbind. destruct (dynamic_lens s) as [[p s1]|]; reflexivity. }
  eapply RdN_iff; [|apply (RdN_bind sub sub 0 _ _ (fun p w _ => dynamic_header w (fst p) (snd p))
     (fun p o w (_ : list bool) => exists out', o = rev out' /\ tokens (fst p) (snd p) out w out')
     (fun p => lens_ok (fst p) /\ lens_ok (snd p))); [lia|apply Rd_RdN, Rd_dynamic| |]].
  - intros o w rest. cbn beta. split.
    + intros (p & h & w' & -> & H & out' & -> & K). exists out'. split; [reflexivity|]. right. right. split; [reflexivity|]. exists h, (fst p), (snd p), w'. auto.
    + intros (out' & -> & [[T _]|[[T _]|(_ & h & ll & dl & w' & -> & H & K)]]); [discriminate T|discriminate T|].
      exists (ll, dl), h, w'. split; [reflexivity|]. split; [exact H|]. exists out'. auto.
  - intros p w rest H. split; [eapply header_ok, H|lia].
  - intros p [H1 H2]. apply codes_rd; assumption.
Qed.

Lemma deflated_suffix out w out' rest : deflated out w out' rest -> exists d, w = d ++ rest.
Proof.
  induction 1 as [out w out' rest B|out w out1 rest1 out' rest B D (d & ->)].
  - destruct B as [out pad' n c m rest Lp' Lr Ln Lc C Lm|out w' out' rest T|out h ll dl w' out' rest H T].
    + exists (true :: [false; false] ++ pad' ++ data_bits (n ++ c ++ m)). cbn [app]. rewrite <- !app_assoc. reflexivity.
    + exists (true :: [true; false] ++ w'). reflexivity.
    + exists (true :: [false; true] ++ h ++ w'). cbn [app]. rewrite <- !app_assoc. reflexivity.
  - remember (d ++ rest) as r eqn:Er. destruct B as [out pad' n c m rest' Lp' Lr Ln Lc C Lm|out w' out1 rest' T|out h ll dl w' out1 rest' H T]; subst rest'.
    + exists (false :: [false; false] ++ pad' ++ data_bits (n ++ c ++ m) ++ d). cbn [app]. rewrite <- !app_assoc. reflexivity.
    + exists (false :: [true; false] ++ w' ++ d). cbn [app]. rewrite <- !app_assoc. reflexivity.
    + exists (false :: [false; true] ++ h ++ w' ++ d). cbn [app]. rewrite <- !app_assoc. reflexivity.
Qed.

Lemma blocks_rd fuel : forall sub N out, (N <= fuel)%nat -> (N <= sub)%nat ->
  RdN N (blocks fuel sub (rev out)) (fun o w rest => exists out', o = rev out' /\ deflated out (w ++ rest) out' rest).
Proof.
  induction fuel as [|k IH]; intros sub N out HN HS.
  - intros s W L. assert (sb s = []) as E by (destruct (sb s); [reflexivity|cbn in L; lia]). split.
    + intros a s' X. discriminate X.
    + intros a w rest S (out' & _ & D). exfalso. rewrite E in S. rewrite <- S in D. inversion D.
  - cbn [blocks].
    eapply RdN_iff; [|apply (RdN_bind N (N - 1) 1 _ _ (fun b w _ => w = [b])
      (fun (fin : bool) o w rest => exists x w2 out', o = rev out' /\ w = x ++ w2 /\ List.length x = 2%nat /\
         (if fin then block_rel (lsb_value x) out out' w2 rest
          else exists w3 w4 out1, w2 = w3 ++ w4 /\ block_rel (lsb_value x) out out1 w3 (w4 ++ rest) /\ deflated out1 (w4 ++ rest) out' rest))
      (fun _ => True)); [lia|apply Rd_RdN, Rd_getbit|intros b w rest ->; split; [exact I|cbn; lia]|]].
    + intros o w rest. cbn beta. split.
      * intros (b & w1 & w2 & -> & -> & x & w3 & out' & -> & -> & Lx & H). exists out'. split; [reflexivity|]. cbn [app]. destruct b.
        -- apply df_last. rewrite <- app_assoc. apply block_iff; assumption.
        -- destruct H as (w4 & w5 & out1 & -> & B & D). rewrite <- !app_assoc. eapply df_more; [|exact D]. apply block_iff; assumption.
      * intros (out' & -> & D). remember (w ++ rest) as W eqn:EW. destruct D as [out W out' rest B|out W out1 rest1 out' rest B D].
        -- destruct w as [|b w].
           { exfalso. cbn [app] in EW. apply (f_equal (@List.length bool)) in EW. inversion B; subst; clear - EW; repeat (rewrite ?app_length in EW; cbn [List.length app] in EW); lia. }
           cbn [app] in EW. injection EW as <- EW. exists true, [true], w. split; [reflexivity|]. split; [reflexivity|].
           assert (exists x w2, w = x ++ w2 /\ List.length x = 2%nat) as (x & w2 & -> & Lx).
           { destruct B; cbn [app] in EW; destruct w as [|b1 [|b2 w]]; try (exists [b1; b2], w; split; reflexivity);
               exfalso; apply (f_equal (@List.length bool)) in EW; repeat (rewrite ?app_length in EW; cbn [List.length app] in EW); lia. }
           exists x, w2, out'. split; [reflexivity|]. split; [reflexivity|]. split; [exact Lx|]. apply block_iff; [exact Lx|]. rewrite app_assoc, <- EW. exact B.
        -- destruct (deflated_suffix _ _ _ _ D) as (d & ->).
           assert (exists x w2, W = x ++ w2 ++ d ++ rest /\ List.length x = 2%nat) as (x & w2 & -> & Lx).
           { clear - B. remember (d ++ rest) as r eqn:Er. destruct B as [out pad n c m rest' Lp Lr Ln Lc C Lm|out w' out1 rest' T|out h ll dl w' out1 rest' H T].
             - exists [false; false], (pad ++ data_bits (n ++ c ++ m)). rewrite <- !app_assoc. auto.
             - exists [true; false], w'. auto.
             - exists [false; true], (h ++ w'). rewrite <- !app_assoc. auto. }
           assert (w = false :: x ++ w2 ++ d) as ->.
           { apply (app_inv_tail rest). rewrite <- EW. cbn [app]. rewrite <- !app_assoc. reflexivity. }
           exists false, [false], (x ++ w2 ++ d). split; [reflexivity|]. split; [reflexivity|].
           exists x, (w2 ++ d), out'. split; [reflexivity|]. split; [reflexivity|]. split; [exact Lx|].
           exists w2, d, out1. split; [reflexivity|]. split; [apply block_iff; assumption|exact D].
    + intros fin _.
      eapply RdN_iff; [|apply (RdN_bind (N - 1) (N - 1) 0 _ _ (fun v w _ => List.length w = 2%nat /\ v = lsb_value w)
        (fun ty o w rest => exists out',  o = rev out' /\
           (if fin then block_rel ty out out' w rest
            else exists w3 w4 out1, w = w3 ++ w4 /\ block_rel ty out out1 w3 (w4 ++ rest) /\ deflated out1 (w4 ++ rest) out' rest))
        (fun _ => True)); [lia|apply Rd_RdN, Rd_getbits|intros v w rest _; split; [exact I|lia]|]].
      * intros o w rest. cbn beta. split.
        -- intros (v & x & w2 & -> & [Lx ->] & out' & -> & H). exists x, w2, out'. auto.
        -- intros (x & w2 & out' & -> & -> & Lx & H). exists (lsb_value x), x, w2. split; [reflexivity|]. split; [auto|]. exists out'. auto.
      * intros ty _.
        eapply RdN_iff; [|apply (RdN_bind (N - 1) (N - 1) 0 _ _
          (fun o w rest => exists out', o = rev out' /\ block_rel ty out out' w rest)
          (fun o1 o w rest => if fin then o = o1 /\ w = [] else exists out1 out', o1 = rev out1 /\ o = rev out' /\ deflated out1 (w ++ rest) out' rest)
          (fun o => exists out', o = rev out')); [lia|eapply RdN_le; [|apply body_rd]; lia|intros o w rest (out' & -> & _); split; [eauto|lia]|]].
        -- intros o w rest. cbn beta. split.
           ++ intros (o1 & w3 & w4 & -> & (out1 & -> & B) & H). destruct fin.
              ** destruct H as [-> ->]. rewrite app_nil_r. exists out1. auto.
              ** destruct H as (out2 & out' & E & -> & D). apply (f_equal (@rev byte)) in E. rewrite !rev_involutive in E. subst out2.
                 exists out'. split; [reflexivity|]. exists w3, w4, out1. auto.
           ++ intros (out' & -> & H). destruct fin.
              ** exists (rev out'), w, []. rewrite app_nil_r. split; [reflexivity|]. split; [exists out'; auto|auto].
              ** destruct H as (w3 & w4 & out1 & -> & B & D). exists (rev out1), w3, w4. split; [reflexivity|]. split; [exists out1; auto|].
                 exists out1, out'. auto.
        -- intros o1 (out1 & ->). destruct fin; [apply Rd_RdN, Rd_ret|].
           eapply RdN_iff; [|apply IH; lia]. intros o w rest. cbn beta. split.
           ++ intros (out' & -> & D). exists out1, out'. auto.
           ++ intros (out2 & out' & E & -> & D). apply (f_equal (@rev byte)) in E. rewrite !rev_involutive in E. subst out2. exists out'. auto.
Qed.

(** ** Streams *)

Lemma adler_fold l : forall a b, fold_left adler_step l (a mod 65521, b mod 65521) = ((a + byte_sum l) mod 65521, (b + sums a l) mod 65521).
Proof.
  induction l as [|x l IH]; intros a b; cbn [fold_left byte_sum fold_right sums].
  - f_equal; f_equal; lia.
  - fold (byte_sum l). unfold adler_step at 2. cbn [fst snd]. rewrite Zplus_mod_idemp_l, <- Zplus_mod, IH. f_equal; f_equal; lia.
Qed.
Lemma adler32_spec l : adler32 l = adler l.
Proof.
  unfold adler32, adler. cbn zeta. change (1, 0) with (1 mod 65521, 0 mod 65521). rewrite adler_fold. cbn [fst snd]. rewrite Z.add_0_l. reflexivity.
Qed.

Lemma sb_tail bits bytes pad l : (List.length bits < 8)%nat -> zlen pad < 8 -> bits ++ data_bits bytes = pad ++ data_bits l -> bits = pad /\ bytes = l.
Proof.
  intros W L S. assert (List.length bits = List.length pad) as EL.
  { apply (f_equal (@List.length bool)) in S. rewrite !app_length, !data_bits_len in S. unfold zlen in L. lia. }
  apply app_inj_len in S; [|exact EL]. destruct S as [-> S]. split; [reflexivity|]. apply data_bits_inj, S.
Qed.

Lemma inflate_exact s d u : inflate s = Some (d, u) <-> zlib_stream s d u.
Proof.
  unfold inflate, zlib_stream. destruct s as [|cmf [|flg body]].
  { split; [discriminate|]. intros (? & ? & ? & ? & ? & ? & ? & ? & E & _). discriminate E. }
  { split; [discriminate|]. intros (? & ? & ? & ? & ? & ? & ? & ? & E & _). discriminate E. }
  set (fuel := S (8 * List.length (cmf :: flg :: body))). assert (8 * List.length body <= fuel)%nat as HF by (unfold fuel; cbn [List.length]; lia). clearbody fuel.
  unfold zstream. unfold pbind at 1 2. unfold getbyte at 1 2. cbn [b_bytes b_bits].
  assert (wfb (mkB [] body)) as W0 by (unfold wfb; cbn; lia).
  assert (List.length (sb (mkB [] body)) <= 8 * List.length body)%nat as L0 by (unfold sb; cbn [b_bits b_bytes app]; rewrite data_bits_len; lia).
  destruct (blocks_rd fuel fuel (8 * List.length body) [] HF HF (mkB [] body) W0 L0) as [B1 B2]. change (rev (@nil byte)) with (@nil byte) in *.
  change (sb (mkB [] body)) with (data_bits body) in *.
  destruct (Z.eqb_spec ((bval cmf * 256 + bval flg) mod 31) 0) as [H1|H1]; cbn [negb].
  2:{ split; [discriminate|]. intros (c & f & b & pad & a3 & a2 & a1 & a0 & E & K & _). injection E as <- <- <-. congruence. }
  destruct (Z.eqb_spec (bval cmf mod 16) 8) as [H2|H2]; cbn [negb].
  2:{ split; [discriminate|]. intros (c & f & b & pad & a3 & a2 & a1 & a0 & E & _ & K & _). injection E as <- <- <-. congruence. }
  destruct (Z.ltb_spec 7 (bval cmf / 16)) as [H3|H3].
  { split; [discriminate|]. intros (c & f & b & pad & a3 & a2 & a1 & a0 & E & _ & _ & K & _). injection E as <- <- <-. lia. }
  destruct (Z.eqb_spec (bval flg / 32 mod 2) 0) as [H4|H4]; cbn [negb].
  2:{ split; [discriminate|]. intros (c & f & b & pad & a3 & a2 & a1 & a0 & E & _ & _ & _ & K & _). injection E as <- <- <-. congruence. }
  unfold pbind at 1. destruct (blocks fuel fuel [] (mkB [] body)) as [[o [bits bytes]]|] eqn:EB.
  - destruct (B1 _ _ eq_refl) as (W1 & w & Sw & out' & -> & D). unfold wfb in W1. cbn [b_bits] in W1. unfold sb in *. cbn [b_bits b_bytes] in *.
    rewrite rev_involutive. unfold pbind, align, getbyte. cbn [b_bytes b_bits].
    rewrite <- Sw in D.
    assert (forall d' pad l, zlen pad < 8 -> deflated [] (data_bits body) d' (pad ++ data_bits l) -> d' = out' /\ pad = bits /\ bytes = l) as U.
    { intros d' pad l Lp D'.
      destruct (deflated_suffix _ _ _ _ D') as (w' & Ew').
      rewrite Ew' in D'. destruct (B2 (rev d') w' (pad ++ data_bits l) Ew' (ex_intro _ d' (conj eq_refl D'))) as ([bits2 bytes2] & E2 & W2 & S2).
      injection E2 as E3 <- <-. apply (f_equal (@rev byte)) in E3. rewrite !rev_involutive in E3. cbn [b_bits b_bytes] in S2.
      destruct (sb_tail bits bytes pad l W1 Lp S2) as [-> ->]. auto. }
    split.
    + destruct bytes as [|a3 [|a2 [|a1 [|a0 r]]]]; try discriminate. cbn [b_bytes]. rewrite adler32_spec.
      destruct (Z.eqb_spec (adler out') (((bval a3 * 256 + bval a2) * 256 + bval a1) * 256 + bval a0)) as [HA|HA]; [|discriminate].
      intros E. injection E as <- <-. exists cmf, flg, body, bits, a3, a2, a1, a0. do 5 (split; [assumption || reflexivity|]).
      split; [unfold zlen; lia|]. split; [exact D|]. change (2 ^ 24) with 16777216. change (2 ^ 16) with 65536. change (2 ^ 8) with 256. lia.
    + intros (c & f & b & pad & a3 & a2 & a1 & a0 & E & _ & _ & _ & _ & Lp & D' & HA). injection E as <- <- <-.
      destruct (U _ _ _ Lp D') as (-> & -> & ->). cbn [b_bytes]. rewrite adler32_spec.
      change (2 ^ 24) with 16777216 in HA. change (2 ^ 16) with 65536 in HA. change (2 ^ 8) with 256 in HA.
      replace (adler out' =? ((bval a3 * 256 + bval a2) * 256 + bval a1) * 256 + bval a0) with true by lia. reflexivity.
  - split; [discriminate|]. intros (c & f & b & pad & a3 & a2 & a1 & a0 & E & _ & _ & _ & _ & Lp & D' & _). injection E as <- <- <-.
    destruct (deflated_suffix _ _ _ _ D') as (w' & Ew').
    rewrite Ew' in D'. destruct (B2 (rev d) w' _ Ew' (ex_intro _ d (conj eq_refl D'))) as (s' & E2 & _). discriminate E2.
Qed.
