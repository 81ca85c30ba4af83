(** * Reading samples *)
From Coq Require Import List ZArith Lia Bool String.
From Coq Require Import Init.Byte.
From Coq Require Import ZifyBool.
From Verif Require Import PyBase Utf8 CTypes S_shared S_1_26 S_2_11 S_2_12 Model Spec SpecDict SpecLog
  BaseProofs LayoutProofs RepProofs DictProofs TableProofs HeaderProofs.
Import ListNotations.
Open Scope list_scope.
Open Scope Z_scope.

Lemma mbind_ok {A B} (m : M A) (k : A -> M B) f a f' : m f = (Ok a, f') -> mbind m k f = k a f'.
Proof. intros H. unfold mbind. rewrite H. reflexivity. Qed.
Lemma mbind_raise {A B} (m : M A) (k : A -> M B) f e f' : m f = (Raise e, f') -> mbind m k f = (Raise e, f').
Proof. intros H. unfold mbind. rewrite H. reflexivity. Qed.
Lemma mbind_lift {A B} (a : A) (k : A -> M B) f : mbind (mlift (Ok a)) k f = k a f.
Proof. reflexivity. Qed.

(** ** Record fields *)

Ltac in_rfields vs :=
  unfold record_fields; destruct (vs_major vs =? 1); [cbn [In]; tauto|apply in_or_app; left; cbn [In]; tauto].

Lemma in_rec_scomplen vs : In ("scomplen"%string, 16, U32) (record_fields vs).
Proof. in_rfields vs. Qed.
Lemma in_rec_pcomplen vs : In ("pcomplen"%string, 20, U32) (record_fields vs).
Proof. in_rfields vs. Qed.
Lemma in_rec_nlist vs : vs_major vs = 1 -> In ("nlist"%string, 28, U32) (record_fields vs).
Proof. intros H. unfold record_fields. rewrite H. cbn [Z.eqb Pos.eqb In]. tauto. Qed.
Lemma in_rec_ndeviat vs : vs_major vs <> 1 -> In ("ndeviat"%string, 28, U32) (record_fields vs).
Proof.
  intros H. unfold record_fields. destruct (Z.eqb_spec (vs_major vs) 1); [contradiction|].
  apply in_or_app; left; cbn [In]; tauto.
Qed.

Lemma in_rec_cg vs n : In vs spec_versions -> vs_cstat vs = Some n ->
  In ("ncgroups"%string, 10, U16) (record_fields vs) /\ In ("ccomplen"%string, 72, U32) (record_fields vs) /\
  In ("icomplen"%string, 84, U32) (record_fields vs).
Proof.
  intros Hs H. destruct (version_shape vs Hs) as [P1 P2]. rewrite H in P2.
  unfold record_fields. destruct (Z.eqb_spec (vs_major vs) 1); [lia|].
  replace (11 <=? vs_minor vs) with true by lia.
  repeat split; apply in_or_app; right; apply in_or_app; right; cbn [In]; tauto.
Qed.

Lemma is_record_1_26_b :
  forallb (fun p : vspec * hclass => Bool.eqb (is_record_1_26 (mkObj (hc_record (snd p)) [])) (vs_major (fst p) =? 1)) table = true.
Proof. vm_compute. reflexivity. Qed.

Lemma is_record_1_26_spec vs c b : In (vs, c) table ->
  is_record_1_26 (mkObj (hc_record c) b) = (vs_major vs =? 1).
Proof.
  intros H. pose proof is_record_1_26_b as T. rewrite forallb_forall in T. specialize (T _ H). cbn [fst snd] in T.
  apply Bool.eqb_prop in T. exact T.
Qed.

(** gen.structlen and gen.nprocs *)
Lemma cstat_gen_b :
  forallb (fun c => match hc_cstat c with
    | None => true
    | Some ct => match field_at ct "gen" with
                 | Some (0, g) => is_struct g && int_field_is g "structlen" 0 (kind_type I32) &&
                                  int_field_is g "nprocs" 16 (kind_type I32) && (20 <=? sizeof g)
                 | _ => false
                 end
    end) versions = true.
Proof. vm_compute. reflexivity. Qed.

Lemma cstat_gen c ct b : In c versions -> hc_cstat c = Some ct ->
  exists g, getobj (mkObj ct b) "gen" = Ok g /\ getint g "structlen" = Ok (i32_at b 0) /\
            getint g "nprocs" = Ok (i32_at b 16).
Proof.
  intros Hc He. pose proof cstat_gen_b as T. rewrite forallb_forall in T. specialize (T c Hc). rewrite He in T.
  destruct (field_at ct "gen") as [[[| |] g]|] eqn:F; try discriminate.
  rewrite !andb_true_iff in T. destruct T as (((T1 & T2) & T3) & T4).
  apply int_field_is_spec in T2. apply int_field_is_spec in T3.
  unfold getobj. rewrite (getattr_field _ _ _ _ _ F).
  assert (fetch g (sub_bytes 0 (sizeof g) b) = PObj (mkObj g (sub_bytes 0 (sizeof g) b))) as ->
    by (destruct g; try discriminate T1; reflexivity).
  cbn [rbind]. eexists. split; [reflexivity|].
  cbn [kind_type] in *. rewrite (getint_field _ _ _ _ _ _ T2), (getint_field _ _ _ _ _ _ T3). unfold int_at.
  rewrite !sub_bytes_sub by lia. split; f_equal; apply int_at_i32; lia.
Qed.

(** ** The task loop *)

Lemma concat_cons {A} (x : list A) l : List.concat (x :: l) = x ++ List.concat l.
Proof. reflexivity. Qed.

Lemma zlen_concat {A} (l : list (list A)) n : Forall (fun x => zlen x = n) l -> zlen (List.concat l) = n * zlen l.
Proof.
  induction 1 as [|x l Hx _ IH]; [change (0 = n * 0); lia|].
  rewrite concat_cons, zlen_app, zlen_cons, IH, Hx. lia.
Qed.

Lemma tstat_loop_ok t n l pre i :
  sizeof t = n -> 0 <= i -> zlen pre = i * n -> Forall (fun x => zlen x = n) l ->
  tstat_loop t n (pre ++ List.concat l) (List.length l) i = Ok (map (mkObj t) l).
Proof.
  intros Hn Hi Hp Hl. revert pre i Hi Hp. induction Hl as [|x l Hx _ IH]; intros pre i Hi Hp; [reflexivity|].
  pose proof (zlen_nonneg x). cbn [List.length tstat_loop map]. rewrite concat_cons.
  rewrite pyslice_pos by nia. rewrite zdrop_exact by lia. rewrite ztake_exact by lia.
  unfold from_buffer_copy. rewrite Hx, Hn. replace (n <? n) with false by lia.
  rewrite ztake_all by lia. cbn [rbind]. rewrite app_assoc, IH; [reflexivity|lia|rewrite zlen_app; lia].
Qed.

Lemma tstat_loop_ok0 t n l : sizeof t = n -> Forall (fun x => zlen x = n) l ->
  tstat_loop t n (List.concat l) (List.length l) 0 = Ok (map (mkObj t) l).
Proof. intros Hn Hl. exact (tstat_loop_ok t n l [] 0 Hn ltac:(lia) eq_refl Hl). Qed.

(** Characterisation for any data. *)
Lemma tstat_loop_spec t len d count i :
  0 <= i -> 0 <= len -> 0 < sizeof t ->
  if (Z.of_nat count =? 0) || ((sizeof t <=? len) && ((i + Z.of_nat count - 1) * len + sizeof t <=? zlen d))
  then tstat_loop t len d count i =
       Ok (map (fun k => mkObj t (sub_bytes ((i + Z.of_nat k) * len) (sizeof t) d)) (seq 0 count))
  else tstat_loop t len d count i = Raise (ValueError BufferTooSmall).
Proof.
  intros Hi Hl Hs. revert i Hi. induction count as [|count IH]; intros i Hi; [reflexivity|].
  replace (Z.of_nat (S count) =? 0) with false by lia. cbn [orb tstat_loop].
  rewrite pyslice_pos by nia. replace (len * (i + 1) - i * len) with len by ring.
  unfold from_buffer_copy. rewrite zlen_ztake, zlen_zdrop.
  specialize (IH (i + 1) ltac:(lia)).
  replace (i + 1 + Z.of_nat count - 1) with (i + Z.of_nat (S count) - 1) in IH by lia.
  destruct (Z.leb_spec (sizeof t) len) as [L|L]; cbn [andb] in *.
  - destruct (Z.leb_spec ((i + Z.of_nat (S count) - 1) * len + sizeof t) (zlen d)) as [K|K].
    + rewrite orb_true_r in IH. replace (Z.max 0 (Z.min len (Z.max 0 (zlen d - Z.max 0 (i * len)))) <? sizeof t) with false
        by (assert (i * len + sizeof t <= zlen d) by nia; lia).
      cbn [rbind]. rewrite IH. cbn [rbind]. f_equal. cbn [seq map]. f_equal.
      * f_equal. unfold sub_bytes. rewrite ztake_ztake. f_equal; [lia|f_equal; lia].
      * rewrite <- seq_shift, map_map. apply map_ext. intros k. do 2 f_equal. lia.
    + rewrite orb_false_r in IH. destruct count as [|count].
      * replace (i + Z.of_nat 1 - 1) with i in K by lia.
        assert (0 <= i * len) by nia.
        destruct (Z.ltb_spec (Z.max 0 (Z.min len (Z.max 0 (zlen d - Z.max 0 (i * len))))) (sizeof t)); [reflexivity|].
        lia.
      * replace (Z.of_nat (S count) =? 0) with false in IH by lia. rewrite IH.
        destruct (_ <? _); reflexivity.
  - replace (Z.max 0 (Z.min len (Z.max 0 (zlen d - Z.max 0 (i * len)))) <? sizeof t) with true by lia. reflexivity.
Qed.

(** ** The cgroup loop *)

Lemma le32_len z : zlen (le32 z) = 4.
Proof. reflexivity. Qed.

Lemma le32_value p : -2147483648 <= p < 2147483648 -> int_value true 4 (le32 p) = p.
Proof.
  intros H. unfold int_value, to_signed, le32. cbn [le_uint].
  rewrite !bval_byte_of_Z by (apply Z.mod_pos_bound; lia).
  assert (p mod 256 + 256 * (p / 256 mod 256 + 256 * (p / 65536 mod 256 + 256 * (p / 16777216 mod 256 + 256 * 0)))
          = p mod 4294967296) as ->.
  { replace (p / 65536) with (p / 256 / 256) by (rewrite Z.div_div by lia; reflexivity).
    replace (p / 16777216) with (p / 256 / 256 / 256) by (rewrite !Z.div_div by lia; reflexivity).
    pose proof (Z.div_mod p 256). pose proof (Z.div_mod (p / 256) 256). pose proof (Z.div_mod (p / 256 / 256) 256).
    pose proof (Z.div_mod (p / 256 / 256 / 256) 256).
    pose proof (Z.mod_pos_bound p 256). pose proof (Z.mod_pos_bound (p / 256) 256).
    pose proof (Z.mod_pos_bound (p / 256 / 256) 256). pose proof (Z.mod_pos_bound (p / 256 / 256 / 256) 256).
    apply Z.mod_unique with (q := p / 256 / 256 / 256 / 256); lia. }
  change (2 ^ (8 * 4 - 1)) with 2147483648. change (2 ^ (8 * 4)) with 4294967296.
  destruct (Z_lt_le_dec p 0).
  - replace (p mod 4294967296) with (p + 4294967296) by (apply Z.mod_unique with (q := -1); lia).
    replace (p + 4294967296 <? 2147483648) with false by lia. lia.
  - rewrite Z.mod_small by lia. replace (p <? 2147483648) with true by lia. reflexivity.
Qed.

Lemma pids_len l : zlen (List.concat (map le32 l)) = 4 * zlen l.
Proof.
  rewrite (zlen_concat _ 4); [rewrite zlen_map; reflexivity|]. apply Forall_forall. intros x Hx.
  apply in_map_iff in Hx as (p & <- & _). reflexivity.
Qed.

Lemma pids_items l : Forall (fun p => -2147483648 <= p < 2147483648) l ->
  array_items (mkObj (TArr sh_pid_t (zlen l)) (List.concat (map le32 l))) = map PInt l.
Proof.
  intros H. unfold array_items. cbn [o_type o_buf sh_pid_t sizeof].
  assert (chunks (Z.to_nat (zlen l)) 4 (List.concat (map le32 l)) = map le32 l) as ->.
  { unfold zlen. rewrite Nat2Z.id. clear H. induction l as [|p l IH]; [reflexivity|].
    cbn [List.length map chunks]. rewrite concat_cons, ztake_exact, zdrop_exact by reflexivity. rewrite IH. reflexivity. }
  rewrite map_map. induction H as [|p l Hp _ IH]; [reflexivity|]. cbn [map]. rewrite IH. f_equal.
  unfold sh_pid_t. cbn [fetch]. rewrite (le32_value p Hp). reflexivity.
Qed.

Definition group_view (ct : ctype) (g : lgroup) : chainer :=
  mkChain (mkObj ct (lg_cstat g)) (mkObj (TArr sh_pid_t (zlen (lg_pids g))) (List.concat (map le32 (lg_pids g)))).

Lemma groups_data_cons g gs : groups_data (g :: gs) = (lg_cstat g ++ lg_name g) ++ groups_data gs.
Proof. reflexivity. Qed.
Lemma groups_pids_cons g gs : groups_pids (g :: gs) = List.concat (map le32 (lg_pids g)) ++ groups_pids gs.
Proof. reflexivity. Qed.

Lemma cstat_loop_ok c ct size gs pre prep :
  In c versions -> hc_cstat c = Some ct -> sizeof ct = size -> 0 <= size -> Forall (wf_group size) gs ->
  cstat_loop ct size (pre ++ groups_data gs) (prep ++ groups_pids gs) (List.length gs) (zlen pre) (zlen prep) =
  Ok (map (group_view ct) gs).
Proof.
  intros Hc He Hs Hsz Hg. revert pre prep. induction Hg as [|g gs (G1 & G2 & G3 & G4) _ IH]; intros pre prep; [reflexivity|].
  cbn [List.length cstat_loop map]. pose proof (zlen_nonneg pre). pose proof (zlen_nonneg prep).
  pose proof (zlen_nonneg (lg_name g)). pose proof (zlen_nonneg (lg_pids g)).
  rewrite groups_data_cons, groups_pids_cons, <- !app_assoc.
  rewrite pyslice_pos, zdrop_exact, ztake_exact by lia.
  unfold from_buffer_copy at 1. rewrite G1, Hs. replace (size <? size) with false by lia.
  rewrite ztake_all by lia. cbn [rbind].
  destruct (cstat_gen c ct (lg_cstat g) Hc He) as (gen & -> & S1 & S2). cbn [rbind]. rewrite S1. cbn [rbind].
  rewrite S2, G2, G3. cbn [rbind]. replace (zlen (lg_pids g) <? 0) with false by lia.
  assert (forall n, sizeof (TArr sh_pid_t n) = 4 * n) as Sp by reflexivity. rewrite !Sp.
  rewrite pyslice_pos by lia. rewrite zdrop_exact by lia. rewrite ztake_exact by (rewrite pids_len; lia).
  unfold from_buffer_copy. rewrite Sp, pids_len. replace (4 * zlen (lg_pids g) <? 4 * zlen (lg_pids g)) with false by lia.
  rewrite ztake_all by (rewrite pids_len; lia). cbn [rbind].
  replace (pre ++ lg_cstat g ++ lg_name g ++ groups_data gs) with ((pre ++ lg_cstat g ++ lg_name g) ++ groups_data gs)
    by (rewrite <- !app_assoc; reflexivity).
  replace (prep ++ List.concat (map le32 (lg_pids g)) ++ groups_pids gs)
    with ((prep ++ List.concat (map le32 (lg_pids g))) ++ groups_pids gs) by (rewrite <- !app_assoc; reflexivity).
  replace (zlen pre + (size + zlen (lg_name g))) with (zlen (pre ++ lg_cstat g ++ lg_name g))
    by (rewrite !zlen_app; lia).
  replace (zlen prep + 4 * zlen (lg_pids g)) with (zlen (prep ++ List.concat (map le32 (lg_pids g))))
    by (rewrite !zlen_app, pids_len; lia).
  rewrite IH. reflexivity.
Qed.

(** ** One sample *)

Definition view (c : hclass) (s : lsample) : sample :=
  mkSample (mkObj (hc_record c) (ls_record s)) (mkObj (hc_sstat c) (ls_sstat s))
           (map (mkObj (hc_tstat c)) (ls_tstats s))
           (match hc_cstat c with Some ct => map (group_view ct) (ls_groups s) | None => [] end).

Definition gate_of (vs : vspec) : bool := match vs_cstat vs with Some _ => true | None => false end.

Section Reading.
Variable dec : list byte -> option (list byte).
Variables (vs : vspec) (c : hclass) (hb : list byte).
Hypothesis Hc : In (vs, c) table.
Hypothesis Hv : is_version vs hb.
Let h := mkHdr c hb.

Lemma rec_int b n off k : In (n, off, k) (record_fields vs) ->
  getint (mkObj (hc_record c) b) n = Ok (num_at k b off).
Proof. apply record_getint. exact Hc. Qed.

Lemma gate_spec : cgroup_gate h = Ok (gate_of vs).
Proof.
  unfold h. rewrite (cgroup_gate_spec vs c Hc). destruct Hv as [-> ->].
  rewrite (proj2 (version_shape vs (proj1 (table_class vs c Hc)))). reflexivity.
Qed.

Lemma rec_size : sizeof (hc_record c) = vs_rec vs.
Proof. apply (table_sizes vs c Hc). Qed.
Lemma sstat_size : sizeof (hc_sstat c) = vs_sstat vs.
Proof. apply (table_sizes vs c Hc). Qed.
Lemma tstat_size : sizeof (hc_tstat c) = vs_tstat vs.
Proof. apply (table_sizes vs c Hc). Qed.
Lemma c_in : In c versions.
Proof. apply (table_class vs c Hc). Qed.
Lemma vs_in : In vs spec_versions.
Proof. apply (table_class vs c Hc). Qed.

Lemma spec_sizes_b :
  forallb (fun vs => (88 <=? vs_rec vs) && (negb (vs_major vs =? 1)) || (vs_major vs =? 1) && (80 =? vs_rec vs)) spec_versions &&
  forallb (fun vs => (0 <=? vs_sstat vs) && (0 <=? vs_tstat vs) && match vs_cstat vs with Some n => 20 <=? n | None => true end) spec_versions = true.
Proof. vm_compute. reflexivity. Qed.

Lemma spec_sizes : 80 <= vs_rec vs /\ (gate_of vs = true -> 88 <= vs_rec vs) /\ 0 <= vs_sstat vs /\ 0 <= vs_tstat vs /\
  match vs_cstat vs with Some n => 20 <= n | None => True end.
Proof.
  pose proof spec_sizes_b as T. rewrite andb_true_iff, !forallb_forall in T. destruct T as [T1 T2].
  specialize (T1 vs vs_in). specialize (T2 vs vs_in). cbv beta in T1, T2.
  pose proof (version_shape vs vs_in) as [P1 P2]. unfold gate_of.
  destruct (vs_cstat vs); repeat split; try lia. Qed.

(** get_record *)
Lemma get_record_plain b :
  get_record h (plain b) = (Ok (mkObj (hc_record c) (ztake (vs_rec vs) b ++ zeros (vs_rec vs - zlen (ztake (vs_rec vs) b)))),
                            plain (zdrop (vs_rec vs) b)).
Proof.
  unfold get_record, h. cbn [h_class]. rewrite rec_size. erewrite mbind_ok by apply freadinto_plain. reflexivity.
Qed.

Lemma get_record_app rb rest : zlen rb = vs_rec vs ->
  get_record h (plain (rb ++ rest)) = (Ok (mkObj (hc_record c) rb), plain rest).
Proof.
  intros H. unfold get_record, h. cbn [h_class]. rewrite rec_size.
  erewrite mbind_ok by (apply freadinto_app; exact H). reflexivity.
Qed.

(** get_sstat, in full *)
Lemma get_sstat_spec rb b :
  get_sstat dec h (mkObj (hc_record c) rb) (plain b) =
  (match dec (ztake (u32_at rb 16) b) with
   | None => Raise ZlibError
   | Some d => if zlen d <? vs_sstat vs then Raise (ValueError BufferTooSmall)
               else Ok (mkObj (hc_sstat c) (ztake (vs_sstat vs) d))
   end, plain (zdrop (u32_at rb 16) b)).
Proof.
  unfold get_sstat. rewrite (rec_int rb _ _ _ (in_rec_scomplen vs)). cbn [num_at]. rewrite mbind_lift.
  erewrite mbind_ok by apply fread_plain_any. unfold zlib_decompress.
  destruct (dec _) as [d|]; [|reflexivity]. rewrite mbind_lift. unfold mlift, h. cbn [h_class].
  unfold from_buffer_copy. rewrite sstat_size. reflexivity.
Qed.

(** get_tstat, in full *)
Lemma get_tstat_spec rb b :
  get_tstat dec h (mkObj (hc_record c) rb) (plain b) =
  (match dec (ztake (u32_at rb 20) b) with
   | None => Raise ZlibError
   | Some d => tstat_loop (hc_tstat c) (u32_at hb 32) d (Z.to_nat (u32_at rb 28)) 0
   end, plain (zdrop (u32_at rb 20) b)).
Proof.
  unfold get_tstat. rewrite (rec_int rb _ _ _ (in_rec_pcomplen vs)). cbn [num_at]. rewrite mbind_lift.
  erewrite mbind_ok by apply fread_plain_any. unfold zlib_decompress.
  destruct (dec _) as [d|]; [|reflexivity]. rewrite mbind_lift.
  rewrite (is_record_1_26_spec vs c rb Hc). unfold h. rewrite !(version_at_least_spec vs c Hc).
  destruct Hv as [-> ->].
  destruct (version_shape vs vs_in) as [P1 P2].
  destruct ((2 <=? vs_major vs) && (3 <=? vs_minor vs)); cbn [negb] in P1; rewrite P1.
  - rewrite (rec_int rb _ _ _ (in_rec_ndeviat vs ltac:(lia))). rewrite !mbind_lift. rewrite h_obj_mk.
    rewrite (header_getint vs c hb _ _ _ Hc (in_hdr_tstatlen vs ltac:(lia))). reflexivity.
  - rewrite (rec_int rb _ _ _ (in_rec_nlist vs ltac:(lia))). rewrite !mbind_lift. rewrite h_obj_mk.
    rewrite (header_getint vs c hb _ _ _ Hc (in_hdr_pstatlen vs ltac:(lia))). reflexivity.
Qed.

(** get_cstat, in full *)
Lemma get_cstat_spec rb b ct : hc_cstat c = Some ct ->
  get_cstat dec h (mkObj (hc_record c) rb) (plain b) =
  match dec (ztake (u32_at rb 72) b) with
  | None => (Raise ZlibError, plain (zdrop (u32_at rb 72) b))
  | Some dc =>
      (match dec (ztake (u32_at rb 84) (zdrop (u32_at rb 72) b)) with
       | None => Raise ZlibError
       | Some dp => cstat_loop ct (i32_at hb 456) dc dp (Z.to_nat (u16_at rb 10)) 0 0
       end, plain (zdrop (u32_at rb 84) (zdrop (u32_at rb 72) b)))
  end.
Proof.
  intros He. assert (exists n, vs_cstat vs = Some n) as [n En].
  { destruct (table_sizes vs c Hc) as (_ & _ & _ & _ & _ & S). destruct (vs_cstat vs); [eauto|congruence]. }
  destruct (in_rec_cg vs n vs_in En) as (R1 & R2 & R3).
  unfold get_cstat. rewrite (rec_int rb _ _ _ R2). cbn [num_at]. rewrite mbind_lift.
  erewrite mbind_ok by apply fread_plain_any. unfold zlib_decompress.
  destruct (dec _) as [d|]; [|reflexivity]. rewrite mbind_lift.
  rewrite (rec_int rb _ _ _ R3). cbn [num_at]. rewrite mbind_lift.
  erewrite mbind_ok by apply fread_plain_any.
  destruct (dec _) as [dp|]; [|reflexivity]. rewrite mbind_lift. unfold h. rewrite h_obj_mk.
  rewrite (header_getint vs c hb _ _ _ Hc (in_hdr_cstatlen vs n En)), (rec_int rb _ _ _ R1), !mbind_lift.
  cbn [h_class]. rewrite He. reflexivity.
Qed.

Hypothesis Hsz : sizes_match vs hb.

Lemma stream_dec cc x : stream dec cc x -> dec cc = Some x.
Proof. intros (_ & H & _). exact H. Qed.

(** A complete sample is read exactly. *)
Lemma read_sample_ok s rest : wf_sample dec vs s ->
  read_sample dec h (gate_of vs) (plain (sample_bytes s ++ rest)) = (Ok (Some (view c s)), plain rest).
Proof.
  intros (W1 & W2 & W3 & W4 & W5 & W6 & W7 & W8 & W9). destruct Hsz as (_ & _ & _ & Z4 & Z5).
  unfold read_sample, sample_bytes. rewrite <- !app_assoc.
  erewrite mbind_ok by (apply get_record_app; exact W1).
  rewrite (rec_int _ _ _ _ (in_rec_scomplen vs)). cbn [num_at]. rewrite mbind_lift, W2.
  assert (0 < zlen (ls_cs s)) as Hcs.
  { destruct W7 as (N & _). destruct (ls_cs s); [congruence|rewrite zlen_cons; pose proof (zlen_nonneg l); lia]. }
  replace (zlen (ls_cs s) <=? 0) with false by lia.
  erewrite mbind_ok; cycle 1.
  { rewrite get_sstat_spec, W2, ztake_exact, zdrop_exact by reflexivity. rewrite (stream_dec _ _ W7), W5.
    replace (vs_sstat vs <? vs_sstat vs) with false by lia. rewrite ztake_all by lia. reflexivity. }
  erewrite mbind_ok; cycle 1.
  { rewrite get_tstat_spec, W3, ztake_exact, zdrop_exact by reflexivity. rewrite (stream_dec _ _ W8), Z4, W4.
    unfold zlen at 1. rewrite Nat2Z.id.
    rewrite (tstat_loop_ok0 (hc_tstat c) (vs_tstat vs) (ls_tstats s) tstat_size W6). reflexivity. }
  unfold gate_of, view. destruct (table_sizes vs c Hc) as (_ & _ & _ & _ & _ & S5).
  destruct (vs_cstat vs) as [size|] eqn:Ec.
  - destruct S5 as (ct & E & S). destruct W9 as (G1 & G2 & G3 & G4 & G5 & G6).
    erewrite mbind_ok; cycle 1.
    { rewrite (get_cstat_spec _ _ ct E), G2, G3. rewrite ztake_exact, zdrop_exact by reflexivity.
      rewrite (stream_dec _ _ G5), ztake_exact, zdrop_exact by reflexivity.
      rewrite (stream_dec _ _ G6), Z5, G1. unfold zlen at 1. rewrite Nat2Z.id.
      assert (0 <= size) as Hsize by (pose proof spec_sizes as SS; rewrite Ec in SS; lia).
      pose proof (cstat_loop_ok c ct size (ls_groups s) [] [] c_in E S Hsize G4) as L.
      cbn [app] in L. rewrite !zlen_nil in L. rewrite L. reflexivity. }
    rewrite E. reflexivity.
  - destruct W9 as (-> & -> & ->). rewrite S5. reflexivity.
Qed.

(** The view holds exactly what was written. *)
Lemma view_holds s : wf_sample dec vs s -> holds_sample c s (view c s).
Proof.
  intros (_ & _ & _ & _ & _ & _ & _ & _ & W9). unfold holds_sample, view. cbn [s_record s_sstat s_tstats s_cgroups].
  repeat (split; [reflexivity|]). destruct (table_sizes vs c Hc) as (_ & _ & _ & _ & _ & S5).
  destruct (vs_cstat vs) as [size|]; [|rewrite S5; reflexivity].
  destruct S5 as (ct & E & _). rewrite E. destruct W9 as (_ & _ & _ & G & _).
  induction G as [|g gs (_ & _ & _ & P) _ IH]; constructor; [|exact IH].
  split; [reflexivity|]. apply pids_items. exact P.
Qed.

(** A sample cut anywhere. *)
Lemma prefix_cases {A} (a b p q : list A) : a ++ b = p ++ q ->
  (zlen p < zlen a /\ exists a2, a = p ++ a2 /\ a2 <> []) \/ (exists p2, p = a ++ p2 /\ b = p2 ++ q).
Proof.
  revert p. induction a as [|x a IH]; intros p E.
  - right. exists p. auto.
  - destruct p as [|y p].
    + left. rewrite zlen_nil, zlen_cons. split; [pose proof (zlen_nonneg a); lia|]. exists (x :: a). split; [reflexivity|discriminate].
    + cbn [app] in E. injection E as <- E. destruct (IH p E) as [(L & a2 & -> & N)|(p2 & -> & ->)].
      * left. rewrite !zlen_cons. split; [lia|]. exists a2. auto.
      * right. exists p2. auto.
Qed.

Lemma stream_cut cc x p a2 : stream dec cc x -> cc = p ++ a2 -> a2 <> [] -> dec p = None.
Proof. intros (_ & _ & H) E N. exact (H p a2 E N). Qed.

Lemma ztake_short {A} (l : list A) n : zlen l <= n -> ztake n l = l.
Proof. apply ztake_all. Qed.

Lemma zlen_strict {A} (a p a2 : list A) : a = p ++ a2 -> zlen p <= zlen a.
Proof. intros ->. rewrite zlen_app. pose proof (zlen_nonneg a2). lia. Qed.

Lemma read_sample_cut s p q : wf_sample dec vs s -> sample_bytes s = p ++ q -> q <> [] ->
  read_sample dec h (gate_of vs) (plain p) =
  (if u32_at p 16 =? 0 then Ok None else Raise ZlibError, plain []).
Proof.
  intros (W1 & W2 & W3 & W4 & W5 & W6 & W7 & W8 & W9) E Hq. destruct Hsz as (_ & _ & _ & Z4 & Z5).
  assert (dec [] = None) as Dnil.
  { destruct W7 as (N & _ & P). exact (P [] (ls_cs s) eq_refl N). }
  assert (0 < zlen (ls_cs s)) as Hcs.
  { destruct W7 as (N & _). destruct (ls_cs s); [congruence|rewrite zlen_cons; pose proof (zlen_nonneg l); lia]. }
  pose proof spec_sizes as (Hrec & _).
  unfold sample_bytes in E. apply prefix_cases in E as [(L & a2 & E & Ha2)|(p2 & -> & E)].
  - (* inside the record *)
    unfold read_sample. erewrite mbind_ok by apply get_record_plain. rewrite W1 in L.
    rewrite (ztake_all (vs_rec vs)), (zdrop_all (vs_rec vs)) by lia.
    rewrite (rec_int _ _ _ _ (in_rec_scomplen vs)). cbn [num_at]. rewrite mbind_lift, u32_zeros.
    pose proof (u32_range p 16). destruct (Z.eqb_spec (u32_at p 16) 0) as [K|K].
    + rewrite K. reflexivity.
    + replace (u32_at p 16 <=? 0) with false by lia.
      erewrite mbind_raise; [reflexivity|]. rewrite get_sstat_spec, u32_zeros.
      rewrite (ztake_all _ []), (zdrop_all _ []) by (rewrite zlen_nil; lia). rewrite Dnil. reflexivity.
  - unfold read_sample. erewrite mbind_ok by (apply get_record_app; exact W1).
    rewrite (rec_int _ _ _ _ (in_rec_scomplen vs)). cbn [num_at]. rewrite mbind_lift.
    rewrite (u32_app_l (ls_record s)) by lia. rewrite W2.
    replace (zlen (ls_cs s) <=? 0) with false by lia. replace (zlen (ls_cs s) =? 0) with false by lia.
    apply prefix_cases in E as [(L & a2 & E & Ha2)|(p3 & -> & E)].
    { erewrite mbind_raise; [reflexivity|]. rewrite get_sstat_spec, W2.
      rewrite ztake_all, zdrop_all by lia. rewrite (stream_cut _ _ _ _ W7 E Ha2). reflexivity. }
    erewrite mbind_ok; cycle 1.
    { rewrite get_sstat_spec, W2, ztake_exact, zdrop_exact by reflexivity. rewrite (stream_dec _ _ W7), W5.
      replace (vs_sstat vs <? vs_sstat vs) with false by lia. reflexivity. }
    apply prefix_cases in E as [(L & a2 & E & Ha2)|(p4 & -> & E)].
    { erewrite mbind_raise; [reflexivity|]. rewrite get_tstat_spec, W3.
      rewrite ztake_all, zdrop_all by lia. rewrite (stream_cut _ _ _ _ W8 E Ha2). reflexivity. }
    erewrite mbind_ok; cycle 1.
    { rewrite get_tstat_spec, W3, ztake_exact, zdrop_exact by reflexivity. rewrite (stream_dec _ _ W8), Z4, W4.
      unfold zlen at 1. rewrite Nat2Z.id.
      rewrite (tstat_loop_ok0 (hc_tstat c) (vs_tstat vs) (ls_tstats s) tstat_size W6). reflexivity. }
    unfold gate_of. destruct (table_sizes vs c Hc) as (_ & _ & _ & _ & _ & S5).
    destruct (vs_cstat vs) as [size|] eqn:Ec.
    + destruct S5 as (ct & Ect & S). destruct W9 as (G1 & G2 & G3 & G4 & G5 & G6).
      erewrite mbind_raise; [reflexivity|]. rewrite (get_cstat_spec _ _ ct Ect), G2, G3.
      apply prefix_cases in E as [(L & a2 & E & Ha2)|(p5 & -> & E)].
      { rewrite ztake_all, zdrop_all by lia. rewrite (stream_cut _ _ _ _ G5 E Ha2). reflexivity. }
      rewrite ztake_exact, zdrop_exact by reflexivity. rewrite (stream_dec _ _ G5).
      pose proof (zlen_strict _ _ _ E).
      rewrite ztake_all, zdrop_all by lia. rewrite (stream_cut _ _ _ _ G6 E Hq). reflexivity.
    + destruct W9 as (_ & Ecc & Eci). rewrite Ecc, Eci in E. destruct p4; destruct q; try discriminate. congruence.
Qed.

(** At the end of the data, or before zeros. *)
Lemma read_sample_end b : u32_at b 16 = 0 ->
  read_sample dec h (gate_of vs) (plain b) = (Ok None, plain (zdrop (vs_rec vs) b)).
Proof.
  intros H. pose proof spec_sizes as (Hrec & _).
  unfold read_sample. erewrite mbind_ok by apply get_record_plain.
  rewrite (rec_int _ _ _ _ (in_rec_scomplen vs)). cbn [num_at]. rewrite mbind_lift, u32_zeros.
  assert (u32_at (ztake (vs_rec vs) b) 16 = 0) as ->; [|reflexivity].
  rewrite <- H. rewrite <- (ztake_zdrop (vs_rec vs) b) at 2.
  destruct (Z_le_gt_dec (vs_rec vs) (zlen b)).
  - rewrite u32_app_l; [reflexivity|lia|rewrite zlen_ztake; lia].
  - rewrite (zdrop_all (vs_rec vs)) by lia. rewrite app_nil_r. reflexivity.
Qed.

End Reading.
