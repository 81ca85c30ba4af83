(** * The functions of utils.py: running the source has the effects the model says *)
From Coq Require Import List ZArith Lia Bool String.
From Coq Require Import Init.Byte.
From Coq Require Import ZifyBool.
From Verif Require Import PyBase Utf8 CTypes S_shared S_1_26 Model Parsers Json Gzip Reader Messages.
From Verif Require Import Spec BaseProofs LayoutProofs RepProofs DictProofs TableProofs HeaderProofs.
From Verif Require Import PySyntax PyEval Source PyProgram PyGenerator SpecSource SrcBase SrcHeader.
Import ListNotations.
Local Open Scope string_scope.
Local Open Scope list_scope.
Local Open Scope Z_scope.

Lemma loaded_grows w w' : grows w w' -> loaded w -> loaded w'.
Proof.
  intros G L n c H. pose proof (L _ _ H) as Hc. destruct (G _ _ Hc) as (c' & Hc' & [-> | (hc & blk & m & -> & _)]);
    [exact Hc'|]. exfalso. do 6 (destruct n as [|n]; [discriminate H|]). destruct n; discriminate H.
Qed.

Lemma fresh_grows w w' : (forall n c, cell_at w n = Some c -> cell_at w' n = Some c) -> grows w w'.
Proof. intros H n c Hc. exists c. split; [apply H, Hc|left; reflexivity]. Qed.

Lemma skipn_rep {A} k n (x : A) : skipn k (repeat x n) = repeat x (n - k).
Proof. revert k; induction n as [|n IH]; intros [|k]; cbn; try reflexivity. apply IH. Qed.

(** Reading into a fresh block of memory. *)
Lemma readinto_fresh blk n w old : mem w blk = Some old -> old = zeros n -> 0 <= n ->
  match fread n (w_file w) with
  | (Ok b, f') => freadinto n (w_file w) = (Ok (b ++ zdrop (zlen b) old), f') /\
                  zlen (b ++ zdrop (zlen b) old) = n
  | (Raise e, f') => freadinto n (w_file w) = (Raise e, f')
  end.
Proof.
  intros Hm -> Hn. unfold freadinto. destruct (fread n (w_file w)) as [[b|e] f'] eqn:E; [|reflexivity].
  assert (Hb : zlen b <= n).
  { unfold fread in E. destruct (n <=? zlen (f_rem (w_file w))) eqn:L.
    - injection E as <- <-. rewrite zlen_ztake. lia.
    - destruct (f_fault (w_file w)); [discriminate E|]. injection E as <- <-. lia. }
  pose proof (zlen_nonneg b).
  assert (Z : zdrop (zlen b) (zeros n) = zeros (n - zlen b)).
  { unfold zeros, zdrop, zlen in *. rewrite skipn_rep. f_equal. lia. }
  rewrite Z. split; [reflexivity|]. rewrite zlen_app, zlen_zeros by lia. lia.
Qed.

(** ** Records *)

Definition is_record (t : ctype) : Prop := exists c, In c versions /\ t = hc_record c.

Definition record_ints : list string :=
  ["scomplen"; "pcomplen"; "ccomplen"; "icomplen"; "ncgroups"; "nlist"; "ndeviat"; "curtime"; "interval"].

Lemma record_ints_b :
  forallb (fun c => forallb (fun a => int_or_none (hc_record c) a) record_ints) versions = true.
Proof. vm_compute. reflexivity. Qed.

Lemma record_unsigned_b :
  forallb (fun c => forallb (fun a => match field_at (hc_record c) a with
                                      | None => true | Some (_, TInt false _) => true | _ => false end)
     ["scomplen"; "pcomplen"; "ccomplen"; "icomplen"]) versions = true.
Proof. vm_compute. reflexivity. Qed.

Lemma class_attr_int (t : ctype) a : In a record_ints -> class_attr t a = None.
Proof.
  intros Ha. destruct t; try reflexivity. cbn [class_attr].
  cbn [In record_ints] in Ha. repeat destruct Ha as [<- | Ha]; try reflexivity. destruct Ha.
Qed.

Lemma rec_getint F w v r a : is_obj w v r -> is_record (o_type r) -> In a record_ints ->
  get_attr globals F v a w = match getint r a with Ok z => EOk (VInt z) w | Raise e => EErr (XB e) w end.
Proof.
  intros Ho (c & Hc & Ht) Ha. pose proof record_ints_b as T.
  rewrite forallb_forall in T. specialize (T _ Hc). rewrite forallb_forall in T. specialize (T _ Ha).
  destruct (getint r a) as [z|e] eqn:E.
  - now apply attr_int with r.
  - unfold int_or_none in T. eapply attr_obj_missing; [exact Ho| |apply class_attr_int, Ha].
    unfold getint in E. destruct (getattr r a) as [p|e'] eqn:G; cbn [rbind] in E; [|congruence].
    exfalso. unfold getattr in G. rewrite Ht in G.
    destruct (field_at (hc_record c) a) as [[o t]|]; [|discriminate G].
    injection G as <-. destruct t; try discriminate T. discriminate E.
Qed.

Lemma rec_unsigned r a z : is_record (o_type r) -> In a ["scomplen"; "pcomplen"; "ccomplen"; "icomplen"] ->
  getint r a = Ok z -> (z <? 0) = false.
Proof.
  intros (c & Hc & Ht) Ha E. pose proof record_unsigned_b as T.
  rewrite forallb_forall in T. specialize (T _ Hc). rewrite forallb_forall in T. specialize (T _ Ha).
  unfold getint, getattr in E. rewrite Ht in E.
  destruct (field_at (hc_record c) a) as [[o t]|]; [|discriminate E]. cbn in E.
  destruct t as [sg sz| | | |]; try discriminate T. destruct sg; [discriminate T|].
  cbn [fetch int_value] in E. injection E as <-. match goal with |- (le_uint ?l <? 0) = false => pose proof (le_uint_range l) end. lia.
Qed.

Section Src.
Variable dec : list byte -> option (list byte).
Variable disk : list Z -> res (list byte).
Variable salvage : list byte -> list byte.
Variable fault : list byte -> exn.
Variable float_repr : Z -> list Z.
Variable argv : env.
Notation CN := (call_n dec disk salvage fault float_repr argv globals functions).
Notation GA := (get_attr globals).
Notation EV := (eval dec disk salvage fault float_repr globals).
Notation EX := (exec dec disk salvage fault float_repr globals).
Notation RB := (run_body dec disk salvage fault float_repr globals).

Lemma read_fault n f e f' : plain_fault f -> fread n f = (Raise e, f') -> xof e = XB e.
Proof.
  intros P. unfold fread. destruct (n <=? _); [discriminate|]. destruct (f_fault f) eqn:E; intros [= <- <-].
  unfold xof. now rewrite (P _ E).
Qed.
Lemma read_plain n f r f' : plain_fault f -> fread n f = (r, f') -> plain_fault f'.
Proof.
  intros P. unfold fread. destruct (n <=? _); [intros [= <- <-]; exact P|].
  destruct (f_fault f) eqn:E; intros [= <- <-]; [|intros ? [=]]. intros e' [= <-]. apply P, E.
Qed.

(** get_record (utils.py:166-184) *)
Lemma src_get_record n w v h : is_hdr w v h -> plain_fault (w_file w) ->
  runs (fun w' v' r => is_obj w' v' r /\ o_type r = hc_record (h_class h)) w
       (f_call (CN (S n)) U "get_record" [VFile; v] [] w) (get_record h (w_file w)).
Proof.
  intros Hh Hpf. pose proof (hdr_in _ _ _ Hh) as Hv.
  set (t := hc_record (h_class h)).
  assert (Ht : wf_type t = true).
  { destruct (class_types_ok (h_class h) t Hv) as [H _]; [unfold t, class_types; cbn; tauto|exact H]. }
  pose proof (sizeof_nonneg t Ht) as Hn.
  erewrite call_eq; [|reflexivity..]. unfold run_body. cbn [fd_body u_get_record].
  set (blk := next w). set (w1 := push (CMem (zeros (sizeof t))) w).
  assert (Hm : mem w1 blk = Some (zeros (sizeof t))) by (apply mem_cell, cell_push_new).
  erewrite block_next; cycle 1.
  { ev. rewrite (hdr_Record _ w v h Hh). ev. unfold new_view. rewrite alloc_eq. ev. reflexivity. }
  fold t. fold w1. fold blk.
  unfold get_record, mbind. fold t.
  pose proof (readinto_fresh blk (sizeof t) w1 _ Hm eq_refl Hn) as R.
  change (w_file w1) with (w_file w) in R.
  destruct (fread (sizeof t) (w_file w)) as [[b|e] f'] eqn:Er.
  - destruct R as [R Hz]. rewrite R. cbn [mret].
    set (b' := b ++ zdrop (zlen b) (zeros (sizeof t))) in *.
    set (w2 := upd blk (CMem b') (set_file f' w1)).
    exists (VView t blk 0), w2. split; [|split; [|split; [|split]]].
    + erewrite block_next; cycle 1.
      { ev. cbn [call_method]. unfold readinto. cbn [buffer_of]. rewrite Hm.
        change (w_file w1) with (w_file w). rewrite Er. ev. reflexivity. }
      fold b'. fold w2. erewrite block_ret; [|ev; reflexivity]. reflexivity.
    + apply fresh_grows. intros k c Hk. unfold w2. rewrite cell_upd_neq; [apply cell_push, Hk|].
      apply cell_lt in Hk. unfold blk. lia.
    + reflexivity.
    + reflexivity.
    + split; [|reflexivity]. exists blk, 0, b'. cbn [o_type o_buf].
      split; [reflexivity|]. split; [apply mem_cell; eapply cell_upd_eq; apply cell_push_new|].
      split; [lia|]. split; [lia|]. split; [|exact Ht]. unfold sub_bytes. rewrite zdrop_0 by lia. symmetry. apply ztake_all. lia.
  - rewrite R. exists (set_file f' w1). split; [|split; [|split; reflexivity]].
    + erewrite block_exc; cycle 1.
      { ev. cbn [call_method]. unfold readinto. cbn [buffer_of]. rewrite Hm.
        change (w_file w1) with (w_file w). rewrite Er. ev. reflexivity. }
      cbn [finish]. rewrite (read_fault _ _ _ _ Hpf Er). reflexivity.
    + apply fresh_grows. intros k c Hk. apply cell_push, Hk.
Qed.

Lemma read_eq k w F : (k <? 0) = false -> call_method F VFile "read" [VInt k] [] w =
  match fread k (w_file w) with
  | (Ok b, f') => EOk (VBytes b) (set_file f' w)
  | (Raise e, f') => EErr (XB e) (set_file f' w)
  end.
Proof. intros H. cbn [call_method]. now rewrite H. Qed.

(** A copy of the leading bytes of [b]. *)
Lemma new_view_obj t b o w : from_buffer_copy t b = Ok o -> wf_type t = true ->
  new_view t (o_buf o) w = EOk (VView t (next w) 0) (push (CMem (o_buf o)) w) /\
  is_obj (push (CMem (o_buf o)) w) (VView t (next w) 0) o /\ o_type o = t.
Proof.
  intros H Ht. unfold from_buffer_copy in H. destruct (zlen b <? sizeof t) eqn:E; [discriminate H|].
  injection H as <-. cbn [o_buf o_type]. split; [reflexivity|]. split; [|reflexivity].
  pose proof (sizeof_nonneg t Ht) as Hn.
  assert (Hz : zlen (ztake (sizeof t) b) = sizeof t) by (rewrite zlen_ztake; lia).
  exists (next w), 0, (ztake (sizeof t) b). cbn [o_buf o_type].
  split; [reflexivity|]. split; [apply mem_cell, cell_push_new|]. split; [lia|]. split; [lia|].
  split; [|exact Ht]. unfold sub_bytes. rewrite zdrop_0 by lia. symmetry. apply ztake_all. lia.
Qed.

Lemma copy_plain t b e : from_buffer_copy t b = Raise e -> xof e = XB e.
Proof. unfold from_buffer_copy. destruct (_ <? _); [|discriminate]. now intros [= <-]. Qed.

(** get_sstat (utils.py:187-210) *)
Lemma src_get_sstat n w v h vr r : is_hdr w v h -> is_obj w vr r -> is_record (o_type r) ->
  plain_fault (w_file w) ->
  runs (fun w' v' o => is_obj w' v' o /\ o_type o = hc_sstat (h_class h)) w
       (f_call (CN (S n)) U "get_sstat" [VFile; v; vr] [] w) (get_sstat dec h r (w_file w)).
Proof.
  intros Hh Hr Hrt Hpf. pose proof (hdr_in _ _ _ Hh) as Hv.
  set (t := hc_sstat (h_class h)).
  assert (Ht : wf_type t = true).
  { destruct (class_types_ok (h_class h) t Hv) as [H _]; [unfold t, class_types; cbn; tauto|exact H]. }
  erewrite call_eq; [|reflexivity..]. unfold run_body. cbn [fd_body u_get_sstat].
  unfold get_sstat, mbind, mlift. fold t.
  destruct (getint r "scomplen") as [k|e] eqn:Ek; cycle 1.
  { exists w. split; [|split; [apply grows_refl|split; reflexivity]].
    erewrite block_exc; cycle 1.
    { ev. rewrite (rec_getint _ w vr r "scomplen" Hr Hrt ltac:(in_list)), Ek. ev. reflexivity. }
    cbn [finish]. now rewrite (getint_plain _ _ _ Ek). }
  pose proof (rec_unsigned r "scomplen" k Hrt ltac:(in_list) Ek) as Hk.
  destruct (fread k (w_file w)) as [[b|e] f'] eqn:Er; cycle 1.
  { exists (set_file f' w). split; [|split; [apply set_file_grows|split; reflexivity]].
    erewrite block_exc; cycle 1.
    { ev. rewrite (rec_getint _ w vr r "scomplen" Hr Hrt ltac:(in_list)), Ek. ev.
      rewrite read_eq, Er by exact Hk. ev. reflexivity. }
    cbn [finish]. now rewrite (read_fault _ _ _ _ Hpf Er). }
  erewrite block_next; cycle 1.
  { ev. rewrite (rec_getint _ w vr r "scomplen" Hr Hrt ltac:(in_list)), Ek. ev.
    rewrite read_eq, Er by exact Hk. ev. reflexivity. }
  unfold zlib_decompress. destruct (dec b) as [d|] eqn:Ed; cycle 1.
  { exists (set_file f' w). split; [|split; [apply set_file_grows|split; reflexivity]].
    erewrite block_exc; [|ev; rewrite Ed; ev; reflexivity]. reflexivity. }
  erewrite block_next; [|ev; rewrite Ed; ev; reflexivity].
  assert (Hh1 : is_hdr (set_file f' w) v h) by (eapply is_hdr_grows; [apply set_file_grows|exact Hh]).
  destruct (from_buffer_copy t d) as [o|e] eqn:Ec; cycle 1.
  { exists (set_file f' w). split; [|split; [apply set_file_grows|split; reflexivity]].
    erewrite block_exc; cycle 1.
    { ev. rewrite (hdr_SStat _ _ v h Hh1). ev. cbn [call_method]. fold t. rewrite Ec. ev. reflexivity. }
    cbn [finish]. now rewrite (copy_plain _ _ _ Ec). }
  destruct (new_view_obj t d o (set_file f' w) Ec Ht) as (N1 & N2 & N3).
  eexists _, _. split; [|split; [|split; [|split]]].
  - erewrite block_next; cycle 1.
    { ev. rewrite (hdr_SStat _ _ v h Hh1). ev. cbn [call_method]. fold t. rewrite Ec, N1. ev. reflexivity. }
    erewrite block_ret; [|ev; reflexivity]. reflexivity.
  - eapply grows_trans; [apply set_file_grows|apply push_grows].
  - reflexivity.
  - reflexivity.
  - split; [exact N2|exact N3].
Qed.

(** get_header (utils.py:132-163) *)
Lemma hbv_default : assoc default_version (map (fun e => (fst e, VHClass (snd e))) header_by_version) =
  Some (VHClass default_class).
Proof. reflexivity. Qed.

Lemma assoc_map {A B} (f : A -> B) k d : assoc k (map (fun e => (fst e, f (snd e))) d) = option_map f (assoc k d).
Proof. induction d as [|[x a] d IH]; [reflexivity|]. cbn [map assoc fst snd]. destruct (String.eqb k x); [reflexivity|exact IH]. Qed.

Lemma hbv_in v c : assoc v header_by_version = Some c -> In c versions.
Proof.
  intros H. rewrite <- (proj2 header_by_version_b). apply in_map_iff. exists (v, c). split; [reflexivity|].
  revert H. generalize header_by_version as d. induction d as [|[x a] d IH]; [discriminate|]. cbn [assoc].
  destruct (String.eqb_spec v x) as [->|]; [intros [= ->]; left; reflexivity|right; auto].
Qed.

Lemma hdr_intro w id blk h : cell_at w id = Some (CHdr (h_class h) blk []) -> mem w blk = Some (h_buf h) ->
  In (h_class h) versions -> zlen (h_buf h) = 480 -> is_hdr w (VHdr id) h.
Proof. intros. exists id, blk, []. auto 10. Qed.

Lemma magic_nonneg h z : In (h_class h) versions -> getint (h_obj h) "magic" = Ok z -> (z <? 0) = false.
Proof.
  intros Hv E. assert (T : forallb (fun c => match field_at (hc_header c) "magic" with Some (_, TInt false _) => true | _ => false end) versions = true)
    by (vm_compute; reflexivity).
  rewrite forallb_forall in T. specialize (T _ Hv). unfold getint, getattr, h_obj in E. cbn [o_type o_buf] in E.
  destruct (field_at (hc_header (h_class h)) "magic") as [[o t]|]; [|discriminate E]. cbn in E.
  destruct t as [sg sz| | | |]; try discriminate T. destruct sg; [discriminate T|].
  cbn [fetch int_value] in E. injection E as <-.
  match goal with |- (le_uint ?l <? 0) = false => pose proof (le_uint_range l) end. lia.
Qed.

Lemma semantic_vtext h : In (h_class h) versions -> semantic_version h = Ok (vtext h).
Proof. intros Hv. unfold semantic_version. rewrite (aversion_eq h Hv). reflexivity. Qed.

Lemma src_get_header n w args kws check : loaded w -> plain_fault (w_file w) ->
  bind_params globals U (fd_params u_get_header) args kws =
    Some [("raw_file", VFile); ("check_compatibility", VBool check)] ->
  runs (fun w' v h => is_hdr w' v h) w
       (f_call (CN (S (S (S (S n))))) U "get_header" args kws w) (get_header check (w_file w)).
Proof.
  intros Lw Hpf Hb. set (N := S (S (S n))).
  erewrite call_eq; [|reflexivity|reflexivity|exact Hb|reflexivity].
  unfold run_body. cbn [fd_body u_get_header].
  assert (Hv0 : In default_class versions) by (apply (hbv_in default_version); reflexivity).
  destruct (header_wf _ Hv0) as [_ Hs0].
  set (w1 := push (CHdr default_class (next w) []) (push (CMem (zeros 480)) w)).
  set (id := S (next w)). set (blk := next w).
  assert (C1 : cell_at w1 id = Some (CHdr default_class blk [])).
  { unfold w1, id. rewrite <- (next_push (CMem (zeros 480)) w). apply cell_push_new. }
  assert (M1 : mem w1 blk = Some (zeros 480)).
  { apply mem_cell. apply cell_push, cell_push_new. }
  set (e0 := [("raw_file", VFile); ("check_compatibility", VBool check)]).
  erewrite block_next; cycle 1.
  { unfold e0. ev. cbn [sub_val]. rewrite (Lw 2%nat _ eq_refl), hbv_default. ev.
    unfold new_header. rewrite !alloc_eq, Hs0. rewrite next_push. ev. reflexivity. }
  fold w1. fold id.
  unfold get_header, mbind, mlift. rewrite Hs0.
  pose proof (readinto_fresh blk 480 w1 _ M1 eq_refl ltac:(lia)) as R.
  change (w_file w1) with (w_file w) in R.
  destruct (fread 480 (w_file w)) as [[b|e] f'] eqn:Er; cycle 1.
  { rewrite R. exists (set_file f' w1). split; [|split; [|split; reflexivity]].
    + erewrite block_exc; cycle 1.
      { ev. cbn [call_method]. unfold readinto. cbn [buffer_of]. rewrite C1, Hs0, M1.
        change (w_file w1) with (w_file w). rewrite Er. ev. reflexivity. }
      cbn [finish]. rewrite (read_fault _ _ _ _ Hpf Er). reflexivity.
    + apply fresh_grows. intros k c Hk. apply cell_push, cell_push, Hk. }
  destruct R as [R Hz]. rewrite R.
  set (buf := b ++ zdrop (zlen b) (zeros 480)) in *.
  set (w2 := upd blk (CMem buf) (set_file f' w1)).
  erewrite block_next; cycle 1.
  { ev. cbn [call_method]. unfold readinto. cbn [buffer_of]. rewrite C1, Hs0, M1.
    change (w_file w1) with (w_file w). rewrite Er. ev. reflexivity. }
  fold buf. fold w2.
  set (h0 := mkHdr default_class buf).
  assert (C2 : cell_at w2 id = Some (CHdr default_class blk [])).
  { unfold w2. rewrite cell_upd_neq; [exact C1|unfold id, blk; lia]. }
  assert (M2 : mem w2 blk = Some buf).
  { apply mem_cell. eapply cell_upd_eq. apply mem_cell. exact M1. }
  assert (G2 : grows w w2).
  { apply fresh_grows. intros k c Hk. unfold w2. rewrite cell_upd_neq; [apply cell_push, cell_push, Hk|].
    apply cell_lt in Hk. unfold blk. lia. }
  assert (Hh2 : is_hdr w2 (VHdr id) h0) by (apply hdr_intro with blk; assumption).
  assert (F2 : w_file w2 = f') by reflexivity. assert (O2 : w_out w2 = w_out w) by reflexivity.
  clearbody w2.
  unfold get_header_of_bytes. fold h0.
  destruct (hdr_always h0 "magic" Hv0 ltac:(in_list)) as (mg & Em). rewrite Em. cbn [rbind].
  pose proof (magic_nonneg h0 mg Hv0 Em) as Hmg.
  destruct (mg =? MAGIC) eqn:Ema; cbn [negb]; cycle 1.
  { exists w2. split; [|auto].
    erewrite block_exc; cycle 1.
    { ev. rewrite (hdr_getint _ w2 _ h0 "magic" Hh2 ltac:(in_list)), Em. ev.
      cbn [compare_val equal_val option_map]. rewrite Ema. ev.
      erewrite block_next; cycle 1.
      { ev. rewrite (hdr_getint _ w2 _ h0 "magic" Hh2 ltac:(in_list)), Em. ev. rewrite Hmg. ev. reflexivity. }
      erewrite block_exc; [|ev; reflexivity]. reflexivity. }
    reflexivity. }
  erewrite block_next; cycle 1.
  { ev. rewrite (hdr_getint _ w2 _ h0 "magic" Hh2 ltac:(in_list)), Em. ev.
    cbn [compare_val equal_val option_map]. rewrite Ema. ev. reflexivity. }
  destruct (hdr_semantic dec disk salvage fault float_repr argv (S (S n)) w2 (VHdr id) h0 Hh2) as (w3 & X3 & Q3 & Fu3).
  change (S (S (S n))) with N in X3.
  erewrite block_next; cycle 1. { ev. rewrite X3. ev. reflexivity. }
  rewrite (semantic_vtext h0 Hv0). cbn [rbind].
  assert (Q : grows w w3 /\ w_file w3 = f' /\ w_out w3 = w_out w).
  { destruct Q3 as (A & B & C). split; [eapply grows_trans; eassumption|split; congruence]. }
  pose proof (is_hdr_grows _ _ _ _ (proj1 Q3) Hh2) as Hh3.
  pose proof (loaded_grows _ _ (proj1 Q) Lw) as L3.
  set (e1 := [("raw_file", VFile); ("check_compatibility", VBool check); ("header", VHdr id)]).
  set (st := SIf (EAnd (ECmp OpNe _ _) _) _ _).
  set (vt := vtext h0).
  set (c := if negb (String.eqb vt default_version) then
              match assoc vt header_by_version with Some c => c | None => default_class end
            else default_class).
  set (h := mkHdr c buf).
  assert (Hc : In c versions).
  { unfold c. destruct (negb _); [|exact Hv0]. destruct (assoc vt header_by_version) as [c'|] eqn:E; [|exact Hv0].
    eapply hbv_in, E. }
  destruct (header_wf c Hc) as [_ Hsc].
  assert (St : exists id' w4, EX (CN N) U None st (e1 ++ [("header_version", VStr vt)]) w3 =
                 TDone ONext ([("raw_file", VFile); ("check_compatibility", VBool check); ("header", VHdr id');
                               ("header_version", VStr vt)]) w4 /\
                 grows w w4 /\ w_file w4 = f' /\ w_out w4 = w_out w /\ is_hdr w4 (VHdr id') h).
  { unfold h, c, st, e1. cbn [app]. destruct (String.eqb vt default_version) eqn:Ed; cbn [negb].
    - exists id, w3. split; [|split; [exact (proj1 Q)|split; [exact (proj1 (proj2 Q))|split; [exact (proj2 (proj2 Q))|exact Hh3]]]].
      ev. cbn [compare_val equal_val option_map]. rewrite Ed. ev. reflexivity.
    - destruct (assoc vt header_by_version) as [c'|] eqn:Ea.
      + pose proof Hh3 as (id3 & blk3 & a3 & [= <-] & C3 & M3 & _).
        exists (next w3), (push (CHdr c' blk3 []) w3).
        destruct Q as (A & B & C).
        split; [|split; [eapply grows_trans; [exact A|apply push_grows]|split; [exact B|split; [exact C|]]]].
        * ev. cbn [compare_val equal_val option_map]. rewrite Ed. ev. cbn [member].
          rewrite (L3 2%nat _ eq_refl), assoc_map, Ea. cbn [option_map]. ev.
          erewrite block_next; cycle 1.
          { ev. cbn [sub_val]. rewrite (L3 2%nat _ eq_refl), assoc_map, Ea. cbn [option_map]. ev.
            cbn [call_method]. rewrite C3, M3. cbn [h0 h_buf].
            destruct (header_wf c' (hbv_in _ _ Ea)) as [_ ->]. rewrite Hz. cbn [Z.ltb Z.compare Pos.compare Pos.compare_cont].
            unfold new_header. rewrite alloc_eq. ev. reflexivity. }
          reflexivity.
        * apply hdr_intro with blk3; [apply cell_push_new|apply mem_cell, cell_push, mem_cell, M3|eapply hbv_in, Ea|exact Hz].
      + exists id, w3. split; [|split; [exact (proj1 Q)|split; [exact (proj1 (proj2 Q))|split; [exact (proj2 (proj2 Q))|exact Hh3]]]].
        ev. cbn [compare_val equal_val option_map]. rewrite Ed. ev. cbn [member].
        rewrite (L3 2%nat _ eq_refl), assoc_map, Ea. cbn [option_map]. ev. reflexivity. }
  destruct St as (id' & w4 & St & G4 & F4 & O4 & Hh4).
  assert (Mh : (if negb (String.eqb vt default_version) then
                  match assoc vt header_by_version with
                  | Some c0 => if zlen buf <? sizeof (hc_header c0) then Raise (ValueError BufferTooSmall)
                               else Ok (mkHdr c0 (ztake (sizeof (hc_header c0)) buf))
                  | None => Ok h0
                  end
                else Ok h0) = Ok h).
  { unfold h, c. destruct (negb _); [|reflexivity]. destruct (assoc vt header_by_version) as [c'|] eqn:E; [|reflexivity].
    destruct (header_wf c' (hbv_in _ _ E)) as [_ ->]. rewrite Hz. cbn [Z.ltb Z.compare Pos.compare Pos.compare_cont].
    rewrite ztake_all by lia. reflexivity. }
  change (e0 ++ _) with e1.
  fold vt. rewrite Mh. cbn [rbind].
  erewrite block_next; [|exact St].
  destruct check.
  - pose proof (src_check_compatibility dec disk salvage fault float_repr argv n w4 (VHdr id') h Hh4) as K.
    fold N in K. unfold quiet_unit in K. destruct (check_compatibility h) as [u|e]; cbn [rbind].
    + destruct K as (w5 & K & (A & B & C)).
      exists (VHdr id'), w5. split; [|split; [eapply grows_trans; eassumption|split; [congruence|split; [congruence|eapply is_hdr_grows; eassumption]]]].
      erewrite block_next; cycle 1.
      { ev. erewrite block_next; cycle 1. { ev. rewrite (hdr_check _ _ _ _ Hh4). ev. cbn [call_method]. change (f_call (CN N) "atoparser.structs.shared") with (f_call (CN N) SH).  rewrite K. ev. reflexivity. } reflexivity. }
      erewrite block_ret; [|ev; reflexivity]. reflexivity.
    + destruct K as (w5 & K & (A & B & C)).
      exists w5. split; [|split; [eapply grows_trans; eassumption|split; congruence]].
      erewrite block_exc; cycle 1.
      { ev. erewrite block_exc; cycle 1. { ev. rewrite (hdr_check _ _ _ _ Hh4). ev. cbn [call_method]. change (f_call (CN N) "atoparser.structs.shared") with (f_call (CN N) SH).  rewrite K. ev. reflexivity. } reflexivity. }
      reflexivity.
  - exists (VHdr id'), w4. split; [|auto].
    erewrite block_next; [|ev; reflexivity]. erewrite block_ret; [|ev; reflexivity]. reflexivity.
Qed.

End Src.
