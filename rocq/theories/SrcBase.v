(** * Relating the interpreted source to the model: objects in memory

    [is_obj w v o]: in world [w] the Python value [v] is a ctypes instance that the model calls
    [o]; [is_hdr] the same for headers.  [grows w w']: between [w] and [w'] objects were created
    and headers may have filled their version cache, but nothing else that existed in [w]
    changed. *)
From Coq Require Import List ZArith Lia Bool String.
From Coq Require Import Init.Byte.
From Coq Require Import ZifyBool.
From Verif Require Import PyBase Utf8 CTypes S_shared S_1_26 Model Parsers Json Gzip Reader Messages.
From Verif Require Import Spec BaseProofs LayoutProofs RepProofs DictProofs TableProofs HeaderProofs.
From Verif Require Import PySyntax PyEval Source PyProgram PyGenerator SpecSource.
Import ListNotations.
Local Open Scope string_scope.
Local Open Scope list_scope.
Local Open Scope Z_scope.

(** ** Memory lemmas *)

Definition next (w : world) : nat := List.length (w_heap w).
Definition push (c : cell) (w : world) : world := mkW (w_heap w ++ [c]) (w_file w) (w_out w).

Lemma alloc_eq c w : alloc c w = (next w, push c w).
Proof. reflexivity. Qed.

Lemma cell_push_new c w : cell_at (push c w) (next w) = Some c.
Proof. unfold cell_at, push, next. cbn [w_heap]. rewrite nth_error_app2, Nat.sub_diag; [reflexivity|lia]. Qed.

Lemma cell_lt w n c : cell_at w n = Some c -> (n < next w)%nat.
Proof. unfold cell_at, next. intros H. apply nth_error_Some. rewrite H. discriminate. Qed.

Lemma cell_push c w n d : cell_at w n = Some d -> cell_at (push c w) n = Some d.
Proof. intros H. pose proof (cell_lt _ _ _ H). unfold cell_at, push, next in *. cbn [w_heap].
  rewrite nth_error_app1; assumption. Qed.

Lemma cell_set_file f w n : cell_at (set_file f w) n = cell_at w n.
Proof. reflexivity. Qed.
Lemma cell_emit e w n : cell_at (emit e w) n = cell_at w n.
Proof. reflexivity. Qed.
Lemma mem_set_file f w n : mem (set_file f w) n = mem w n.
Proof. reflexivity. Qed.

Lemma upd_nth_eq {A} n (c : A) l : (n < List.length l)%nat -> nth_error (upd_nth n c l) n = Some c.
Proof. revert n; induction l as [|x l IH]; intros [|n] H; cbn in *; try lia; [reflexivity|apply IH; lia]. Qed.
Lemma upd_nth_neq {A} n m (c : A) l : n <> m -> nth_error (upd_nth n c l) m = nth_error l m.
Proof. revert n m; induction l as [|x l IH]; intros [|n] [|m] H; cbn; try reflexivity; try congruence. apply IH; congruence. Qed.
Lemma upd_nth_len {A} n (c : A) l : List.length (upd_nth n c l) = List.length l.
Proof. revert n; induction l as [|x l IH]; intros [|n]; cbn; try reflexivity. now rewrite IH. Qed.

Lemma cell_upd_eq n c w d : cell_at w n = Some d -> cell_at (upd n c w) n = Some c.
Proof. intros H. apply cell_lt in H. unfold cell_at, upd. cbn [w_heap]. apply upd_nth_eq. exact H. Qed.
Lemma cell_upd_neq n m c w : n <> m -> cell_at (upd n c w) m = cell_at w m.
Proof. intros H. unfold cell_at, upd. cbn [w_heap]. now apply upd_nth_neq. Qed.
Lemma next_upd n c w : next (upd n c w) = next w.
Proof. apply upd_nth_len. Qed.
Lemma next_push c w : next (push c w) = S (next w).
Proof. unfold next, push. cbn [w_heap]. rewrite app_length. cbn. lia. Qed.

Lemma mem_cell w n b : mem w n = Some b <-> cell_at w n = Some (CMem b).
Proof. unfold mem. destruct (cell_at w n) as [[]|]; split; intros H; try discriminate H; congruence. Qed.

(** ** Objects *)

Lemma grows_refl w : grows w w.
Proof. intros n c H. exists c. split; [exact H|left; reflexivity]. Qed.

Lemma mem_grows w w' n b : grows w w' -> mem w n = Some b -> mem w' n = Some b.
Proof.
  intros G H. apply mem_cell in H. destruct (G _ _ H) as (c' & Hc & [-> | (hc & blk & m & Hb & _)]).
  - now apply mem_cell.
  - discriminate Hb.
Qed.

Lemma grows_trans a b c : grows a b -> grows b c -> grows a c.
Proof.
  intros G1 G2 n x H. destruct (G1 _ _ H) as (y & Hy & Oy). destruct (G2 _ _ Hy) as (z & Hz & Oz).
  exists z. split; [exact Hz|]. destruct Oy as [-> | (hc & blk & m & -> & Hm & ->)].
  - exact Oz.
  - destruct Oz as [-> | (hc' & blk' & m' & E & Hm' & ->)].
    + right. exists hc, blk, m. split; [reflexivity|]. split; [eapply mem_grows; eassumption|reflexivity].
    + injection E as <- <- E. right. exists hc, blk, m'. auto.
Qed.

Lemma next_grows w w' : grows w w' -> (next w <= next w')%nat.
Proof.
  intros G. destruct (next w) as [|k] eqn:E; [lia|].
  assert (Hk : (k < next w)%nat) by lia. unfold next in Hk. apply nth_error_Some in Hk.
  destruct (nth_error (w_heap w) k) as [c|] eqn:Ec; [|congruence].
  destruct (G k c Ec) as (c' & Hc & _). apply cell_lt in Hc. lia.
Qed.

Lemma is_obj_grows w w' v o : grows w w' -> is_obj w v o -> is_obj w' v o.
Proof.
  intros G (blk & off & m & -> & Hm & H). exists blk, off, m. split; [reflexivity|].
  split; [eapply mem_grows; eassumption|exact H].
Qed.

Lemma is_val_grows w w' v p : grows w w' -> is_val w v p -> is_val w' v p.
Proof. destruct p; cbn; auto. apply is_obj_grows. Qed.

Lemma is_hdr_grows w w' v h : grows w w' -> is_hdr w v h -> is_hdr w' v h.
Proof.
  intros G (id & blk & attrs & -> & Hc & Hm & Hv & Hl & Ha).
  destruct (G _ _ Hc) as (c' & Hc' & [-> | (hc & blk' & m & E & Hm' & ->)]).
  - exists id, blk, attrs. repeat (split; [first [reflexivity | assumption | eapply mem_grows; eassumption]|]). exact Ha.
  - injection E as <- <- ->. pose proof (mem_grows _ _ _ _ G Hm) as Hm2. rewrite Hm2 in Hm'. injection Hm' as <-.
    exists id, blk, (cache_attrs (h_class h) (h_buf h)).
    repeat (split; [first [reflexivity | assumption]|]). right. reflexivity.
Qed.

Lemma same_grows w w' : w_heap w' = w_heap w -> grows w w'.
Proof. intros E n c H. exists c. unfold cell_at in *. rewrite E. split; [exact H|left; reflexivity]. Qed.
Lemma set_file_grows f w : grows w (set_file f w).
Proof. apply same_grows. reflexivity. Qed.
Lemma emit_grows e w : grows w (emit e w).
Proof. apply same_grows. reflexivity. Qed.
Lemma push_grows c w : grows w (push c w).
Proof. intros n d H. exists d. split; [apply cell_push, H|left; reflexivity]. Qed.

(** Changing a cell that did not exist in the old world. *)
Lemma upd_grows w0 w n c d : grows w0 w -> cell_at w n = Some d -> (next w0 <= n)%nat ->
  (forall b, d <> CMem b) -> grows w0 (upd n c w).
Proof.
  intros G Hd Hn Hnm k x H. destruct (G _ _ H) as (y & Hy & Oy). apply cell_lt in H.
  exists y. split; [rewrite cell_upd_neq; [exact Hy|lia]|].
  destruct Oy as [-> | (hc & blk & m & -> & Hm & ->)]; [left; reflexivity|].
  right. exists hc, blk, m. split; [reflexivity|]. split; [|reflexivity].
  apply mem_cell. apply mem_cell in Hm. destruct (Nat.eq_dec n blk) as [->|Hne].
  - rewrite Hd in Hm. injection Hm as ->. exfalso. eapply Hnm. reflexivity.
  - rewrite cell_upd_neq; assumption.
Qed.

(** Objects survive a change of a cell that holds neither memory nor a header. *)
Lemma mem_upd w n c d blk m : cell_at w n = Some d -> (forall b, d <> CMem b) ->
  mem w blk = Some m -> mem (upd n c w) blk = Some m.
Proof.
  intros Hd Hnm Hm. apply mem_cell. apply mem_cell in Hm. destruct (Nat.eq_dec n blk) as [->|Hne].
  - rewrite Hd in Hm. injection Hm as ->. exfalso. eapply Hnm. reflexivity.
  - rewrite cell_upd_neq; assumption.
Qed.
Lemma is_obj_upd w n c d v o : cell_at w n = Some d -> (forall b, d <> CMem b) ->
  is_obj w v o -> is_obj (upd n c w) v o.
Proof.
  intros Hd Hnm (blk & off & m & -> & Hm & H). exists blk, off, m. split; [reflexivity|].
  split; [eapply mem_upd; eassumption|exact H].
Qed.

(** ** Attribute access *)

Lemma fetch_val w t blk off m b :
  mem w blk = Some m -> 0 <= off -> off + sizeof t <= zlen m -> wf_type t = true ->
  b = sub_bytes off (sizeof t) m ->
  is_val w (val_of t blk off (sub_bytes off (sizeof t) m)) (fetch t b).
Proof.
  intros Hm Ho Hs Hw ->. destruct t as [sg sz| | |e n|nm fs l]; cbn [val_of fetch]; try reflexivity.
  - destruct e; cbn [is_val]; try reflexivity;
      (exists blk, off, m; cbn [o_type o_buf]; repeat (split; [first [reflexivity | assumption]|]); assumption).
  - exists blk, off, m. cbn [o_type o_buf]. repeat (split; [first [reflexivity | assumption]|]). assumption.
Qed.

Lemma view_field_val w t blk off m a fo ft :
  mem w blk = Some m -> 0 <= off -> off + sizeof t <= zlen m -> wf_type t = true ->
  field_at t a = Some (fo, ft) ->
  exists v, view_field w t blk off a = Some v /\
            is_val w v (fetch ft (sub_bytes fo (sizeof ft) (sub_bytes off (sizeof t) m))).
Proof.
  intros Hm Ho Hs Hw Hf. unfold view_field, read_val. rewrite Hf, Hm.
  eexists. split; [reflexivity|]. apply field_at_layout in Hf.
  destruct (field_in_struct t a fo ft Hw Hf) as (H1 & H2 & H3 & Hwf & _).
  pose proof (sizeof_nonneg ft Hwf) as Hnn.
  apply fetch_val; try assumption; try lia.
  symmetry. rewrite sub_bytes_sub; [reflexivity|lia..].
Qed.

Section Attr.
Variable globals : string -> string -> option value.
Variable F : fns.

(** Reading an attribute of an instance. *)
Lemma attr_obj w v o a p : is_obj w v o -> getattr o a = Ok p ->
  exists v', get_attr globals F v a w = EOk v' w /\ is_val w v' p.
Proof.
  intros (blk & off & m & -> & Hm & Ho & Hs & Hb & Hw) H. unfold getattr in H.
  destruct (field_at (o_type o) a) as [[fo ft]|] eqn:E; [|discriminate H]. injection H as <-.
  destruct (view_field_val w _ blk off m a fo ft Hm Ho Hs Hw E) as (v & Hv & Hval).
  exists v. cbn [get_attr]. rewrite Hv. split; [reflexivity|]. rewrite Hb. exact Hval.
Qed.

Lemma attr_obj_missing w v o a e : is_obj w v o -> getattr o a = Raise e -> class_attr (o_type o) a = None ->
  get_attr globals F v a w = EErr (XB e) w.
Proof.
  intros (blk & off & m & -> & _) H Hc. unfold getattr in H. cbn [get_attr]. unfold view_field.
  destruct (field_at (o_type o) a) as [[fo ft]|] eqn:E; [discriminate H|]. injection H as <-.
  rewrite Hc. reflexivity.
Qed.

Lemma attr_int w v o a z : is_obj w v o -> getint o a = Ok z -> get_attr globals F v a w = EOk (VInt z) w.
Proof.
  intros Ho H. unfold getint in H. destruct (getattr o a) as [p|e] eqn:E; [|discriminate H].
  cbn in H. destruct p; try discriminate H. injection H as ->.
  destruct (attr_obj w v o a _ Ho E) as (v' & Hv & Hval). cbn in Hval. now subst v'.
Qed.
End Attr.

(** ** Stepping through the source *)

Section Step.
Variable dec : list byte -> option (list byte).
Variable disk : list Z -> res (list byte).
Variable salvage : list byte -> list byte.
Variable fault : list byte -> exn.
Variable float_repr : Z -> list Z.
Variable argv : env.
Notation CN := (call_n dec disk salvage fault float_repr argv globals functions).
Notation RB := (run_body dec disk salvage fault float_repr globals).

Lemma call_eq n m name args kws w fd l :
  functions m name = Some fd -> (String.eqb m "atoparser.reader" && String.eqb name "parse_args")%bool = false ->
  bind_params globals m (fd_params fd) args kws = Some l -> fd_gen fd = false ->
  f_call (CN (S n)) m name args kws w = finish (RB (CN n) m fd l w).
Proof. intros Hf Hn Hb Hg. cbn [call_n f_call]. rewrite Hn, Hf, Hb, Hg. reflexivity. Qed.

Lemma block_next ex s r l w l' w' : ex s l w = TDone ONext l' w' ->
  exec_block ex (s :: r) l w = exec_block ex r l' w'.
Proof. intros H. cbn [exec_block]. rewrite H. reflexivity. Qed.
Lemma block_ret ex s r l w v l' w' : ex s l w = TDone (ORet v) l' w' ->
  exec_block ex (s :: r) l w = TDone (ORet v) l' w'.
Proof. intros H. cbn [exec_block]. rewrite H. reflexivity. Qed.
Lemma block_exc ex s r l w x l' w' : ex s l w = TDone (OExc x) l' w' ->
  exec_block ex (s :: r) l w = TDone (OExc x) l' w'.
Proof. intros H. cbn [exec_block]. rewrite H. reflexivity. Qed.
Lemma block_break ex s r l w l' w' : ex s l w = TDone OBreak l' w' ->
  exec_block ex (s :: r) l w = TDone OBreak l' w'.
Proof. intros H. cbn [exec_block]. rewrite H. reflexivity. Qed.

End Step.

(** Attributes of modules. *)
Lemma fmt_str w s : format_val w (VStr s) = Some (VStr s). Proof. reflexivity. Qed.
Lemma fmt_text w s : format_val w (VText s) = Some (VText s). Proof. reflexivity. Qed.
Lemma fmt_int w z : format_val w (VInt z) = Some (VStr (str_of_int z)). Proof. reflexivity. Qed.
Lemma cat_ss a b : str_cat (VStr a) (VStr b) = Some (VStr (a ++ b)). Proof. reflexivity. Qed.
Lemma cat_st a b : str_cat (VStr a) (VText b) = Some (VText (text a ++ b)). Proof. reflexivity. Qed.
Lemma cat_ts a b : str_cat (VText a) (VStr b) = Some (VText (a ++ text b)). Proof. reflexivity. Qed.
Lemma cps_t a : cps (VText a) = Some a. Proof. reflexivity. Qed.
Lemma cps_s a : cps (VStr a) = Some (text a). Proof. reflexivity. Qed.
Section Mods.
Variable F : fns.
Notation GAM m a v := (forall w, get_attr globals F (VModule m) a w = EOk v w).
Lemma mod_sizeof : GAM "ctypes" "sizeof" (VBuiltin "ctypes.sizeof"). Proof. reflexivity. Qed.
Lemma mod_structure : GAM "ctypes" "Structure" (VClass "ctypes.Structure"). Proof. reflexivity. Qed.
Lemma mod_array : GAM "ctypes" "Array" (VClass "ctypes.Array"). Proof. reflexivity. Qed.
Lemma mod_decompress : GAM "zlib" "decompress" (VBuiltin "zlib.decompress"). Proof. reflexivity. Qed.
Lemma mod_error : GAM "zlib" "error" (VClass "zlib.error"). Proof. reflexivity. Qed.
Lemma mod_gzip : GAM "gzip" "open" (VBuiltin "gzip.open"). Proof. reflexivity. Qed.
Lemma mod_dumps : GAM "json" "dumps" (VBuiltin "json.dumps"). Proof. reflexivity. Qed.
Lemma mod_record : GAM "atoparser.structs.atop_1_26" "Record" (VCType a1_26_Record). Proof. reflexivity. Qed.
Lemma mod_patch : GAM "atoparser.structs.atop_1_26" "PATCHSTAT" (VInt a1_26_PATCHSTAT). Proof. reflexivity. Qed.
Lemma mod_io : GAM "atoparser.structs.atop_1_26" "IOSTAT" (VInt a1_26_IOSTAT). Proof. reflexivity. Qed.
Lemma mod_get_header : GAM "atoparser" "get_header" (VFun U "get_header"). Proof. reflexivity. Qed.
Lemma mod_generate : GAM "atoparser" "generate_statistics" (VFun U "generate_statistics"). Proof. reflexivity. Qed.
Lemma mod_to_dict : GAM "atoparser" "struct_to_dict" (VFun U "struct_to_dict"). Proof. reflexivity. Qed.
Notation GAV v a := (forall w, get_attr globals F v a w = EOk (VBound v a) w).
Lemma meth_append id : GAV (VList id) "append". Proof. reflexivity. Qed.
Lemma meth_get id : GAV (VDict id) "get". Proof. reflexivity. Qed.
Lemma meth_mget d : GAV (VMap d) "get". Proof. reflexivity. Qed.
Lemma meth_decode b : GAV (VBytes b) "decode". Proof. reflexivity. Qed.
Lemma meth_split b : GAV (VStr b) "split". Proof. reflexivity. Qed.
Lemma meth_read : GAV VFile "read". Proof. reflexivity. Qed.
Lemma meth_readinto : GAV VFile "readinto". Proof. reflexivity. Qed.
Lemma meth_copy t : GAV (VCType t) "from_buffer_copy". Proof. reflexivity. Qed.
Lemma meth_bytes : GAV (VClass "int") "from_bytes". Proof. reflexivity. Qed.
Lemma meth_hbuf c : GAV (VHClass c) "from_buffer".
Proof.
  intros w. cbn [get_attr]. unfold hclass_attr, class_attr. cbn [String.eqb Ascii.eqb Bool.eqb].
  now destruct (hc_header c).
Qed.
End Mods.

Ltac mods_one :=
  match goal with
  | |- context [get_attr globals ?F (VModule ?m) ?a ?w] =>
      lazymatch constr:((m, a)) with
      | ("ctypes", "sizeof") => rewrite (mod_sizeof F w)
      | ("ctypes", "Structure") => rewrite (mod_structure F w)
      | ("ctypes", "Array") => rewrite (mod_array F w)
      | ("zlib", "decompress") => rewrite (mod_decompress F w)
      | ("zlib", "error") => rewrite (mod_error F w)
      | ("gzip", "open") => rewrite (mod_gzip F w)
      | ("json", "dumps") => rewrite (mod_dumps F w)
      | ("atoparser.structs.atop_1_26", "Record") => rewrite (mod_record F w)
      | ("atoparser.structs.atop_1_26", "PATCHSTAT") => rewrite (mod_patch F w)
      | ("atoparser.structs.atop_1_26", "IOSTAT") => rewrite (mod_io F w)
      | ("atoparser", "get_header") => rewrite (mod_get_header F w)
      | ("atoparser", "generate_statistics") => rewrite (mod_generate F w)
      | ("atoparser", "struct_to_dict") => rewrite (mod_to_dict F w)
      end
  | |- context [get_attr globals ?F (VList ?id) "append" ?w] => rewrite (meth_append F id w)
  | |- context [get_attr globals ?F (VDict ?id) "get" ?w] => rewrite (meth_get F id w)
  | |- context [get_attr globals ?F (VMap ?id) "get" ?w] => rewrite (meth_mget F id w)
  | |- context [get_attr globals ?F (VBytes ?id) "decode" ?w] => rewrite (meth_decode F id w)
  | |- context [get_attr globals ?F (VStr ?id) "split" ?w] => rewrite (meth_split F id w)
  | |- context [get_attr globals ?F VFile "read" ?w] => rewrite (meth_read F w)
  | |- context [get_attr globals ?F VFile "readinto" ?w] => rewrite (meth_readinto F w)
  | |- context [get_attr globals ?F (VCType ?t) "from_buffer_copy" ?w] => rewrite (meth_copy F t w)
  | |- context [get_attr globals ?F (VClass "int") "from_bytes" ?w] => rewrite (meth_bytes F w)
  | |- context [get_attr globals ?F (VHClass ?c) "from_buffer" ?w] => rewrite (meth_hbuf F c w)
  | |- context [format_val ?w (VStr ?s)] => rewrite (fmt_str w s)
  | |- context [format_val ?w (VText ?s)] => rewrite (fmt_text w s)
  | |- context [format_val ?w (VInt ?s)] => rewrite (fmt_int w s)
  | |- context [str_cat (VStr ?a) (VStr ?b)] => rewrite (cat_ss a b)
  | |- context [str_cat (VStr ?a) (VText ?b)] => rewrite (cat_st a b)
  | |- context [str_cat (VText ?a) (VStr ?b)] => rewrite (cat_ts a b)
  | |- context [cps (VText ?a)] => rewrite (cps_t a)
  | |- context [cps (VStr ?a)] => rewrite (cps_s a)
  end.

Ltac gname_one :=
  match goal with
  | |- context [global_name globals ?m ?x] =>
      let r := eval lazy beta iota zeta delta
        [global_name globals global modules assoc String.eqb Ascii.eqb Bool.eqb program md_funs md_imports
         md_assigns andb RD U SH PA known_module struct_modules library_attr find fst snd builtin_value
         ss_module sc_module u_module p_module i_module r_module existsb orb builtin_names builtin_classes
         append] in (global_name globals m x) in
      change (global_name globals m x) with r
  end.
Ltac ev :=
  repeat (progress (cbn [exec eval ebind ok_or_stuck name_value assoc with_val assign String.eqb Ascii.eqb Bool.eqb
    eval_list eval_kws eval_fstr eval_dict call_value call_builtin truthy negb bind_all
    dict_set existsb orb bin_val slice_bound compare_val equal_val option_map]; try gname_one; try mods_one)).

