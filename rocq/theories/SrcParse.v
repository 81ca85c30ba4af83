(** * The generators of parsers/atop_1_26.py: running the source has the effects the model says *)
From Coq Require Import List ZArith Lia Bool String.
From Coq Require Import Init.Byte.
From Coq Require Import ZifyBool.
From Verif Require Import PyBase Utf8 CTypes S_shared S_1_26 S_2_11 Model Parsers Json Gzip Reader Messages.
From Verif Require Import Spec SpecDict BaseProofs LayoutProofs RepProofs DictProofs TableProofs HeaderProofs.
From Verif Require Import PySyntax PyEval Source PyProgram PyGenerator SpecSource SpecSource2 SrcBase SrcHeader SrcUtils SrcStat SrcDict.
Import ListNotations.
Local Open Scope string_scope.
Local Open Scope list_scope.
Local Open Scope Z_scope.

(** ** Worlds in which the ctypes objects are what they were *)

Lemma keeps_refl w : keeps w w.
Proof.
  intros n c H. pose proof (cell_lt _ _ _ H) as L. unfold next in L.
  destruct c; try exact L; eexists; (split; [exact H|left; reflexivity]).
Qed.
Lemma keeps_next w w' : keeps w w' -> (next w <= next w')%nat.
Proof.
  intros G. destruct (next w) as [|k] eqn:E; [lia|].
  assert (Hk : (k < next w)%nat) by lia. unfold next in Hk. apply nth_error_Some in Hk.
  destruct (nth_error (w_heap w) k) as [c|] eqn:Ec; [|congruence].
  pose proof (G k c Ec) as H.
  destruct c; try exact H; destruct H as (c' & Hc & _); apply cell_lt in Hc; lia.
Qed.
Lemma keeps_mem w w' n b : keeps w w' -> mem w n = Some b -> mem w' n = Some b.
Proof.
  intros G H. apply mem_cell in H. destruct (G _ _ H) as (c' & Hc & [-> | (hc & blk & m & Hb & _)]).
  - now apply mem_cell.
  - discriminate Hb.
Qed.
Lemma keeps_trans a b c : keeps a b -> keeps b c -> keeps a c.
Proof.
  intros G1 G2 n x H. pose proof (cell_lt _ _ _ H) as L. pose proof (keeps_next _ _ G1) as N1. pose proof (keeps_next _ _ G2) as N2.
  unfold next in *. pose proof (G1 _ _ H) as K.
  destruct x; try (clear - L N1 N2; lia); destruct K as (y & Hy & Oy).
  - destruct Oy as [-> | (hc & blk & m & E & _)]; [exact (G2 _ _ Hy)|discriminate E].
  - destruct Oy as [-> | (hc & k & m & E & Hm & ->)]; [exact (G2 _ _ Hy)|].
    pose proof (G2 _ _ Hy) as (z & Hz & Oz). exists z. split; [exact Hz|].
    destruct Oz as [-> | (hc' & k' & m' & E' & Hm' & ->)].
    + right. exists hc, k, m. split; [exact E|]. split; [eapply keeps_mem; eassumption|reflexivity].
    + injection E' as <- <- E'. right. exists hc, k, m'. auto.
Qed.
Lemma grows_keeps w w' : grows w w' -> keeps w w'.
Proof.
  intros G n c H. pose proof (cell_lt _ _ _ H) as L. pose proof (next_grows _ _ G) as N. unfold next in *.
  destruct c; try (clear - L N; lia); exact (G _ _ H).
Qed.
Lemma same_keeps w w' : same w w' -> keeps w w'.
Proof. intros S. apply grows_keeps, same_is_grows, S. Qed.
Lemma keeps_obj w w' v o : keeps w w' -> is_obj w v o -> is_obj w' v o.
Proof.
  intros G (blk & off & m & -> & Hm & H). exists blk, off, m. split; [reflexivity|].
  split; [eapply keeps_mem; eassumption|exact H].
Qed.
Lemma keeps_hdr w w' v h : keeps w w' -> is_hdr w v h -> is_hdr w' v h.
Proof.
  intros G (id & blk & attrs & -> & Hc & Hm & Hv & Hl & Ha).
  destruct (G _ _ Hc) as (c' & Hc' & [-> | (hc & blk' & m & E & Hm' & ->)]).
  - exists id, blk, attrs. repeat (split; [first [reflexivity | assumption | eapply keeps_mem; eassumption]|]). exact Ha.
  - injection E as <- <- ->. pose proof (keeps_mem _ _ _ _ G Hm) as Hm2. rewrite Hm2 in Hm'. injection Hm' as <-.
    exists id, blk, (cache_attrs (h_class h) (h_buf h)).
    repeat (split; [first [reflexivity | assumption]|]). right. reflexivity.
Qed.

(** ** Instances: ctypes views and headers alike *)

Definition inst (w : world) (v : value) (o : cobj) : Prop :=
  exists blk off m, struct_at w v (o_type o) blk off m /\ o_buf o = sub_bytes off (sizeof (o_type o)) m /\
                    wf_type (o_type o) = true.

Lemma obj_inst w v o : is_obj w v o -> inst w v o.
Proof.
  intros (blk & off & m & -> & Hm & Ho & Hs & Hb & Hw). exists blk, off, m.
  split; [|auto]. split; [left; reflexivity|auto].
Qed.
Lemma hdr_inst w v h : is_hdr w v h -> inst w v (h_obj h).
Proof.
  intros (id & blk & attrs & -> & Hc & Hm & Hv & Hl & Ha).
  destruct (class_types_ok (h_class h) (hc_header (h_class h)) Hv) as (W & _ & _); [left; reflexivity|].
  exists blk, 0, (h_buf h). cbn [h_obj o_type o_buf].
  split; [|split; [|exact W]].
  - split; [|split; [exact Hm|split; [lia|]]].
    + right. exists id, (h_class h), attrs. split; [reflexivity|]. split; [exact Hc|]. split; [reflexivity|].
      split; [reflexivity|]. destruct Ha as [-> | ->]; [split; reflexivity|].
      unfold cache_attrs. destruct (getint (h_obj (mkHdr (h_class h) (h_buf h))) "aversion"); split; reflexivity.
    + rewrite (header_class_size (h_class h) Hv). lia.
  - rewrite (header_class_size (h_class h) Hv). unfold sub_bytes. rewrite zdrop_0 by lia. symmetry. apply ztake_all. lia.
Qed.

(** ** Attribute paths *)

Inductive pk := PMissing | PBad | PTy (t : ctype).
(** The type at the end of a path; [strict]: the first step must exist. *)
Fixpoint path_type (strict : bool) (t : ctype) (p : list string) : pk :=
  match p with
  | [] => PBad
  | a :: r =>
      match field_at t a with
      | None => if strict then PBad else match class_attr t a with None => PMissing | Some _ => PBad end
      | Some (_, ft) => match r with [] => PTy ft | _ => if is_struct ft then path_type false ft r else PBad end
      end
  end.

Definition pathx (x : expr) (p : list string) : expr := fold_left EAttr p x.

Lemma inst_attr F w v o a fo ft : inst w v o -> field_at (o_type o) a = Some (fo, ft) ->
  exists v', get_attr globals F v a w = EOk v' w /\
    is_val w v' (fetch ft (sub_bytes fo (sizeof ft) (o_buf o))).
Proof.
  intros (blk & off & m & Hs & Hb & Hw) Hf. eexists. split; [eapply at_field; eassumption|].
  destruct Hs as (_ & Hm & Ho & Hl). pose proof (field_at_layout _ _ _ _ Hf) as Hf'.
  destruct (field_in_struct _ a fo ft Hw Hf') as (H1 & H2 & H3 & Hwf & _).
  pose proof (sizeof_nonneg ft Hwf) as Hnn. rewrite Hb. apply fetch_val; try assumption; try lia.
  rewrite sub_bytes_sub; [reflexivity|lia..].
Qed.

Section Paths.
Variable dec : list byte -> option (list byte).
Variable disk : list Z -> res (list byte).
Variable salvage : list byte -> list byte.
Variable fault : list byte -> exn.
Variable float_repr : Z -> list Z.
Variable F : fns.
Notation EV := (eval dec disk salvage fault float_repr globals F PA).

Lemma pathx_err p : forall x e w y w', EV x e w = EErr y w' -> EV (pathx x p) e w = EErr y w'.
Proof.
  induction p as [|a p IH]; intros x e w y w' H; [exact H|]. cbn [pathx fold_left]. apply IH.
  cbn [eval]. rewrite H. reflexivity.
Qed.

Lemma path_eval p : forall strict x e w v o, EV x e w = EOk v w -> inst w v o ->
  (strict = false -> exists t b f, v = VView t b f) ->
  match path_type strict (o_type o) p with
  | PTy ft => exists b v', getpath o p = Ok (fetch ft b) /\ EV (pathx x p) e w = EOk v' w /\ is_val w v' (fetch ft b)
  | PMissing => exists a, getpath o p = Raise (AttributeError a) /\ EV (pathx x p) e w = EErr (XB (AttributeError a)) w
  | PBad => True
  end.
Proof.
  induction p as [|a p IH]; intros strict x e w v o Hx Hi Hst; [exact I|]. cbn [path_type].
  destruct (field_at (o_type o) a) as [[fo ft]|] eqn:Ef.
  - destruct (inst_attr F w v o a fo ft Hi Ef) as (v' & Hv & Hval).
    assert (Hx' : EV (EAttr x a) e w = EOk v' w) by (cbn [eval]; rewrite Hx; exact Hv).
    assert (Hg : getattr o a = Ok (fetch ft (sub_bytes fo (sizeof ft) (o_buf o)))) by (unfold getattr; rewrite Ef; reflexivity).
    destruct p as [|a' p].
    + exists (sub_bytes fo (sizeof ft) (o_buf o)), v'. cbn [getpath]. auto.
    + destruct (is_struct ft) eqn:Es; [|exact I].
      destruct ft as [| | | |nm fs lims]; try discriminate Es. cbn [fetch] in Hg, Hval. cbn [is_val] in Hval.
      assert (Hv' : exists t b f, v' = VView t b f).
      { destruct Hval as (bl & of & m & -> & _). eauto. }
      specialize (IH false (EAttr x a) e w v' _ Hx' (obj_inst _ _ _ Hval) (fun _ => Hv')). cbn [o_type] in IH.
      change (getpath o (a :: a' :: p)) with (let? x := getobj o a in getpath x (a' :: p)).
      unfold getobj. rewrite Hg. cbn [rbind]. exact IH.
  - destruct strict; [exact I|]. destruct (class_attr (o_type o) a) eqn:Ec; [exact I|].
    exists a. split.
    + destruct p; cbn [getpath]; unfold getobj, getattr; rewrite Ef; reflexivity.
    + cbn [pathx fold_left]. apply pathx_err. cbn [eval]. rewrite Hx. cbn [ebind].
      destruct Hi as (blk & off & m & ([E | (id & c & attrs & E & _)] & _) & _).
      * rewrite E. cbn [get_attr]. unfold view_field. rewrite Ef, Ec. reflexivity.
      * destruct (Hst eq_refl) as (t & b & f & E'). congruence.
Qed.
End Paths.

(** ** Entries of a row

    What the dictionary displays of the parsers consist of. *)
Inductive role := RH | RR | RS | RI.
Inductive ent :=
| NPath (r : role) (p : list string)      (* x.a.b *)
| NDec (p : list string)                  (* item.a.b.decode() *)
| NSum (p q : list string)                (* sstat.a.b + sstat.c.d *)
| NKib (p : list string)                  (* item.a.b * 1024 *)
| NFlag (a : string)                      (* "y" if header.supportflags & atop_1_26.a else "n" *)
| NBig (p : list string)                  (* int.from_bytes(item.a, byteorder="big") *)
| NStr (s : string)
| NIdx.                                   (* index *)

Definition rname (x : string) (r : role) : string :=
  match r with RH => "header" | RR => "record" | RS => "sstat" | RI => x end.

Definition ent_expr (x : string) (e : ent) : expr :=
  match e with
  | NPath r p => pathx (EName (rname x r)) p
  | NDec p => ECall (EAttr (pathx (EName x) p) "decode") [] []
  | NSum p q => EBin OpAdd (pathx (EName "sstat") p) (pathx (EName "sstat") q)
  | NKib p => EBin OpMul (pathx (EName x) p) (EInt 1024)
  | NFlag a => EIf (EBin OpBitAnd (EAttr (EName "header") "supportflags") (EAttr (EName "atop_1_26") a)) (EStr "y") (EStr "n")
  | NBig p => ECall (EAttr (EName "int") "from_bytes") [pathx (EName x) p] [("byteorder", EStr "big")]
  | NStr s => EStr s
  | NIdx => EName "index"
  end.

Definition role_obj (h : hobj) (r s i : cobj) (x : role) : cobj :=
  match x with RH => h_obj h | RR => r | RS => s | RI => i end.

Definition mask_of (a : string) : Z := if String.eqb a "PATCHSTAT" then a1_26_PATCHSTAT else a1_26_IOSTAT.

Definition ent_json (h : hobj) (r s i : cobj) (idx : Z) (e : ent) : res json :=
  match e with
  | NPath x p => jval (role_obj h r s i x) p
  | NDec p => jdecode i p
  | NSum p q => jsum s p q
  | NKib p => jkib i p
  | NFlag a => jflag h (mask_of a)
  | NBig p => let? b := bytespath i p in Ok (JInt (be_uint b))
  | NStr s => Ok (JStr (text s))
  | NIdx => Ok (JInt idx)
  end.

(** What the paths must be for the source and the model to agree. *)
Inductive kind := KAny | KInt | KBytes.
Definition kind_ok (k : kind) (t : ctype) : bool :=
  match k, t with
  | KAny, _ => true
  | KInt, TInt _ _ => true
  | KBytes, (TChar | TArr TChar _) => true
  | _, _ => false
  end.
Definition req := (role * list string * kind)%type.
Definition ent_reqs (e : ent) : list req :=
  match e with
  | NPath r p => [(r, p, KAny)]
  | NDec p => [(RI, p, KBytes)]
  | NSum p q => [(RS, p, KInt); (RS, q, KInt)]
  | NKib p => [(RI, p, KInt)]
  | NFlag a => [(RH, ["supportflags"], KInt)]
  | NBig p => [(RI, p, KBytes)]
  | NStr _ | NIdx => []
  end.
Definition is_rh (r : role) : bool := match r with RH => true | _ => false end.
Definition req_ok (types : role -> ctype) (q : req) : bool :=
  let '(r, p, k) := q in
  match path_type (is_rh r) (types r) p with
  | PTy ft => kind_ok k ft
  | PMissing => true
  | PBad => false
  end.

(** A JSON value that is no list and no dictionary. *)
Definition flat (j : json) (v : value) : Prop := forall w lo hi, json_val j w lo hi v.
Definition flat_row (d : env) (r : row) : Prop := Forall2 (fun kv kj => fst kv = fst kj /\ flat (snd kj) (snd kv)) d r.

Lemma flat_set d r k v j : flat_row d r -> flat j v -> flat_row (dict_set d k v) (dict_set r k j).
Proof.
  intros H Hv. induction H as [|[k1 v1] [k2 j2] d r (E & Hf) H IH]; cbn [dict_set].
  - constructor; [split; [reflexivity|exact Hv]|constructor].
  - cbn [fst snd] in *. subst k2. destruct (String.eqb k k1).
    + constructor; [split; [reflexivity|exact Hv]|exact H].
    + constructor; [split; [reflexivity|exact Hf]|exact IH].
Qed.
Lemma flat_json d r w lo hi id : flat_row d r -> cell_at w id = Some (CDict d) -> (lo <= id < hi)%nat ->
  json_val (JDict r) w lo hi (VDict id).
Proof.
  intros H Hc Hi. cbn [json_val]. exists id, d. split; [reflexivity|]. split; [exact Hi|]. split; [exact Hc|].
  apply all2_iff. clear Hc. induction H as [|[k1 v1] [k2 j2] d r (E & Hf) H IH]; constructor; [|exact IH].
  cbn [fst snd] in *. split; [congruence|apply Hf].
Qed.

Lemma xof_attr a : xof (AttributeError a) = XB (AttributeError a). Proof. reflexivity. Qed.
Lemma decode_raises b : forall e, decode_strict b = Raise e -> xof e = XB e.
Proof.
  unfold decode_strict. generalize (List.length b) as n. intros n. revert b.
  induction n as [|n IH]; intros b e; destruct b as [|x b]; cbn [decode_strict_fuel]; try discriminate.
  - intros H. injection H as <-. reflexivity.
  - destruct (u8_step (x :: b)) as [cp k|k].
    + destruct (decode_strict_fuel n (skipn k (x :: b))) as [l|y] eqn:E; cbn [rbind]; [discriminate|].
      intros H. injection H as <-. eapply IH. exact E.
    + intros H. injection H as <-. reflexivity.
Qed.

(** The local variables of a parser. *)
Definition penv (hv rv sv tv : value) (l : env) : Prop :=
  assoc "header" l = Some hv /\ assoc "record" l = Some rv /\ assoc "sstat" l = Some sv /\
  assoc "tstats" l = Some tv /\ assoc "enumerate" l = None /\ assoc "int" l = None /\ assoc "atop_1_26" l = None.

Lemma penv_set hv rv sv tv l y v : penv hv rv sv tv l ->
  existsb (String.eqb y) ["values"; "index"; "cpu"; "disk"; "lvm"; "mdd"; "interface"; "stat"] = true ->
  penv hv rv sv tv (dict_set l y v).
Proof.
  intros H Hy. cbn [existsb] in Hy. unfold penv in *. rewrite !assoc_set.
  repeat (apply orb_prop in Hy as [Hy|Hy]); try discriminate Hy; apply String.eqb_eq in Hy; subst y; exact H.
Qed.

Section Row.
Variable dec : list byte -> option (list byte).
Variable disk : list Z -> res (list byte).
Variable salvage : list byte -> list byte.
Variable fault : list byte -> exn.
Variable float_repr : Z -> list Z.
Variable F : fns.
Notation EV := (eval dec disk salvage fault float_repr globals F PA).
Notation EX := (exec dec disk salvage fault float_repr globals F PA None).

(** Header, record, sstat, and the item of the loop. *)
Record stage (w : world) (l : env) (x : string) (hv rv sv tv iv : value) (h : hobj) (r s i : cobj) : Prop := mkStage {
  g_env : penv hv rv sv tv l;
  g_item : assoc x l = Some iv;
  g_h : is_hdr w hv h;
  g_r : is_obj w rv r;
  g_s : is_obj w sv s;
  g_i : is_obj w iv i }.

Definition role_val (hv rv sv iv : value) (x : role) : value :=
  match x with RH => hv | RR => rv | RS => sv | RI => iv end.

Lemma stage_role w l x hv rv sv tv iv h r s i a : stage w l x hv rv sv tv iv h r s i ->
  EV (EName (rname x a)) l w = EOk (role_val hv rv sv iv a) w /\ inst w (role_val hv rv sv iv a) (role_obj h r s i a) /\
  (is_rh a = false -> exists t b f, role_val hv rv sv iv a = VView t b f).
Proof.
  intros [(E1 & E2 & E3 & E4 & _) Ei Hh Hr Hs Hi]. destruct a; cbn [eval rname role_val role_obj is_rh]; unfold name_value.
  - rewrite E1. split; [reflexivity|]. split; [apply hdr_inst, Hh|discriminate].
  - rewrite E2. split; [reflexivity|]. split; [apply obj_inst, Hr|]. intros _. destruct Hr as (? & ? & ? & -> & _). eauto.
  - rewrite E3. split; [reflexivity|]. split; [apply obj_inst, Hs|]. intros _. destruct Hs as (? & ? & ? & -> & _). eauto.
  - rewrite Ei. split; [reflexivity|]. split; [apply obj_inst, Hi|]. intros _. destruct Hi as (? & ? & ? & -> & _). eauto.
Qed.

Definition types_of (h : hobj) (r s i : cobj) (a : role) : ctype := o_type (role_obj h r s i a).

Lemma stage_path w l x hv rv sv tv iv h r s i a p k : stage w l x hv rv sv tv iv h r s i ->
  req_ok (types_of h r s i) (a, p, k) = true ->
  (exists ft b v, kind_ok k ft = true /\ getpath (role_obj h r s i a) p = Ok (fetch ft b) /\
     EV (pathx (EName (rname x a)) p) l w = EOk v w /\ is_val w v (fetch ft b)) \/
  (exists y, getpath (role_obj h r s i a) p = Raise (AttributeError y) /\
     EV (pathx (EName (rname x a)) p) l w = EErr (XB (AttributeError y)) w).
Proof.
  intros Hg Hq. destruct (stage_role _ _ _ _ _ _ _ _ _ _ _ _ a Hg) as (E & Hi & Hv).
  pose proof (path_eval dec disk salvage fault float_repr F p (is_rh a) _ _ _ _ _ E Hi Hv) as K.
  unfold req_ok, types_of in Hq. destruct (path_type (is_rh a) (o_type (role_obj h r s i a)) p) as [| |ft].
  - right. exact K.
  - discriminate Hq.
  - left. destruct K as (b & v & K1 & K2 & K3). exists ft, b, v. auto.
Qed.

Lemma is_val_int w v ft b : kind_ok KInt ft = true -> is_val w v (fetch ft b) -> exists z, fetch ft b = PInt z /\ v = VInt z.
Proof. destruct ft; try discriminate. cbn [fetch is_val]. eauto. Qed.
Lemma is_val_bytes w v ft b : kind_ok KBytes ft = true -> is_val w v (fetch ft b) -> exists z, fetch ft b = PBytes z /\ v = VBytes z.
Proof. destruct ft as [| | |e|]; try discriminate; cbn [fetch is_val]; [eauto|]. destruct e; try discriminate. cbn [is_val]. eauto. Qed.

Definition espec (w : world) (r : er value) (m : res json) : Prop :=
  match m with
  | Ok j => exists v, r = EOk v w /\ flat j v
  | Raise y => r = EErr (xof y) w
  end.

Lemma ent_eval w l x hv rv sv tv iv h r s i idx e : stage w l x hv rv sv tv iv h r s i ->
  forallb (req_ok (types_of h r s i)) (ent_reqs e) = true ->
  (e = NIdx -> assoc "index" l = Some (VInt idx)) ->
  (forall a, e = NFlag a -> a = "PATCHSTAT" \/ a = "IOSTAT") ->
  espec w (EV (ent_expr x e) l w) (ent_json h r s i idx e).
Proof.
  intros Hg Hq Hix Hfl. pose proof Hg as [(E1 & E2 & E3 & E4 & E5 & E6 & E7) Ei Hh Hr Hs Hi].
  destruct e as [a p|p|p q|p|a|p|t|]; cbn [ent_reqs forallb] in Hq; cbn [ent_expr ent_json].
  - rewrite andb_true_r in Hq. unfold jval.
    destruct (stage_path _ _ _ _ _ _ _ _ _ _ _ _ _ _ _ Hg Hq) as [(ft & b & v & _ & K1 & K2 & K3)|(y & K1 & K2)]; rewrite K1.
    + cbn [rbind]. rewrite K2. destruct (fetch ft b) as [z|z|z|o]; cbn [is_val] in K3.
      * exists v. split; [reflexivity|]. intros ? ? ?. exact K3.
      * exists v. split; [reflexivity|]. intros ? ? ?. exact K3.
      * exists v. split; [reflexivity|]. intros ? ? ?. subst v. exact I.
      * exists v. split; [reflexivity|]. intros ? ? ?. destruct K3 as (? & ? & ? & -> & _). exact I.
    + exact K2.
  - rewrite andb_true_r in Hq. unfold jdecode, bytespath.
    destruct (stage_path _ _ _ _ _ _ _ _ _ _ _ _ _ _ _ Hg Hq) as [(ft & b & v & Kk & K1 & K2 & K3)|(y & K1 & K2)];
      cbn [role_obj rname] in K1, K2; rewrite K1.
    + destruct (is_val_bytes _ _ _ _ Kk K3) as (z & Ez & ->). rewrite Ez. cbn [rbind].
      assert (K : EV (ECall (EAttr (pathx (EName x) p) "decode") [] []) l w =
                  match decode_strict z with Ok c => EOk (VText c) w | Raise e => EErr (XB e) w end).
      { cbn [eval]. rewrite K2. cbn [ebind]. rewrite meth_decode. reflexivity. }
      rewrite K. destruct (decode_strict z) as [c|y] eqn:Ed; cbn [rbind espec].
      * exists (VText c). split; [reflexivity|]. intros ? ? ?. reflexivity.
      * rewrite (decode_raises _ _ Ed). reflexivity.
    + cbn [rbind espec]. cbn [eval]. rewrite K2. reflexivity.
  - rewrite andb_true_r in Hq. apply andb_prop in Hq as [Hp Hq]. unfold jsum, intpath.
    destruct (stage_path _ _ _ _ _ _ _ _ _ _ _ _ _ _ _ Hg Hp) as [(ft & b & v & Kk & K1 & K2 & K3)|(y & K1 & K2)];
      cbn [role_obj rname] in K1, K2; rewrite K1.
    2: { cbn [rbind espec eval]. rewrite K2. reflexivity. }
    destruct (is_val_int _ _ _ _ Kk K3) as (z & Ez & ->). rewrite Ez. cbn [rbind].
    destruct (stage_path _ _ _ _ _ _ _ _ _ _ _ _ _ _ _ Hg Hq) as [(ft' & b' & v' & Kk' & K1' & K2' & K3')|(y & K1' & K2')];
      cbn [role_obj rname] in K1', K2'; rewrite K1'.
    2: { cbn [rbind espec eval]. rewrite K2. cbn [ebind]. rewrite K2'. reflexivity. }
    destruct (is_val_int _ _ _ _ Kk' K3') as (z' & Ez' & ->). rewrite Ez'. cbn [rbind espec eval].
    rewrite K2. cbn [ebind]. rewrite K2'. cbn [ebind bin_val]. eexists. split; [reflexivity|]. intros ? ? ?. reflexivity.
  - rewrite andb_true_r in Hq. unfold jkib, intpath.
    destruct (stage_path _ _ _ _ _ _ _ _ _ _ _ _ _ _ _ Hg Hq) as [(ft & b & v & Kk & K1 & K2 & K3)|(y & K1 & K2)];
      cbn [role_obj rname] in K1, K2; rewrite K1.
    2: { cbn [rbind espec eval]. rewrite K2. reflexivity. }
    destruct (is_val_int _ _ _ _ Kk K3) as (z & Ez & ->). rewrite Ez. cbn [rbind espec eval].
    rewrite K2. cbn [ebind bin_val]. eexists. split; [reflexivity|]. intros ? ? ?. reflexivity.
  - rewrite andb_true_r in Hq. unfold jflag, getint.
    destruct (stage_path _ _ _ _ _ _ _ _ _ _ _ _ _ _ _ Hg Hq) as [(ft & b & v & Kk & K1 & K2 & K3)|(y & K1 & K2)];
      cbn [role_obj rname getpath pathx fold_left] in K1, K2; rewrite K1.
    2: { cbn [rbind espec]. cbn [eval] in K2 |- *. unfold rname in K2. rewrite K2. reflexivity. }
    destruct (is_val_int _ _ _ _ Kk K3) as (z & Ez & ->). rewrite Ez. cbn [rbind espec].
    assert (Ka : EV (EAttr (EName "atop_1_26") a) l w = EOk (VInt (mask_of a)) w).
    { cbn [eval]. unfold name_value. rewrite E7. gname_one. cbn [ok_or_stuck ebind].
      destruct (Hfl a eq_refl) as [-> | ->]; [rewrite mod_patch|rewrite mod_io]; reflexivity. }
    assert (K : EV (EIf (EBin OpBitAnd (EAttr (EName "header") "supportflags") (EAttr (EName "atop_1_26") a)) (EStr "y") (EStr "n")) l w
                = EOk (VStr (if negb (Z.land z (mask_of a) =? 0) then "y" else "n")) w).
    { revert K2 Ka. generalize (EAttr (EName "header") "supportflags") (EAttr (EName "atop_1_26") a). intros x1 x2 K2 Ka.
      cbn [eval]. rewrite K2. cbn [ebind]. rewrite Ka. cbn [ebind bin_val truthy].
      destruct (Z.land z (mask_of a) =? 0); reflexivity. }
    rewrite K. eexists. split; [reflexivity|]. intros ? ? ?. reflexivity.
  - rewrite andb_true_r in Hq. unfold bytespath.
    destruct (stage_path _ _ _ _ _ _ _ _ _ _ _ _ _ _ _ Hg Hq) as [(ft & b & v & Kk & K1 & K2 & K3)|(y & K1 & K2)];
      cbn [role_obj rname] in K1, K2; rewrite K1.
    + destruct (is_val_bytes _ _ _ _ Kk K3) as (z & Ez & ->). rewrite Ez. cbn [rbind espec].
      assert (K : EV (ECall (EAttr (EName "int") "from_bytes") [pathx (EName x) p] [("byteorder", EStr "big")]) l w = EOk (VInt (be_uint z)) w).
      { cbn [eval]. unfold name_value. rewrite E6. gname_one. cbn [ok_or_stuck ebind]. rewrite meth_bytes.
        cbn [ebind eval_list eval_kws]. rewrite K2. reflexivity. }
      rewrite K. eexists. split; [reflexivity|]. intros ? ? ?. reflexivity.
    + cbn [rbind espec eval]. unfold name_value. rewrite E6. gname_one. cbn [ok_or_stuck ebind]. rewrite meth_bytes.
      cbn [ebind eval_list eval_kws]. rewrite K2. reflexivity.
  - exists (VStr t). split; [reflexivity|]. intros ? ? ?. reflexivity.
  - exists (VInt idx). split; [cbn [eval]; unfold name_value; rewrite (Hix eq_refl); reflexivity|]. intros ? ? ?. reflexivity.
Qed.

(** ** Rows *)

Definition row_expr (x : string) (D : list (string * ent)) : list (expr * expr) :=
  map (fun kv => (EStr (fst kv), ent_expr x (snd kv))) D.
Definition row_json (h : hobj) (r s i : cobj) (idx : Z) (D : list (string * ent)) : list (string * res json) :=
  map (fun kv => (fst kv, ent_json h r s i idx (snd kv))) D.
Definition row_reqs (D : list (string * ent)) : list req := flat_map (fun kv => ent_reqs (snd kv)) D.
Definition flags_ok (D : list (string * ent)) : bool :=
  forallb (fun kv => match snd kv with NFlag a => String.eqb a "PATCHSTAT" || String.eqb a "IOSTAT" | _ => true end) D.
Definition no_idx (D : list (string * ent)) : bool :=
  forallb (fun kv => match snd kv with NIdx => false | _ => true end) D.

Lemma row_eval w l x hv rv sv tv iv h r s i idx D : stage w l x hv rv sv tv iv h r s i ->
  forallb (req_ok (types_of h r s i)) (row_reqs D) = true -> flags_ok D = true ->
  (no_idx D = true \/ assoc "index" l = Some (VInt idx)) -> forall d acc, flat_row d acc ->
  match mkrow (row_json h r s i idx D) acc with
  | Ok m => exists d', eval_dict EV (row_expr x D) d l w = EOk d' w /\ flat_row d' m
  | Raise y => eval_dict EV (row_expr x D) d l w = EErr (xof y) w
  end.
Proof.
  intros Hg. induction D as [|[k e] D IH]; intros Hq Hf Hx d acc Hd.
  - exists d. split; [reflexivity|exact Hd].
  - cbn [row_json map mkrow row_expr fst snd eval_dict ebind].
    unfold row_reqs in Hq. cbn [flat_map snd] in Hq. rewrite forallb_app in Hq. apply andb_prop in Hq as [Hq1 Hq2].
    cbn [flags_ok forallb snd] in Hf. apply andb_prop in Hf as [Hf1 Hf2].
    assert (K : espec w (EV (ent_expr x e) l w) (ent_json h r s i idx e)).
    { eapply ent_eval; [exact Hg|exact Hq1| |].
      - intros ->. destruct Hx as [Hx|Hx]; [discriminate Hx|exact Hx].
      - intros a ->. apply orb_prop in Hf1 as [Hf1|Hf1]; apply String.eqb_eq in Hf1; auto. }
    assert (Hx' : no_idx D = true \/ assoc "index" l = Some (VInt idx)).
    { destruct Hx as [Hx|Hx]; [left|right; exact Hx]. cbn [no_idx forallb snd] in Hx. apply andb_prop in Hx as [_ Hx]. exact Hx. }
    change (EV (EStr k) l w) with (@EOk value (VStr k) w). cbn [ebind].
    destruct (ent_json h r s i idx e) as [j|y]; cbn [espec rbind] in *.
    + destruct K as (v & K & Hv). rewrite K. cbn [ebind]. exact (IH Hq2 Hf2 Hx' _ _ (flat_set _ _ k _ _ Hd Hv)).
    + rewrite K. reflexivity.
Qed.

(** [values = {...}; yield values] *)
Definition row_block (x : string) (D : list (string * ent)) : list stmt :=
  [SAssign (TgName "values") (EDict (row_expr x D)); SYield (EName "values")].

(** A tree that yields [m] as a new dictionary and, when resumed, ends with the local variables [l']. *)
Definition yields (w : world) (t : tree) (m : row) (l' : env) : Prop :=
  exists d k, t = TYield (VDict (next w)) (push (CDict d) w) k /\ flat_row d m /\
    (forall w', k None w' = TDone ONext l' w') /\
    (forall x w', exists l, k (Some x) w' = TDone (OExc x) l w').

Lemma row_block_yields w l x hv rv sv tv iv h r s i idx D : stage w l x hv rv sv tv iv h r s i ->
  forallb (req_ok (types_of h r s i)) (row_reqs D) = true -> flags_ok D = true ->
  (no_idx D = true \/ assoc "index" l = Some (VInt idx)) ->
  match row_of (row_json h r s i idx D) with
  | Ok m => yields w (exec_block EX (row_block x D) l w) m (dict_set l "values" (VDict (next w)))
  | Raise y => exec_block EX (row_block x D) l w = TDone (OExc (xof y)) l w
  end.
Proof.
  intros Hg Hq Hf Hx. pose proof (row_eval w l x hv rv sv tv iv h r s i idx D Hg Hq Hf Hx [] [] (Forall2_nil _)) as K.
  unfold row_of. destruct (mkrow (row_json h r s i idx D) []) as [m|y].
  - destruct K as (d & K & Hd). exists d. eexists. split; [|split; [exact Hd|split]].
    + unfold row_block. erewrite block_next; cycle 1.
      { cbn [exec eval]. rewrite K. cbn [ebind]. rewrite alloc_eq. cbn [with_val assign]. reflexivity. }
      cbn [exec_block exec eval]. unfold name_value. rewrite assoc_set, String.eqb_refl. cbn [ok_or_stuck with_val tseq]. reflexivity.
    + intros w'. reflexivity.
    + intros y w'. eexists. reflexivity.
  - unfold row_block. erewrite block_exc; [reflexivity|]. cbn [exec eval]. rewrite K. reflexivity.
Qed.
End Row.

(** ** Trees that yield rows *)

Fixpoint tgives (rows : list row) (oe : option exn) (w : world) (t : tree) : Prop :=
  match rows with
  | [] => exists l, t = TDone (match oe with None => ONext | Some y => OExc (xof y) end) l w
  | m :: rs =>
      exists d k, t = TYield (VDict (next w)) (push (CDict d) w) k /\ flat_row d m /\
        (forall x w', exists l, k (Some x) w' = TDone (OExc x) l w') /\
        (forall w', keeps (push (CDict d) w) w' -> tgives rs oe w' (k None w'))
  end.

Lemma tgives_seq f : (forall l w, f ONext l w = TDone ONext l w) -> (forall x l w, f (OExc x) l w = TDone (OExc x) l w) ->
  forall rows oe w t, tgives rows oe w t -> tgives rows oe w (tseq t f).
Proof.
  intros F1 F2. induction rows as [|m rs IH]; intros oe w t; cbn [tgives].
  - intros (l & ->). exists l. destruct oe; cbn [tseq]; [apply F2|apply F1].
  - intros (d & k & -> & Hd & Hx & Hk). exists d. eexists. cbn [tseq]. split; [reflexivity|].
    split; [exact Hd|]. split.
    + intros x w'. destruct (Hx x w') as (l & E). exists l. rewrite E. cbn [tseq]. apply F2.
    + intros w' Kw. apply IH, Hk, Kw.
Qed.

Lemma push_keeps c w : keeps w (push c w).
Proof. apply grows_keeps, push_grows. Qed.

Section Loops.
Variable dec : list byte -> option (list byte).
Variable disk : list Z -> res (list byte).
Variable salvage : list byte -> list byte.
Variable fault : list byte -> exn.
Variable float_repr : Z -> list Z.
Variable F : fns.
Notation EV := (eval dec disk salvage fault float_repr globals F PA).
Notation EX := (exec dec disk salvage fault float_repr globals F PA None).
Notation ASSIGN := (assign dec disk salvage fault float_repr globals F PA).
Notation EFOR := (exec_for dec disk salvage fault float_repr globals F PA).

Lemma loop_gives {A} t body (mbody : A -> res (option row)) w0 (P : env -> Prop) acc items :
  Forall2 (fun (a : access) it => forall w l, keeps w0 w -> P l ->
    exists v l1, a w = Some v /\ ASSIGN t v l w = TDone ONext l1 w /\
    match mbody it with
    | Raise y => exists l', body l1 w = TDone (OExc (xof y)) l' w
    | Ok None => exists l', body l1 w = TDone OBreak l' w
    | Ok (Some m) => exists l', yields w (body l1 w) m l' /\ P l'
    end) acc items ->
  forall w l, keeps w0 w -> P l ->
  tgives (fst (gen_loop mbody items)) (snd (gen_loop mbody items)) w (EFOR t body acc l w).
Proof.
  induction 1 as [|a it acc items H _ IH]; intros w l Kw Pl; cbn [gen_loop exec_for].
  - exists l. reflexivity.
  - destruct (H w l Kw Pl) as (v & l1 & Ea & Eas & Hb). rewrite Ea, Eas. cbn [tseq].
    destruct (mbody it) as [[m|]|y].
    + destruct Hb as (l' & (d & k & E & Hd & Hk & Hx) & Pl').
      destruct (gen_loop mbody items) as [rs oe] eqn:Eg. cbn [fst snd] in *.
      cbn [tgives]. rewrite E. exists d. eexists. cbn [tseq]. split; [reflexivity|]. split; [exact Hd|]. split.
      * intros x w'. destruct (Hx x w') as (l2 & E2). rewrite E2. cbn [tseq]. eexists. reflexivity.
      * intros w' Kw'. rewrite Hk. cbn [tseq]. apply IH; [|exact Pl'].
        eapply keeps_trans; [exact Kw|]. eapply keeps_trans; [apply push_keeps|exact Kw'].
    + destruct Hb as (l' & E). rewrite E. cbn [tseq fst snd tgives]. eexists. reflexivity.
    + destruct Hb as (l' & E). rewrite E. cbn [tseq fst snd tgives]. eexists. reflexivity.
Qed.

(** A generator that is one [for] loop. *)
Lemma for_block_gives t it body rows oe l w :
  tgives rows oe w (EX (SFor t it body) l w) -> tgives rows oe w (exec_block EX [SFor t it body] l w).
Proof. intros H. cbn [exec_block]. apply tgives_seq; [reflexivity|reflexivity|exact H]. Qed.

(** ** The types of the arguments *)

Definition cls_types (item : hclass -> ctype) (c : hclass) (a : role) : ctype :=
  match a with RH => hc_header c | RR => hc_record c | RS => hc_sstat c | RI => item c end.
Definition check (item : hclass -> ctype) (qs : list req) : bool :=
  forallb (fun c => forallb (req_ok (cls_types item c)) qs) versions.

Lemma check_ok item qs h r s i : check item qs = true -> In (h_class h) versions ->
  (exists c, In c versions /\ o_type r = hc_record c) -> (exists c, In c versions /\ o_type s = hc_sstat c) ->
  (exists c, In c versions /\ o_type i = item c) -> forallb (req_ok (types_of h r s i)) qs = true.
Proof.
  intros H Hh (cr & Hr & Er) (cs & Hs & Es) (ci & Hi & Ei). unfold check in H. rewrite forallb_forall in H.
  apply forallb_forall. intros [[a p] k] Hq.
  assert (K : exists c, In c versions /\ types_of h r s i a = cls_types item c a).
  { unfold types_of. destruct a; cbn [role_obj cls_types h_obj o_type]; eauto. }
  destruct K as (c & Hc & E). specialize (H c Hc). rewrite forallb_forall in H. specialize (H _ Hq).
  unfold req_ok in *. rewrite E. exact H.
Qed.

(** ** The three kinds of parsers *)

Section Args.
Variables (w0 : world) (hv rv sv tv : value) (h : hobj) (r s : cobj) (ts : list cobj).
Hypothesis Hargs : parser_args w0 hv rv sv tv h r s ts.

Lemma Hh : is_hdr w0 hv h. Proof. exact (proj1 Hargs). Qed.
Lemma Hr : is_obj w0 rv r. Proof. exact (proj1 (proj2 Hargs)). Qed.
Lemma Hrt : exists c, In c versions /\ o_type r = hc_record c. Proof. exact (proj1 (proj2 (proj2 Hargs))). Qed.
Lemma Hs : is_obj w0 sv s. Proof. exact (proj1 (proj2 (proj2 (proj2 Hargs)))). Qed.
Lemma Hst : exists c, In c versions /\ o_type s = hc_sstat c. Proof. exact (proj1 (proj2 (proj2 (proj2 (proj2 Hargs))))). Qed.
Lemma Hts : is_list is_obj w0 tv ts. Proof. exact (proj1 (proj2 (proj2 (proj2 (proj2 (proj2 Hargs)))))). Qed.
Lemma Htt : Forall (fun t => exists c, In c versions /\ o_type t = hc_tstat c) ts.
Proof. exact (proj2 (proj2 (proj2 (proj2 (proj2 (proj2 Hargs)))))). Qed.

Lemma stage_at w l x iv i : keeps w0 w -> penv hv rv sv tv l -> assoc x l = Some iv -> is_obj w iv i ->
  stage w l x hv rv sv tv iv h r s i.
Proof.
  intros K Hl Hx Hi. constructor; try assumption.
  - exact (keeps_hdr _ _ _ _ K Hh).
  - exact (keeps_obj _ _ _ _ K Hr).
  - exact (keeps_obj _ _ _ _ K Hs).
Qed.

Lemma single_gives D l : check hc_sstat (row_reqs D) = true -> flags_ok D = true -> no_idx D = true ->
  penv hv rv sv tv l ->
  tgives (fst (gen_single (row_of (row_json h r s s 0 D)))) (snd (gen_single (row_of (row_json h r s s 0 D)))) w0
         (exec_block EX (row_block "sstat" D) l w0).
Proof.
  intros Hc Hf Hn Hl.
  assert (Hg : stage w0 l "sstat" hv rv sv tv sv h r s s).
  { apply stage_at; [apply keeps_refl|exact Hl|exact (proj1 (proj2 (proj2 Hl)))|exact Hs]. }
  pose proof (check_ok _ _ h r s s Hc (hdr_in _ _ _ Hh) Hrt Hst Hst) as Hq.
  pose proof (row_block_yields dec disk salvage fault float_repr F _ _ _ _ _ _ _ _ _ _ _ _ 0 D Hg Hq Hf (or_introl Hn)) as K.
  destruct (row_of (row_json h r s s 0 D)) as [m|y]; cbn [gen_single fst snd tgives].
  - destruct K as (d & k & E & Hd & Hk & Hx). exists d, k. split; [exact E|]. split; [exact Hd|]. split; [exact Hx|].
    intros w' _. rewrite Hk. eexists. reflexivity.
  - exists l. exact K.
Qed.

Lemma tasks_gives D l : check hc_tstat (row_reqs D) = true -> flags_ok D = true -> no_idx D = true ->
  penv hv rv sv tv l ->
  let g := gen_tasks ts (fun stat => row_json h r s stat 0 D) in
  tgives (fst g) (snd g) w0 (exec_block EX [SFor (TgName "stat") (EName "tstats") (row_block "stat" D)] l w0).
Proof.
  intros Hc Hf Hn Hl. apply for_block_gives.
  destruct Hts as (id & vs & Etv & Hid & Hvs).
  cbn [exec eval]. unfold name_value. rewrite (proj1 (proj2 (proj2 (proj2 Hl)))). rewrite Etv. cbn [ok_or_stuck with_val accesses simple_accesses].
  rewrite Hid. unfold gen_tasks, gen_for.
  apply loop_gives with (w0 := w0) (P := penv hv rv sv tv); [|apply keeps_refl|exact Hl].
  pose proof Htt as Htt'. clear Hl Hid. revert Hvs Htt'. generalize ts. intros ts' Hvs Htt'.
  induction Hvs as [|v i vs ts' Hv Hvs IH]; cbn [map]; constructor.
  - intros w l' Kw Hl. exists v, (dict_set l' "stat" v). split; [reflexivity|]. split; [reflexivity|].
    assert (Hi : exists c, In c versions /\ o_type i = hc_tstat c) by exact (Forall_inv Htt').
    assert (Hg : stage w (dict_set l' "stat" v) "stat" hv rv sv tv v h r s i).
    { apply stage_at; [exact Kw|apply penv_set; [exact Hl|reflexivity]|rewrite assoc_set, String.eqb_refl; reflexivity|].
      eapply keeps_obj; eassumption. }
    pose proof (check_ok _ _ h r s i Hc (hdr_in _ _ _ Hh) Hrt Hst Hi) as Hq.
    pose proof (row_block_yields dec disk salvage fault float_repr F _ _ _ _ _ _ _ _ _ _ _ _ 0 D Hg Hq Hf (or_introl Hn)) as K.
    destruct (row_of (row_json h r s i 0 D)) as [m|y]; cbn [rbind].
    + eexists. split; [exact K|]. repeat (apply penv_set; [|reflexivity]). exact Hl.
    + eexists. exact K.
  - exact (IH (Forall_inv_tail Htt')).
Qed.

(** Loops over an array of structs in sstat. *)
Definition elem_at (p : list string) (c : hclass) : ctype :=
  match path_type false (hc_sstat c) p with PTy (TArr e _) => e | _ => TChar end.
Definition array_ok (p : list string) : bool :=
  forallb (fun c => match path_type false (hc_sstat c) p with PTy (TArr e _) => is_struct e | _ => false end) versions.

Lemma items_at p l : array_ok p = true -> penv hv rv sv tv l ->
  exists its e n blk off, struct_items s p = Ok its /\
    EV (pathx (EName "sstat") p) l w0 = EOk (VView (TArr e n) blk off) w0 /\
    Forall2 (fun (a : access) it => (exists c, In c versions /\ o_type it = elem_at p c) /\
               exists v, forall w, keeps w0 w -> a w = Some v /\ is_obj w v it)
            (array_accesses (Z.to_nat n) e blk off) its.
Proof.
  intros Ha Hl. pose proof Hst as (c & Hc & Ec). unfold array_ok in Ha. rewrite forallb_forall in Ha. specialize (Ha c Hc).
  destruct (path_type false (hc_sstat c) p) as [| |ft] eqn:Ep; try discriminate Ha.
  destruct ft as [| | |e n|]; try discriminate Ha.
  assert (Es : EV (EName "sstat") l w0 = EOk sv w0) by (cbn [eval]; unfold name_value; rewrite (proj1 (proj2 (proj2 Hl))); reflexivity).
  pose proof (path_eval dec disk salvage fault float_repr F p false _ _ _ _ _ Es (obj_inst _ _ _ Hs)) as K.
  rewrite Ec, Ep in K. destruct K as (b & v & K1 & K2 & K3).
  { intros _. destruct Hs as (? & ? & ? & -> & _). eauto. }
  destruct e as [| | | |nm fs lims] eqn:Ee; try discriminate Ha. rewrite <- Ee in *.
  assert (Ef : fetch (TArr e n) b = PObj (mkObj (TArr e n) b)) by (rewrite Ee; reflexivity).
  rewrite Ef in K1, K3. cbn [is_val] in K3. destruct K3 as (blk & off & m & -> & Hm & Ho & Hl2 & Hb & Hw).
  cbn [o_type o_buf] in *.
  exists (map (mkObj e) (chunks (Z.to_nat n) (sizeof e) b)), e, n, blk, off. split; [|split; [exact K2|]].
  - unfold struct_items. rewrite K1. cbn [rbind]. unfold array_items. cbn [o_type o_buf].
    generalize (chunks (Z.to_nat n) (sizeof e) b). intros cs. rewrite Ee. induction cs as [|x cs IH]; [reflexivity|].
    cbn [map rmap fetch rbind]. rewrite IH. reflexivity.
  - pose proof (arr_elems blk m off e n Hw Ho Hl2) as Hel. rewrite <- Hb in Hel.
    assert (Hwe : wf_type e = true) by (cbn [wf_type] in Hw; apply andb_prop in Hw as [_ Hw]; exact Hw).
    assert (Eel : elem_at p c = e) by (unfold elem_at; rewrite Ep; reflexivity).
    clear - Hel Hm Hwe Eel Ee Hc. induction Hel as [|a x acc bs (f & H1 & H2 & H3 & H4) _ IH]; cbn [map]; constructor; [|exact IH].
    split; [exists c; split; [exact Hc|cbn [o_type]; congruence]|].
    exists (VView e blk f). intros w Kw. pose proof (keeps_mem _ _ _ _ Kw Hm) as Hm'. rewrite (H4 w Hm').
    split; [rewrite Ee; reflexivity|]. exists blk, f, m. cbn [o_type o_buf]. auto 10.
Qed.

Definition named_model (D : list (string * ent)) (it : cobj) : res (option row) :=
  let? name := bytespath it ["name"] in
  match name with [] => Ok None | _ :: _ => let? v := row_of (row_json h r s it 0 D) in Ok (Some v) end.

Lemma named_gives x p D l : existsb (String.eqb x) ["disk"; "lvm"; "mdd"; "interface"] = true ->
  array_ok p = true -> check (elem_at p) ((RI, ["name"], KBytes) :: row_reqs D) = true -> flags_ok D = true -> no_idx D = true ->
  penv hv rv sv tv l ->
  let g := gen_for (struct_items s p) (named_model D) in
  tgives (fst g) (snd g) w0
    (exec_block EX [SFor (TgName x) (pathx (EName "sstat") p)
       (SIf (ENot (EAttr (EName x) "name")) [SBreak] [] :: row_block x D)] l w0).
Proof.
  intros Hx Ha Hc Hf Hn Hl g. apply for_block_gives.
  destruct (items_at p l Ha Hl) as (its & e & n & blk & off & E1 & E2 & Hit).
  cbn [exec]. rewrite E2. cbn [with_val accesses simple_accesses]. unfold g. rewrite E1. cbn [gen_for].
  apply loop_gives with (w0 := w0) (P := penv hv rv sv tv); [|apply keeps_refl|exact Hl].
  eapply forall2_impl; [|exact Hit]. clear Hit E1 E2 its. cbv beta. intros a it (Hty & v & Hv) w l' Kw Hl'.
  destruct (Hv w Kw) as (Ea & Hi). exists v, (dict_set l' x v). split; [exact Ea|]. split; [reflexivity|].
  assert (Hl1 : penv hv rv sv tv (dict_set l' x v)).
  { apply penv_set; [exact Hl'|]. cbn [existsb] in *. clear - Hx.
    repeat (apply orb_prop in Hx as [Hx|Hx]); try discriminate Hx; rewrite Hx, ?orb_true_r; reflexivity. }
  assert (Hg : stage w (dict_set l' x v) x hv rv sv tv v h r s it).
  { apply stage_at; [exact Kw|exact Hl1|rewrite assoc_set, String.eqb_refl; reflexivity|exact Hi]. }
  pose proof (check_ok _ _ h r s it Hc (hdr_in _ _ _ Hh) Hrt Hst Hty) as Hq.
  cbn [forallb] in Hq. apply andb_prop in Hq as [Hq1 Hq].
  pose proof (row_block_yields dec disk salvage fault float_repr F _ _ _ _ _ _ _ _ _ _ _ _ 0 D Hg Hq Hf (or_introl Hn)) as K.
  unfold named_model, bytespath.
  destruct (stage_path dec disk salvage fault float_repr F _ _ _ _ _ _ _ _ _ _ _ _ _ _ _ Hg Hq1) as [(ft & b & nv & Kk & K1 & K2 & K3)|(y & K1 & K2)];
    cbn [role_obj rname pathx fold_left] in K1, K2; rewrite K1.
  2: { cbn [rbind]. eexists. erewrite block_exc; [reflexivity|]. cbn [exec]. 
       change (EV (ENot (EAttr (EName x) "name")) (dict_set l' x v) w) with
         (ebind (EV (EAttr (EName x) "name") (dict_set l' x v) w) (fun v w => match truthy w v with Some b => EOk (VBool (negb b)) w | None => EErr XStuck w end)).
       rewrite K2. reflexivity. }
  destruct (is_val_bytes _ _ _ _ Kk K3) as (z & Ez & ->). rewrite Ez. cbn [rbind].
  assert (Kc : EV (ENot (EAttr (EName x) "name")) (dict_set l' x v) w = EOk (VBool (match z with [] => true | _ => false end)) w).
  { change (EV (ENot (EAttr (EName x) "name")) (dict_set l' x v) w) with
      (ebind (EV (EAttr (EName x) "name") (dict_set l' x v) w) (fun v w => match truthy w v with Some b => EOk (VBool (negb b)) w | None => EErr XStuck w end)).
    rewrite K2. cbn [ebind truthy]. destruct z; reflexivity. }
  destruct z as [|z0 z].
  - eexists. erewrite block_break; [reflexivity|]. cbn [exec]. rewrite Kc. cbn [with_val truthy exec_block exec tseq]. reflexivity.
  - assert (Kb : forall R, exec_block EX (SIf (ENot (EAttr (EName x) "name")) [SBreak] [] :: R) (dict_set l' x v) w =
                 exec_block EX R (dict_set l' x v) w).
    { intros R. erewrite block_next; [reflexivity|]. cbn [exec]. rewrite Kc. cbn [with_val truthy exec_block]. reflexivity. }
    rewrite Kb. destruct (row_of (row_json h r s it 0 D)) as [m|y]; cbn [rbind].
    + eexists. split; [exact K|]. apply penv_set; [exact Hl1|reflexivity].
    + eexists. exact K.
Qed.

Definition cpu_model (D : list (string * ent)) (ic : Z * cobj) : res (option row) :=
  let '(index, cpu) := ic in
  let? nrcpu := intpath s ["cpu"; "nrcpu"] in
  if nrcpu <=? index then Ok None else let? v := row_of (row_json h r s cpu index D) in Ok (Some v).

Lemma cpu_gives p D l : array_ok p = true -> check (elem_at p) ((RS, ["cpu"; "nrcpu"], KInt) :: row_reqs D) = true -> flags_ok D = true ->
  penv hv rv sv tv l ->
  let g := gen_for (let? l := struct_items s p in Ok (enumerate_from 0 l)) (cpu_model D) in
  tgives (fst g) (snd g) w0
    (exec_block EX [SFor (TgTuple ["index"; "cpu"]) (ECall (EName "enumerate") [pathx (EName "sstat") p] [])
       (SIf (ECmp OpGe (EName "index") (EAttr (EAttr (EName "sstat") "cpu") "nrcpu")) [SBreak] [] :: row_block "cpu" D)] l w0).
Proof.
  intros Ha Hc Hf Hl g. apply for_block_gives.
  destruct (items_at p l Ha Hl) as (its & e & n & blk & off & E1 & E2 & Hit).
  assert (E3 : EV (ECall (EName "enumerate") [pathx (EName "sstat") p] []) l w0 = EOk (VEnum (VView (TArr e n) blk off)) w0).
  { cbn [eval]. unfold name_value. rewrite (proj1 (proj2 (proj2 (proj2 (proj2 Hl))))). gname_one.
    cbn [ok_or_stuck ebind eval_list]. rewrite E2. reflexivity. }
  assert (E4 : EX (SFor (TgTuple ["index"; "cpu"]) (ECall (EName "enumerate") [pathx (EName "sstat") p] [])
       (SIf (ECmp OpGe (EName "index") (EAttr (EAttr (EName "sstat") "cpu") "nrcpu")) [SBreak] [] :: row_block "cpu" D)) l w0 =
     EFOR (TgTuple ["index"; "cpu"]) (exec_block EX (SIf (ECmp OpGe (EName "index") (EAttr (EAttr (EName "sstat") "cpu") "nrcpu")) [SBreak] [] :: row_block "cpu" D))
       (enum_accesses 0 (array_accesses (Z.to_nat n) e blk off)) l w0).
  { revert E3. generalize (ECall (EName "enumerate") [pathx (EName "sstat") p] []). intros x E3.
    cbn [exec]. rewrite E3. reflexivity. }
  rewrite E4. unfold g. rewrite E1. cbn [rbind gen_for].
  apply loop_gives with (w0 := w0) (P := penv hv rv sv tv); [|apply keeps_refl|exact Hl].
  clear E1 E2 E3 E4 g. generalize 0 at 1 2. induction Hit as [|a it acc its (Hty & v & Hv) _ IH]; intros ix; cbn [enum_accesses enumerate_from]; constructor; [|apply IH].
  clear IH. intros w l' Kw Hl'.
  destruct (Hv w Kw) as (Ea & Hi). set (l1 := dict_set (dict_set l' "index" (VInt ix)) "cpu" v).
  exists (VTuple [VInt ix; v]), l1. rewrite Ea. split; [reflexivity|]. split; [reflexivity|].
  assert (Hl1 : penv hv rv sv tv l1) by (repeat (apply penv_set; [|reflexivity]); exact Hl').
  assert (Hg : stage w l1 "cpu" hv rv sv tv v h r s it).
  { apply stage_at; [exact Kw|exact Hl1|unfold l1; rewrite assoc_set, String.eqb_refl; reflexivity|exact Hi]. }
  assert (Eix : assoc "index" l1 = Some (VInt ix)) by (unfold l1; rewrite !assoc_set; reflexivity).
  pose proof (check_ok _ _ h r s it Hc (hdr_in _ _ _ Hh) Hrt Hst Hty) as Hq.
  cbn [forallb] in Hq. apply andb_prop in Hq as [Hq1 Hq].
  pose proof (row_block_yields dec disk salvage fault float_repr F _ _ _ _ _ _ _ _ _ _ _ _ ix D Hg Hq Hf (or_intror Eix)) as K.
  cbn [cpu_model]. unfold intpath. clearbody l1.
  assert (Ei : EV (EName "index") l1 w = EOk (VInt ix) w) by (cbn [eval]; unfold name_value; rewrite Eix; reflexivity).
  destruct (stage_path dec disk salvage fault float_repr F _ _ _ _ _ _ _ _ _ _ _ _ _ _ _ Hg Hq1) as [(ft & b & nv & Kk & K1 & K2 & K3)|(y & K1 & K2)];
    cbn [role_obj rname pathx fold_left] in K1, K2; rewrite K1; revert K2 Ei;
    generalize (EAttr (EAttr (EName "sstat") "cpu") "nrcpu") (EName "index"); intros x1 x2 K2 Ei.
  2: { cbn [rbind]. eexists. erewrite block_exc; [reflexivity|]. cbn [exec eval]. rewrite Ei. cbn [ebind]. rewrite K2. reflexivity. }
  destruct (is_val_int _ _ _ _ Kk K3) as (z & Ez & ->). rewrite Ez. cbn [rbind].
  assert (Kc : EV (ECmp OpGe x2 x1) l1 w = EOk (VBool (z <=? ix)) w).
  { cbn [eval]. rewrite Ei. cbn [ebind]. rewrite K2. reflexivity. }
  destruct (z <=? ix).
  - eexists. erewrite block_break; [reflexivity|]. cbn [exec]. rewrite Kc. cbn [with_val truthy exec_block exec tseq]. reflexivity.
  - assert (Kb : forall R, exec_block EX (SIf (ECmp OpGe x2 x1) [SBreak] [] :: R) l1 w = exec_block EX R l1 w).
    { intros R. erewrite block_next; [reflexivity|]. cbn [exec]. rewrite Kc. cbn [with_val truthy exec_block]. reflexivity. }
    rewrite Kb. destruct (row_of (row_json h r s it ix D)) as [m|y]; cbn [rbind].
    + eexists. split; [exact K|]. apply penv_set; [exact Hl1|reflexivity].
    + eexists. exact K.
Qed.
End Args.
End Loops.

(** ** The parsers *)

(** Reading the entries off a dictionary display ([x]: the variable of the loop); that they are
    these is checked below by [reflexivity]. *)
Fixpoint unpath (e : expr) : option (string * list string) :=
  match e with
  | EName x => Some (x, [])
  | EAttr e a => match unpath e with Some (x, p) => Some (x, p ++ [a]) | None => None end
  | _ => None
  end.
Definition role_of (x n : string) : role :=
  if String.eqb n "header" then RH else if String.eqb n "record" then RR
  else if String.eqb n "sstat" then RS else RI.
Definition ent_of (x : string) (e : expr) : ent :=
  match e with
  | EStr s => NStr s
  | EName _ => NIdx
  | ECall (EAttr e "decode") _ _ => match unpath e with Some (_, p) => NDec p | None => NIdx end
  | ECall _ [e] _ => match unpath e with Some (_, p) => NBig p | None => NIdx end
  | EBin OpMul e _ => match unpath e with Some (_, p) => NKib p | None => NIdx end
  | EBin _ e f => match unpath e, unpath f with Some (_, p), Some (_, q) => NSum p q | _, _ => NIdx end
  | EIf (EBin _ _ (EAttr _ a)) _ _ => NFlag a
  | _ => match unpath e with Some (n, p) => NPath (role_of x n) p | None => NIdx end
  end.
Definition entries_of (x : string) (l : list (expr * expr)) : list (string * ent) :=
  map (fun kv => (match fst kv with EStr k => k | _ => "" end, ent_of x (snd kv))) l.
Fixpoint display (b : list stmt) : list (expr * expr) :=
  match b with
  | SAssign _ (EDict l) :: _ => l
  | _ :: r => display r
  | [] => []
  end.
Definition desc (x : string) (fd : fundef) : list (string * ent) :=
  entries_of x (match fd_body fd with
                | [SFor _ _ b] => display b
                | b => display b
                end).

Definition D_CPL := Eval vm_compute in desc "sstat" p_parse_CPL.
Definition D_CPU := Eval vm_compute in desc "sstat" p_parse_CPU.
Definition D_MEM := Eval vm_compute in desc "sstat" p_parse_MEM.
Definition D_NETU := Eval vm_compute in desc "sstat" p_parse_NETU.
Definition D_PAG := Eval vm_compute in desc "sstat" p_parse_PAG.
Definition D_SWP := Eval vm_compute in desc "sstat" p_parse_SWP.
Definition D_DSK := Eval vm_compute in desc "disk" p_parse_DSK.
Definition D_LVM := Eval vm_compute in desc "lvm" p_parse_LVM.
Definition D_MDD := Eval vm_compute in desc "mdd" p_parse_MDD.
Definition D_NETL := Eval vm_compute in desc "interface" p_parse_NETL.
Definition D_PRC := Eval vm_compute in desc "stat" p_parse_PRC.
Definition D_PRD := Eval vm_compute in desc "stat" p_parse_PRD.
Definition D_PRG := Eval vm_compute in desc "stat" p_parse_PRG.
Definition D_PRM := Eval vm_compute in desc "stat" p_parse_PRM.
Definition D_PRN := Eval vm_compute in desc "stat" p_parse_PRN.
Definition D_cpu := Eval vm_compute in desc "cpu" p_parse_cpu.

Section Parsers.
Variable dec : list byte -> option (list byte).
Variable disk : list Z -> res (list byte).
Variable salvage : list byte -> list byte.
Variable fault : list byte -> exn.
Variable float_repr : Z -> list Z.
Variable F : fns.
Notation RB := (run_body dec disk salvage fault float_repr globals F PA).

Definition parses (fd : fundef) (model : hobj -> cobj -> cobj -> list cobj -> rows_out) : Prop :=
  forall w hv rv sv tv h r s ts, parser_args w hv rv sv tv h r s ts ->
  tgives (fst (model h r s ts)) (snd (model h r s ts)) w
    (RB fd [("header", hv); ("record", rv); ("sstat", sv); ("tstats", tv)] w).

Lemma penv0 hv rv sv tv : penv hv rv sv tv [("header", hv); ("record", rv); ("sstat", sv); ("tstats", tv)].
Proof. repeat split. Qed.

Lemma src_CPL : parses p_parse_CPL parse_CPL.
Proof.
  intros w hv rv sv tv h r s ts Ha.
  exact (single_gives dec disk salvage fault float_repr F w hv rv sv tv h r s ts Ha D_CPL _ ltac:(vm_compute; reflexivity) eq_refl eq_refl (penv0 hv rv sv tv)).
Qed.
Lemma src_CPU : parses p_parse_CPU parse_CPU.
Proof.
  intros w hv rv sv tv h r s ts Ha.
  exact (single_gives dec disk salvage fault float_repr F w hv rv sv tv h r s ts Ha D_CPU _ ltac:(vm_compute; reflexivity) eq_refl eq_refl (penv0 hv rv sv tv)).
Qed.
Lemma src_MEM : parses p_parse_MEM parse_MEM.
Proof.
  intros w hv rv sv tv h r s ts Ha.
  exact (single_gives dec disk salvage fault float_repr F w hv rv sv tv h r s ts Ha D_MEM _ ltac:(vm_compute; reflexivity) eq_refl eq_refl (penv0 hv rv sv tv)).
Qed.
Lemma src_NETU : parses p_parse_NETU parse_NETU.
Proof.
  intros w hv rv sv tv h r s ts Ha.
  exact (single_gives dec disk salvage fault float_repr F w hv rv sv tv h r s ts Ha D_NETU _ ltac:(vm_compute; reflexivity) eq_refl eq_refl (penv0 hv rv sv tv)).
Qed.
Lemma src_PAG : parses p_parse_PAG parse_PAG.
Proof.
  intros w hv rv sv tv h r s ts Ha.
  exact (single_gives dec disk salvage fault float_repr F w hv rv sv tv h r s ts Ha D_PAG _ ltac:(vm_compute; reflexivity) eq_refl eq_refl (penv0 hv rv sv tv)).
Qed.
Lemma src_SWP : parses p_parse_SWP parse_SWP.
Proof.
  intros w hv rv sv tv h r s ts Ha.
  exact (single_gives dec disk salvage fault float_repr F w hv rv sv tv h r s ts Ha D_SWP _ ltac:(vm_compute; reflexivity) eq_refl eq_refl (penv0 hv rv sv tv)).
Qed.
Lemma src_PRC : parses p_parse_PRC parse_PRC.
Proof.
  intros w hv rv sv tv h r s ts Ha.
  exact (tasks_gives dec disk salvage fault float_repr F w hv rv sv tv h r s ts Ha D_PRC _ ltac:(vm_compute; reflexivity) eq_refl eq_refl (penv0 hv rv sv tv)).
Qed.
Lemma src_PRD : parses p_parse_PRD parse_PRD.
Proof.
  intros w hv rv sv tv h r s ts Ha.
  exact (tasks_gives dec disk salvage fault float_repr F w hv rv sv tv h r s ts Ha D_PRD _ ltac:(vm_compute; reflexivity) eq_refl eq_refl (penv0 hv rv sv tv)).
Qed.
Lemma src_PRG : parses p_parse_PRG parse_PRG.
Proof.
  intros w hv rv sv tv h r s ts Ha.
  exact (tasks_gives dec disk salvage fault float_repr F w hv rv sv tv h r s ts Ha D_PRG _ ltac:(vm_compute; reflexivity) eq_refl eq_refl (penv0 hv rv sv tv)).
Qed.
Lemma src_PRM : parses p_parse_PRM parse_PRM.
Proof.
  intros w hv rv sv tv h r s ts Ha.
  exact (tasks_gives dec disk salvage fault float_repr F w hv rv sv tv h r s ts Ha D_PRM _ ltac:(vm_compute; reflexivity) eq_refl eq_refl (penv0 hv rv sv tv)).
Qed.
Lemma src_PRN : parses p_parse_PRN parse_PRN.
Proof.
  intros w hv rv sv tv h r s ts Ha.
  exact (tasks_gives dec disk salvage fault float_repr F w hv rv sv tv h r s ts Ha D_PRN _ ltac:(vm_compute; reflexivity) eq_refl eq_refl (penv0 hv rv sv tv)).
Qed.
Lemma src_DSK : parses p_parse_DSK parse_DSK.
Proof.
  intros w hv rv sv tv h r s ts Ha.
  exact (named_gives dec disk salvage fault float_repr F w hv rv sv tv h r s ts Ha "disk" ["dsk"; "dsk"] D_DSK _ eq_refl ltac:(vm_compute; reflexivity)
           ltac:(vm_compute; reflexivity) eq_refl eq_refl (penv0 hv rv sv tv)).
Qed.
Lemma src_LVM : parses p_parse_LVM parse_LVM.
Proof.
  intros w hv rv sv tv h r s ts Ha.
  exact (named_gives dec disk salvage fault float_repr F w hv rv sv tv h r s ts Ha "lvm" ["dsk"; "lvm"] D_LVM _ eq_refl ltac:(vm_compute; reflexivity)
           ltac:(vm_compute; reflexivity) eq_refl eq_refl (penv0 hv rv sv tv)).
Qed.
Lemma src_MDD : parses p_parse_MDD parse_MDD.
Proof.
  intros w hv rv sv tv h r s ts Ha.
  exact (named_gives dec disk salvage fault float_repr F w hv rv sv tv h r s ts Ha "mdd" ["dsk"; "mdd"] D_MDD _ eq_refl ltac:(vm_compute; reflexivity)
           ltac:(vm_compute; reflexivity) eq_refl eq_refl (penv0 hv rv sv tv)).
Qed.
Lemma src_NETL : parses p_parse_NETL parse_NETL.
Proof.
  intros w hv rv sv tv h r s ts Ha.
  exact (named_gives dec disk salvage fault float_repr F w hv rv sv tv h r s ts Ha "interface" ["intf"; "intf"] D_NETL _ eq_refl ltac:(vm_compute; reflexivity)
           ltac:(vm_compute; reflexivity) eq_refl eq_refl (penv0 hv rv sv tv)).
Qed.
Lemma src_cpu : parses p_parse_cpu parse_cpu.
Proof.
  intros w hv rv sv tv h r s ts Ha.
  exact (cpu_gives dec disk salvage fault float_repr F w hv rv sv tv h r s ts Ha ["cpu"; "cpu"] D_cpu _ ltac:(vm_compute; reflexivity)
           ltac:(vm_compute; reflexivity) eq_refl (penv0 hv rv sv tv)).
Qed.
End Parsers.
