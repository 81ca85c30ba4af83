(** * C57, for all methods of the iterator

    What the methods of GenMethods.v do with the generator of the source text, and that the text
    behaves as the model says. *)
From Coq Require Import List ZArith Lia Bool String.
From Coq Require Import Init.Byte.
From Verif Require Import PyBase Utf8 CTypes S_shared S_1_26 Model Parsers Json Gzip Reader Messages.
From Verif Require Import Spec SpecLog GenMethods BaseProofs LayoutProofs RepProofs DictProofs TableProofs HeaderProofs.
From Verif Require Import PySyntax PyEval Source PyProgram PyGenerator SpecSource SrcBase SrcHeader SrcUtils SrcStat SrcCgroup SrcGen SrcGen2.
Import ListNotations.
Local Open Scope string_scope.
Local Open Scope list_scope.
Local Open Scope Z_scope.

(** ** CPython 3.11, Objects/genobject.c *)

(** A StopIteration raised inside the frame, and what it is turned into when it leaves it. *)
Definition stop_inside : exc := XUser "StopIteration" [].
Definition runtime_error : exc := XUser "RuntimeError" (text "generator raised StopIteration").
Definition leaving (r : pres * pgen * world) : pres * pgen * world :=
  match r with
  | (PRaise (XUser "StopIteration" _), p, w) => (PRaise runtime_error, p, w)
  | _ => r
  end.

Definition py_method (F : fns) (m : GenMethods.method) (p : pgen) (w : world) : pres * pgen * world :=
  match m with
  | MNext | MSendNone => py_next F p w
  | MSend => match p with PNew _ _ _ => (PRaise (XB TypeError), p, w) | _ => py_next F p w end
  | MThrow (Exception e) => py_throw (xof e) p w
  | MThrow GeneratorExit => py_throw XGenExit p w
  | MThrow StopIter =>
      match p with
      | PFin => (PStop, PFin, w)
      | _ => leaving (py_throw stop_inside p w)
      end
  | MThrow NotAnException => (PRaise (XB TypeError), p, w)
  | MClose => py_close p w
  end.

(** ** Agreement with the model *)

Definition shown_rel (w0 w : world) (o : pres) (x : shown) : Prop :=
  match x with
  | Shows (SawYield s) => exists v, o = PYield v /\ is_sample w v s /\ new_sample w0 v
  | Shows SawStop | Shows SawClosed => o = PStop
  | Shows (SawRaise e) => o = PRaise (xof e)
  | ShowsGeneratorExit => o = PRaise XGenExit
  | ShowsRuntimeError => o = PRaise runtime_error
  | ShowsTypeError => o = PRaise (XB TypeError)
  end.

(** A history: calls of methods, and the rest of the program acting in between. *)
Inductive mop := Calls (m : GenMethods.method) | Others (w : world).

Fixpoint method_history (dec : list byte -> option (list byte)) (F : fns) (ops : list mop) (w : world) (p : pgen) (g : gstate) : Prop :=
  match ops with
  | [] => True
  | Others w' :: r => grows w w' -> plain_fault (w_file w') -> method_history dec F r w' p g
  | Calls m :: r =>
      let '(x, g', f') := do_method dec m g (w_file w) in
      let '(o, p', w') := py_method F m p w in
      shown_rel w w' o x /\ grows w w' /\ w_file w' = f' /\ w_out w' = w_out w /\ method_history dec F r w' p' g'
  end.

Section Src.
Variable dec : list byte -> option (list byte).
Variable disk : list Z -> res (list byte).
Variable salvage : list byte -> list byte.
Variable fault : list byte -> exn.
Variable float_repr : Z -> list Z.
Variable argv : env.
Notation CN := (call_n dec disk salvage fault float_repr argv globals functions).
Variable n : nat.
Notation INV := (gen_inv dec disk salvage fault float_repr argv n).

Definition fits (w : world) (m : shown * gstate * file) (r : pres * pgen * world) : Prop :=
  let '(x, g', f') := m in let '(o, p', w') := r in
  shown_rel w w' o x /\ grows w w' /\ w_file w' = f' /\ w_out w' = w_out w /\ INV w' p' g'.

Lemma fits_same w p g x o : INV w p g -> shown_rel w w o x -> fits w (x, g, w_file w) (o, p, w).
Proof. intros I H. cbn [fits]. split; [exact H|]. split; [apply grows_refl|auto]. Qed.

(** An exception thrown in that is not a zlib.error. *)
Lemma throw_other w p g x : INV w p g -> x <> XStuck -> (forall e, x <> XB e) -> py_throw x p w = (PRaise x, PFin, w).
Proof.
  intros I Hx Hb. destruct g as [hdr strict ms|h gate strict todo|]; cbn [gen_inv] in I.
  - destruct I as (hv & -> & _). reflexivity.
  - destruct I as (v & ms & vv & major & minor & i & l & k & -> & Hh & -> & He & Hk).
    cbn [py_throw]. rewrite Hk.
    change (WRAP dec disk salvage fault float_repr argv n (tseq (at_yield dec disk salvage fault float_repr argv n l (Some x) w) (looped dec disk salvage fault float_repr argv n (Z.to_nat todo) i))) with
      (tseq (handler dec disk salvage fault float_repr argv n x l w) (rest dec disk salvage fault float_repr argv n)).
    rewrite (handler_eq dec disk salvage fault float_repr argv n strict) by
      first [exact (genv_caught _ _ _ _ _ _ _ He) | exact Hx].
    destruct x as [e| | |]; [destruct (Hb e eq_refl)|reflexivity..].
  - subst p. reflexivity.
Qed.

Lemma method_step m w p g : loaded w -> plain_fault (w_file w) -> INV w p g ->
  fits w (do_method dec m g (w_file w)) (py_method (CN (5 + n)) m p w).
Proof.
  intros Lw Hpf I.
  assert (Nx : fits w (plain_op dec SpecLog.ONext g (w_file w)) (py_next (CN (5 + n)) p w)).
  { pose proof (next_step dec disk salvage fault float_repr argv n w p g Lw Hpf I) as K.
    change (S (S (S (S (S n))))) with (5 + n)%nat in K. unfold plain_op. cbn [do_op].
    destruct (gnext dec g (w_file w)) as [[o g'] f']. destruct (py_next (CN (5 + n)) p w) as [[o' p'] w'].
    destruct o; exact K. }
  destruct m as [| | |[e| | |]|]; cbn [do_method py_method].
  - exact Nx.
  - exact Nx.
  - destruct g as [hdr strict ms|h gate strict todo|].
    + pose proof I as J. cbn [gen_inv] in J. destruct J as (hv & Ep & _). rewrite Ep in *. apply fits_same; [exact I|reflexivity].
    + pose proof I as J. cbn [gen_inv] in J. destruct J as (v & ms & vv & major & minor & i & l & k & Ep & _). rewrite Ep in *. exact Nx.
    + pose proof I as J. cbn [gen_inv] in J. rewrite J in *. exact Nx.
  - pose proof (throw_step dec disk salvage fault float_repr argv n w p g e I) as K. unfold plain_op. cbn [do_op].
    destruct (gthrow g e (w_file w)) as [[o g'] f']. destruct (py_throw (xof e) p w) as [[o' p'] w'].
    destruct o; exact K.
  - rewrite (throw_other w p g XGenExit I) by discriminate. apply fits_same; reflexivity.
  - pose proof (throw_other w p g stop_inside I ltac:(discriminate) ltac:(discriminate)) as K.
    destruct g as [hdr strict ms|h gate strict todo|].
    + pose proof I as J. cbn [gen_inv] in J. destruct J as (hv & Ep & _). rewrite Ep in *. apply fits_same; reflexivity.
    + pose proof I as J. cbn [gen_inv] in J. destruct J as (v & ms & vv & major & minor & i & l & k & Ep & _). rewrite Ep in *.
      rewrite K. apply fits_same; reflexivity.
    + pose proof I as J. cbn [gen_inv] in J. rewrite J in *. apply fits_same; reflexivity.
  - apply fits_same; [exact I|reflexivity].
  - rewrite (close_step dec disk salvage fault float_repr argv n w p g I). apply fits_same; reflexivity.
Qed.

Lemma method_plain m g f x g' f' : do_method dec m g f = (x, g', f') -> plain_fault f -> plain_fault f'.
Proof.
  intros E P.
  assert (Nx : forall y g1 f1, plain_op dec SpecLog.ONext g f = (y, g1, f1) -> plain_fault f1).
  { intros y g1 f1 H. unfold plain_op in H. cbn [do_op] in H. pose proof (gnext_plain dec g f) as K. cbv beta in K.
    destruct (gnext dec g f) as [[o g2] f2]. specialize (K _ _ P eq_refl).
    destruct o; injection H as _ _ <-; exact K. }
  destruct m as [| | |[e| | |]|]; cbn [do_method] in E.
  - exact (Nx _ _ _ E).
  - exact (Nx _ _ _ E).
  - destruct g; [injection E as _ _ <-; exact P|exact (Nx _ _ _ E)|exact (Nx _ _ _ E)].
  - unfold plain_op in E. cbn [do_op] in E. assert (Q : snd (gthrow g e f) = f) by (destruct g; reflexivity).
    destruct (gthrow g e f) as [[o g1] f1]. cbn [snd] in Q. subst f1. destruct o; injection E as _ _ <-; exact P.
  - injection E as _ _ <-. exact P.
  - destruct g; injection E as _ _ <-; exact P.
  - injection E as _ _ <-. exact P.
  - injection E as _ _ <-. exact P.
Qed.

Lemma src_methods ops : forall w p g, loaded w -> plain_fault (w_file w) -> INV w p g ->
  method_history dec (CN (5 + n)) ops w p g.
Proof.
  induction ops as [|op ops IH]; intros w p g Lw Hpf I; [exact Logic.I|]. destruct op as [m|w'].
  - cbn [method_history]. pose proof (method_step m w p g Lw Hpf I) as K. pose proof (method_plain m g (w_file w)) as P.
    destruct (do_method dec m g (w_file w)) as [[x g'] f']. destruct (py_method (CN (5 + n)) m p w) as [[o p'] w'].
    destruct K as (K1 & K2 & K3 & K4 & K5). repeat (split; [assumption|]).
    apply IH; [exact (loaded_grows _ _ K2 Lw)| |exact K5]. rewrite K3. exact (P _ _ _ eq_refl Hpf).
  - cbn [method_history]. intros G P. apply IH; [exact (loaded_grows _ _ G Lw)|exact P|].
    exact (gen_inv_grows dec disk salvage fault float_repr argv n _ _ _ _ G I).
Qed.

(** The generator that the text of generate_statistics makes, under any calls of its methods and
    anything happening in between. *)
Theorem C57_methods w args kws hv hdr strict ms ops : loaded w -> plain_fault (w_file w) ->
  bind_params globals "atoparser.utils" (fd_params u_generate_statistics) args kws =
    Some [("raw_file", VFile); ("header", hv); ("raise_on_truncation", VBool strict); ("max_samples", VInt ms)] ->
  match hdr with None => hv = VNone | Some h => is_hdr w hv h end ->
  exists p,
    match f_call (CN (1 + n)) "atoparser.utils" "generate_statistics" args kws w with
    | EOk g w' => pgen_of g = Some p /\ w' = w
    | EErr _ _ => False
    end /\
    method_history dec (CN (5 + n)) ops w p (generate_statistics hdr strict ms).
Proof.
  intros Lw Hpf Hb Hh. eexists. split.
  - change (1 + n)%nat with (S n). change "atoparser.utils" with U. rewrite (src_generate dec disk salvage fault float_repr argv n w args kws hv strict ms Hb).
    split; reflexivity.
  - apply src_methods; [exact Lw|exact Hpf|]. exists hv. split; [reflexivity|]. exact Hh.
Qed.
End Src.

(** A case: no header given, a header not accepted; a value is refused, then the call of next
    raises get_header's exception, and the iterator is over. *)
Example C57_methods_example dec disk salvage fault float_repr argv n :
  exists p, method_history dec (call_n dec disk salvage fault float_repr argv globals functions (5 + n))
    [Calls MSend; Calls MNext; Calls (MThrow StopIter)] (start_world (plain [])) p (generate_statistics None true 1) /\
    p = PNew "atoparser.utils" "generate_statistics"
          [("raw_file", VFile); ("header", VNone); ("raise_on_truncation", VBool true); ("max_samples", VInt 1)].
Proof.
  edestruct (C57_methods dec disk salvage fault float_repr argv n (start_world (plain [])) [VFile; VNone; VBool true; VInt 1] [] VNone None true 1
     [Calls MSend; Calls MNext; Calls (MThrow StopIter)]) as (p & H1 & H2).
  - intros k c H. exact H.
  - intros e H. discriminate H.
  - reflexivity.
  - reflexivity.
  - exists p. split; [exact H2|]. 
    pose proof (src_generate dec disk salvage fault float_repr argv n (start_world (plain [])) [VFile; VNone; VBool true; VInt 1] [] VNone true 1 eq_refl) as E.
    change (S n) with (1 + n)%nat in E. change U with "atoparser.utils" in E. rewrite E in H1. destruct H1 as [H1 _].
    injection H1 as <-. reflexivity.
Qed.
