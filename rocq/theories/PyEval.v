(** * An interpreter for the Python subset of PySyntax.v

    It gives a meaning to the code of /repo as transcribed in Source.v, independently of Model.v:
    PropSource*.v prove that running the source has the effects the model says.

    What is built in (not interpreted from source): the Python operators and built-in functions
    below, the part of ctypes of CTypes.v, file objects ([fread]), zlib.decompress ([dec]),
    json.dumps (Json.v), the class bodies of atoparser/structs (the tables S_*.v; C62
    shows that they are what the text of the modules defines) and parse_args ([argv]
    is the namespace it returns; C63 is about its text).

    Simplifications: a list that is being iterated must not change meanwhile (the code never does
    that); one file is open at a time; a generator abandoned by a [for] loop is not closed
    (closing runs no code here, [C57_generator]); names are looked up in the local scope, then
    the module, then the built-ins, so UnboundLocalError is not modelled; a generator expression
    is only allowed as the argument of [any].  An operation outside what is described here gives
    the pseudo-exception [XStuck], which no handler catches; the theorems show that it never
    occurs. *)
From Coq Require Import List ZArith Lia Bool String.
From Coq Require Import Init.Byte.
From Verif Require Import PyBase Utf8 CTypes S_shared S_1_26 Model Parsers Json Gzip Reader Messages.
From Verif Require Import S_2_3 S_2_4 S_2_5 S_2_6 S_2_7 S_2_8 S_2_9 S_2_10 S_2_11 S_2_12.
From Verif Require Import PySyntax PyFloat.
Import ListNotations.
Local Open Scope string_scope.
Local Open Scope list_scope.
Local Open Scope Z_scope.

(** ** Values, memory, worlds *)

(** [VStr] and [VText] are both Python strings: [VStr] one given as an ASCII string, [VText] one
    given by its code points.  [VView t blk off]: a ctypes instance of type [t] whose memory
    starts at byte [off] of block [blk].  [VFloat]: the float read from a
    c_float field with those bits, [VDouble]: any other float.  [VHdr]: an instance of a Header class, [VObj]: an
    instance of CGChainer.  [VMap]: a dictionary that is a class attribute. *)
Inductive value :=
| VNone
| VBool (b : bool)
| VInt (z : Z)
| VFloat (bits : Z)
| VDouble (x : double)
| VStr (s : string)
| VText (cps : list Z)
| VBytes (l : list byte)
| VTuple (l : list value)
| VRange (n : Z)
| VEnum (v : value)
| VMap (d : list (string * value))
| VView (t : ctype) (blk : nat) (off : Z)
| VHdr (id : nat)
| VObj (id : nat)
| VList (id : nat)
| VDict (id : nat)
| VCType (t : ctype)
| VHClass (c : hclass)
| VClass (name : string)
| VModule (name : string)
| VFun (m name : string)
| VBuiltin (name : string)
| VBound (recv : value) (meth : string)
| VGen (m name : string) (locals : list (string * value))
| VExc (cls : string) (msg : list Z)
| VFile.

Definition env := list (string * value).

(** Heap cells: the memory of ctypes instances; header instances (class, memory, attributes);
    CGChainer instances; lists; dictionaries (with string keys). *)
Inductive cell :=
| CMem (b : list byte)
| CHdr (c : hclass) (blk : nat) (attrs : env)
| CObj (attrs : env)
| CList (l : list value)
| CDict (d : env).

Record world := mkW { w_heap : list cell; w_file : file; w_out : list event }.

(** Exceptions: raised by built-ins, raised by [raise Class(msg)] (and ZeroDivisionError), thrown in by
    [generator.close()], or an operation without a meaning here. *)
Inductive exc :=
| XB (e : exn)
| XUser (cls : string) (msg : list Z)
| XGenExit
| XStuck.

Inductive er (A : Type) := EOk (a : A) (w : world) | EErr (x : exc) (w : world).
Arguments EOk {A} a w.
Arguments EErr {A} x w.

Definition ebind {A B} (r : er A) (k : A -> world -> er B) : er B :=
  match r with EOk a w => k a w | EErr x w => EErr x w end.

(** How a statement ends, and the execution trees of generators: a statement ends or suspends at
    a [yield], to be resumed by [next] ([None]) or by throwing an exception into it. *)
Inductive outcome := ONext | OBreak | ORet (v : value) | OExc (x : exc).
Inductive tree :=
| TDone (o : outcome) (l : env) (w : world)
| TYield (v : value) (w : world) (k : option exc -> world -> tree).

Fixpoint tseq (t : tree) (f : outcome -> env -> world -> tree) : tree :=
  match t with
  | TDone o l w => f o l w
  | TYield v w k => TYield v w (fun r w => tseq (k r w) f)
  end.

(** [try]: [h] runs on the exception that ends the body. *)
Fixpoint ttry (t : tree) (h : exc -> env -> world -> tree) : tree :=
  match t with
  | TDone (OExc x) l w => h x l w
  | TDone o l w => TDone o l w
  | TYield v w k => TYield v w (fun r w => ttry (k r w) h)
  end.

(** [for] over a generator; [body] gets the yielded value. *)
Fixpoint tfor (g : tree) (body : value -> env -> world -> tree) (l : env) : tree :=
  match g with
  | TDone (OExc x) _ w => TDone (OExc x) l w
  | TDone _ _ w => TDone ONext l w
  | TYield v w k =>
      tseq (body v l w) (fun o l w =>
        match o with
        | ONext => tfor (k None w) body l
        | OBreak => TDone ONext l w
        | _ => TDone o l w
        end)
  end.

(** ** Memory operations *)

Definition cell_at (w : world) (n : nat) : option cell := nth_error (w_heap w) n.
Definition alloc (c : cell) (w : world) : nat * world :=
  (List.length (w_heap w), mkW (w_heap w ++ [c]) (w_file w) (w_out w)).
Fixpoint upd_nth {A} (n : nat) (c : A) (l : list A) : list A :=
  match l, n with
  | [], _ => []
  | _ :: r, O => c :: r
  | x :: r, S k => x :: upd_nth k c r
  end.
Definition upd (n : nat) (c : cell) (w : world) : world :=
  mkW (upd_nth n c (w_heap w)) (w_file w) (w_out w).
Definition set_file (f : file) (w : world) : world := mkW (w_heap w) f (w_out w).
Definition emit (e : event) (w : world) : world := mkW (w_heap w) (w_file w) (w_out w ++ [e]).

Definition mem (w : world) (blk : nat) : option (list byte) :=
  match cell_at w blk with Some (CMem b) => Some b | _ => None end.

(** The Python value of a field of type [t] at [blk], [off], whose bytes are [b] (as [fetch]). *)
Definition val_of (t : ctype) (blk : nat) (off : Z) (b : list byte) : value :=
  match t with
  | TInt sg sz => VInt (int_value sg sz b)
  | TFloat => VFloat (le_uint b)
  | TChar => VBytes b
  | TArr TChar _ => VBytes (until_nul b)
  | TArr _ _ | TStruct _ _ _ => VView t blk off
  end.

Definition read_val (w : world) (t : ctype) (blk : nat) (off : Z) : option value :=
  match mem w blk with
  | Some m => Some (val_of t blk off (sub_bytes off (sizeof t) m))
  | None => None
  end.

(** ctypes attribute access on an instance of type [t] at [blk], [off]. *)
Definition view_field (w : world) (t : ctype) (blk : nat) (off : Z) (a : string) : option value :=
  match field_at t a with
  | Some (fo, ft) => read_val w ft blk (off + fo)
  | None => None
  end.

(** ** Class attributes (tables S_*.v) *)

Definition fields_val (t : ctype) : value :=
  VTuple (map (fun f => VTuple [VStr (fst f); VCType (snd f)]) (struct_fields t)).

Definition class_attr (t : ctype) (a : string) : option value :=
  match t with
  | TStruct _ _ lims =>
      if String.eqb a "_fields_" then Some (fields_val t)
      else if String.eqb a "fields_limiters" then
        match lims with
        | [] => None
        | _ => Some (VMap (map (fun f => (fst f, VStr (snd f))) lims))
        end
      else None
  | _ => None
  end.

(** structs/atop_*.py, class Header: supported_version, Record, SStat, TStat, CStat, CGChainer. *)
Definition hclass_attr (c : hclass) (a : string) : option value :=
  if String.eqb a "supported_version" then Some (VStr (hc_version c))
  else if String.eqb a "Record" then Some (VCType (hc_record c))
  else if String.eqb a "SStat" then Some (VCType (hc_sstat c))
  else if String.eqb a "TStat" then Some (VCType (hc_tstat c))
  else if String.eqb a "CStat" then
    Some (match hc_cstat c with Some t => VCType t | None => VNone end)
  else if String.eqb a "CGChainer" then
    Some (match hc_cstat c with Some _ => VClass "CGChainer" | None => VNone end)
  else class_attr (hc_header c) a.

(** structs/atop_2_11.py:655-658 *)
Definition chainer_fields : value :=
  VTuple [VTuple [VStr "cstat"; VCType a2_11_CStat];
          VTuple [VStr "proclist"; VClass "ctypes.Array[pid_t]"]].

(** The struct modules. *)
Definition struct_modules : list (string * hclass) :=
  [("atoparser.structs.atop_1_26", a1_26_class); ("atoparser.structs.atop_2_3", a2_3_class);
   ("atoparser.structs.atop_2_4", a2_4_class); ("atoparser.structs.atop_2_5", a2_5_class);
   ("atoparser.structs.atop_2_6", a2_6_class); ("atoparser.structs.atop_2_7", a2_7_class);
   ("atoparser.structs.atop_2_8", a2_8_class); ("atoparser.structs.atop_2_9", a2_9_class);
   ("atoparser.structs.atop_2_10", a2_10_class); ("atoparser.structs.atop_2_11", a2_11_class);
   ("atoparser.structs.atop_2_12", a2_12_class)].

Definition struct_module_attr (m : string) (c : hclass) (a : string) : option value :=
  if String.eqb a "Header" then Some (VHClass c)
  else if String.eqb a "Record" then Some (VCType (hc_record c))
  else if String.eqb m "atoparser.structs.atop_1_26" then
    if String.eqb a "PATCHSTAT" then Some (VInt a1_26_PATCHSTAT)
    else if String.eqb a "IOSTAT" then Some (VInt a1_26_IOSTAT)
    else None
  else None.

(** The attributes of the library modules that the code uses. *)
Definition library_attr (m a : string) : option value :=
  match find (fun x => String.eqb m (fst (fst x)) && String.eqb a (snd (fst x)))
    [(("ctypes", "sizeof"), VBuiltin "ctypes.sizeof");
     (("ctypes", "Structure"), VClass "ctypes.Structure");
     (("ctypes", "Array"), VClass "ctypes.Array");
     (("ctypes", "c_int"), VCType (TInt true 4));
     (("ctypes", "c_long"), VCType (TInt true 8));
     (("ctypes", "c_longlong"), VCType (TInt true 8));
     (("zlib", "decompress"), VBuiltin "zlib.decompress");
     (("zlib", "error"), VClass "zlib.error");
     (("gzip", "open"), VBuiltin "gzip.open");
     (("json", "dumps"), VBuiltin "json.dumps")] with
  | Some x => Some (snd x)
  | None => None
  end.

Definition builtin_names : list string :=
  ["range"; "enumerate"; "hex"; "any"; "getattr"; "isinstance"; "print"; "open"].
Definition builtin_classes : list string := ["int"; "bytes"; "ValueError"].

Definition builtin_value (x : string) : option value :=
  if existsb (String.eqb x) builtin_names then Some (VBuiltin x)
  else if existsb (String.eqb x) builtin_classes then Some (VClass x)
  else None.

(** ** Pure operations *)

Definition cps (v : value) : option (list Z) :=
  match v with VStr s => Some (text s) | VText l => Some l | _ => None end.

Definition str_cat (a b : value) : option value :=
  match a, b with
  | VStr x, VStr y => Some (VStr (x ++ y))
  | _, _ => match cps a, cps b with Some x, Some y => Some (VText (x ++ y)) | _, _ => None end
  end.

Fixpoint join_comma (l : list (list Z)) : list Z :=
  match l with
  | [] => []
  | [x] => x
  | x :: r => x ++ text ", " ++ join_comma r
  end.

(** A character that [repr] of a string shows as it is, within single quotes. *)
Definition plain_char (c : Ascii.ascii) : bool :=
  let n := Ascii.nat_of_ascii c in
  Nat.leb 32 n && Nat.ltb n 127 && negb (Nat.eqb n 39) && negb (Nat.eqb n 92).
Fixpoint plain_string (s : string) : bool :=
  match s with EmptyString => true | String c r => plain_char c && plain_string r end.

Fixpoint omap {A B} (f : A -> option B) (l : list A) : option (list B) :=
  match l with
  | [] => Some []
  | x :: r => match f x, omap f r with Some y, Some ys => Some (y :: ys) | _, _ => None end
  end.

(** [repr(v)]: integers, plain strings, tuples and lists of those. *)
Fixpoint repr_val (fuel : nat) (w : world) (v : value) : option (list Z) :=
  match fuel with
  | O => None
  | S k =>
      match v with
      | VInt z => Some (text (str_of_int z))
      | VStr s => if plain_string s then Some (text "'" ++ text s ++ text "'") else None
      | VTuple [] => Some (text "()")
      | VTuple [a] => match repr_val k w a with Some t => Some (text "(" ++ t ++ text ",)") | None => None end
      | VTuple l => match omap (repr_val k w) l with
                    | Some ts => Some (text "(" ++ join_comma ts ++ text ")")
                    | None => None
                    end
      | VList id => match cell_at w id with
                    | Some (CList l) => match omap (repr_val k w) l with
                                        | Some ts => Some (text "[" ++ join_comma ts ++ text "]")
                                        | None => None
                                        end
                    | _ => None
                    end
      | _ => None
      end
  end.

(** [f"{v}"] *)
Definition format_val (w : world) (v : value) : option value :=
  match v with
  | VStr _ | VText _ => Some v
  | VInt z => Some (VStr (str_of_int z))
  | VList _ => match repr_val 10 w v with Some t => Some (VText t) | None => None end
  | _ => None
  end.

(** [f"{v:spec}"] *)
Definition format_spec (v : value) (spec : string) : option value :=
  match v with
  | VDouble x => if String.eqb spec ".02%" then option_map VText (percent_2 x) else None
  | _ => None
  end.

Definition truthy (w : world) (v : value) : option bool :=
  match v with
  | VNone => Some false
  | VBool b => Some b
  | VInt z => Some (negb (z =? 0))
  | VStr s => Some (negb (String.eqb s ""))
  | VText l => Some (match l with [] => false | _ => true end)
  | VBytes l => Some (match l with [] => false | _ => true end)
  | VTuple l => Some (match l with [] => false | _ => true end)
  | VList id => match cell_at w id with
                | Some (CList l) => Some (match l with [] => false | _ => true end)
                | _ => None
                end
  | _ => None
  end.

(** [a == b] on integers and strings *)
Definition equal_val (a b : value) : option bool :=
  match a, b with
  | VInt x, VInt y => Some (x =? y)
  | VStr x, VStr y => Some (String.eqb x y)
  | _, _ => match cps a, cps b with
            | Some x, Some y => Some (if list_eq_dec Z.eq_dec x y then true else false)
            | _, _ => None
            end
  end.

(** [a in b]: substring, or key of a dictionary *)
Definition member (w : world) (a b : value) : option bool :=
  match a, b with
  | VStr x, VStr y => Some (str_contains x y)
  | VStr k, VMap d => Some (match assoc k d with Some _ => true | None => false end)
  | VStr k, VDict id => match cell_at w id with
                        | Some (CDict d) => Some (match assoc k d with Some _ => true | None => false end)
                        | _ => None
                        end
  | _, _ => match cps a, cps b with Some x, Some y => Some (contains x y) | _, _ => None end
  end.

Definition is_none (v : value) : bool := match v with VNone => true | _ => false end.

Definition compare_val (w : world) (op : cmpop) (a b : value) : option bool :=
  match op with
  | OpEq => equal_val a b
  | OpNe => option_map negb (equal_val a b)
  | OpLt => match a, b with VInt x, VInt y => Some (x <? y) | _, _ => None end
  | OpLe => match a, b with VInt x, VInt y => Some (x <=? y) | _, _ => None end
  | OpGt => match a, b with VInt x, VInt y => Some (y <? x) | _, _ => None end
  | OpGe => match a, b with VInt x, VInt y => Some (y <=? x) | _, _ => None end
  | OpIn => member w a b
  | OpNotIn => option_map negb (member w a b)
  | OpIs => match b with VNone => Some (is_none a) | _ => None end
  | OpIsNot => match b with VNone => Some (negb (is_none a)) | _ => None end
  end.

Definition ok_or_stuck (o : option value) (w : world) : er value :=
  match o with Some v => EOk v w | None => EErr XStuck w end.

Definition zero_division : exc := XUser "ZeroDivisionError" (text "division by zero").

(** Binary operators; [ctypes_class * n] is an array class (negative [n]: ValueError). *)
Definition bin_val (op : binop) (a b : value) (w : world) : er value :=
  match op, a, b with
  | OpAdd, VInt x, VInt y => EOk (VInt (x + y)) w
  | OpSub, VInt x, VInt y => EOk (VInt (x - y)) w
  | OpMul, VInt x, VInt y => EOk (VInt (x * y)) w
  | OpDiv, VInt x, VInt y =>
      if y =? 0 then EErr zero_division w else ok_or_stuck (option_map VDouble (int_div x y)) w
  | OpSub, VInt x, VDouble y => ok_or_stuck (option_map VDouble (int_sub x y)) w
  | OpBitAnd, VInt x, VInt y => EOk (VInt (Z.land x y)) w
  | OpBitOr, VInt x, VInt y => EOk (VInt (Z.lor x y)) w
  | OpRShift, VInt x, VInt y => if 0 <=? y then EOk (VInt (Z.shiftr x y)) w else EErr XStuck w
  | OpLShift, VInt x, VInt y => if 0 <=? y then EOk (VInt (Z.shiftl x y)) w else EErr XStuck w
  | OpMul, VCType t, VInt n =>
      if n <? 0 then EErr (XB (ValueError NegativeArrayLength)) w else EOk (VCType (TArr t n)) w
  | _, _, _ => EErr XStuck w
  end.

(** [l[i]] in a Python list or tuple *)
Definition index_list (l : list value) (i : Z) : option value :=
  let j := if i <? 0 then i + zlen l else i in
  if j <? 0 then None else nth_error l (Z.to_nat j).

Definition sub_val (v i : value) (w : world) : er value :=
  match v, i with
  | VTuple l, VInt n => ok_or_stuck (index_list l n) w
  | VList id, VInt n => match cell_at w id with
                        | Some (CList l) => ok_or_stuck (index_list l n) w
                        | _ => EErr XStuck w
                        end
  | VDict id, VStr k => match cell_at w id with
                        | Some (CDict d) => match assoc k d with
                                            | Some x => EOk x w
                                            | None => EErr (XB (KeyError k)) w
                                            end
                        | _ => EErr XStuck w
                        end
  | _, _ => EErr XStuck w
  end.

(** ** Iteration: a list of accesses, each made in the world of its turn. *)

Definition access := world -> option value.

Fixpoint array_accesses (n : nat) (e : ctype) (blk : nat) (off : Z) : list access :=
  match n with
  | O => []
  | S k => (fun w => read_val w e blk off) :: array_accesses k e blk (off + sizeof e)
  end.

Fixpoint range_accesses (n : nat) (i : Z) : list access :=
  match n with O => [] | S k => (fun _ => Some (VInt i)) :: range_accesses k (i + 1) end.

Fixpoint enum_accesses (i : Z) (l : list access) : list access :=
  match l with
  | [] => []
  | a :: r => (fun w => match a w with Some v => Some (VTuple [VInt i; v]) | None => None end)
              :: enum_accesses (i + 1) r
  end.

Definition simple_accesses (w : world) (v : value) : option (list access) :=
  match v with
  | VTuple l => Some (map (fun x => fun _ => Some x) l)
  | VRange n => Some (range_accesses (Z.to_nat n) 0)
  | VList id => match cell_at w id with
                | Some (CList l) => Some (map (fun x => fun _ => Some x) l)
                | _ => None
                end
  | VView (TArr e n) blk off => Some (array_accesses (Z.to_nat n) e blk off)
  | _ => None
  end.

Definition accesses (w : world) (v : value) : option (list access) :=
  match v with
  | VEnum x => option_map (enum_accesses 0) (simple_accesses w x)
  | _ => simple_accesses w v
  end.

Fixpoint force_all (w : world) (l : list access) : option (list value) :=
  match l with
  | [] => Some []
  | a :: r => match a w, force_all w r with Some v, Some vs => Some (v :: vs) | _, _ => None end
  end.

(** [v[lo:hi]]; slicing a ctypes array or a list makes a list. *)
Definition slice_val (v : value) (lo hi : option Z) (w : world) : er value :=
  let cut A (l : list A) : list A :=
    pyslice (match lo with Some a => a | None => 0 end)
            (match hi with Some b => b | None => zlen l end) l in
  match v with
  | VBytes b => EOk (VBytes (cut byte b)) w
  | VList _ | VView (TArr _ _) _ _ =>
      match simple_accesses w v with
      | Some acc => match force_all w acc with
                    | Some vs => let (id, w') := alloc (CList (cut value vs)) w in EOk (VList id) w'
                    | None => EErr XStuck w
                    end
      | None => EErr XStuck w
      end
  | _ => EErr XStuck w
  end.

(** [isinstance(v, c)] *)
Definition isinstance_val (v c : value) : option bool :=
  match c with
  | VClass "ctypes.Structure" =>
      Some (match v with VView (TStruct _ _ _) _ _ | VHdr _ => true | _ => false end)
  | VClass "ctypes.Array" => Some (match v with VView (TArr _ _) _ _ => true | _ => false end)
  | VClass "bytes" => Some (match v with VBytes _ => true | _ => false end)
  | VCType t => match v with
                | VView (TStruct n fs l) _ _ => Some (String.eqb (struct_name (TStruct n fs l)) (struct_name t))
                | _ => None
                end
  | _ => None
  end.

(** The JSON value that json.dumps finds; nesting deeper than [fuel] is not given a meaning. *)
Fixpoint to_json (fuel : nat) (w : world) (v : value) : option json :=
  match fuel with
  | O => None
  | S k =>
      match v with
      | VInt z => Some (JInt z)
      | VFloat b => Some (JFloat b)
      | VStr s => Some (JStr (text s))
      | VText l => Some (JStr l)
      | VBytes _ | VView _ _ _ | VHdr _ => Some JRaw
      | VList id => match cell_at w id with
                    | Some (CList l) => option_map JList (omap (to_json k w) l)
                    | _ => None
                    end
      | VDict id => match cell_at w id with
                    | Some (CDict d) =>
                        option_map JDict (omap (fun e => option_map (pair (fst e)) (to_json k w (snd e))) d)
                    | _ => None
                    end
      | _ => None
      end
  end.
Definition json_depth : nat := 100.

(** The memory of a writable buffer: block and size. *)
Definition buffer_of (w : world) (v : value) : option (nat * Z) :=
  match v with
  | VView t blk 0 => Some (blk, sizeof t)
  | VHdr id => match cell_at w id with Some (CHdr c blk _) => Some (blk, sizeof (hc_header c)) | _ => None end
  | _ => None
  end.

Definition exc_is (x : exc) (cls : value) : option bool :=
  match x, cls with
  | XStuck, _ => Some false
  | XB ZlibError, VClass "zlib.error" => Some true
  | _, VClass "zlib.error" => Some false
  | _, _ => None
  end.

(** ** The interpreter *)

(** Interpreted functions are reached through [fns], which [call_n] below ties to the program. *)
Record fns := mkFns {
  f_call : string -> string -> list value -> list (string * value) -> world -> er value;
  f_gen : string -> string -> env -> world -> tree }.

Section Interp.
Variable dec : list byte -> option (list byte).
Variable disk : list Z -> res (list byte).
Variable salvage : list byte -> list byte.
Variable fault : list byte -> exn.
Variable float_repr : Z -> list Z.
(** What reader.parse_args() returns: the attributes of the namespace. *)
Variable argv : env.
(** The global names of a module. *)
Variable globals : string -> string -> option value.

Definition module_attr (m a : string) : option value :=
  match library_attr m a with
  | Some v => Some v
  | None => globals m a
  end.

Definition is_property (a : string) : bool :=
  existsb (String.eqb a) ["major_version"; "minor_version"; "semantic_version"].

Definition attr_error {A} (a : string) (w : world) : er A := EErr (XB (AttributeError a)) w.

(** The methods of built-in types that the code uses. *)
Definition methods (v : value) : list string :=
  match v with
  | VList _ => ["append"]
  | VDict _ | VMap _ => ["get"]
  | VBytes _ => ["decode"]
  | VStr _ => ["split"]
  | VFile => ["read"; "readinto"]
  | VHClass _ => ["from_buffer"; "from_buffer_copy"]
  | VCType _ => ["from_buffer_copy"]
  | VClass "int" => ["from_bytes"]
  | _ => []
  end.
Definition method (v : value) (a : string) (w : world) : er value :=
  if existsb (String.eqb a) (methods v) then EOk (VBound v a) w else EErr XStuck w.

Section WithFns.
Variable F : fns.

(** [v.a]: data descriptors (fields, properties), then instance attributes, then class
    attributes. *)
Definition get_attr (v : value) (a : string) (w : world) : er value :=
  match v with
  | VView t blk off =>
      match view_field w t blk off a with
      | Some x => EOk x w
      | None => match class_attr t a with Some x => EOk x w | None => attr_error a w end
      end
  | VHdr id =>
      match cell_at w id with
      | Some (CHdr c blk attrs) =>
          match view_field w (hc_header c) blk 0 a with
          | Some x => EOk x w
          | None =>
              if is_property a then
                f_call F "atoparser.structs.shared" ("HeaderMixin." ++ a) [v] [] w
              else match assoc a attrs with
                   | Some x => EOk x w
                   | None =>
                       if String.eqb a "__class__" then EOk (VHClass c) w
                       else if String.eqb a "check_compatibility" then EOk (VBound v a) w
                       else match hclass_attr c a with
                            | Some x => EOk x w
                            | None => attr_error a w
                            end
                   end
          end
      | _ => EErr XStuck w
      end
  | VObj id =>
      match cell_at w id with
      | Some (CObj attrs) =>
          match assoc a attrs with
          | Some x => EOk x w
          | None => if String.eqb a "_fields_" then EOk chainer_fields w else attr_error a w
          end
      | _ => EErr XStuck w
      end
  | VHClass c =>
      match hclass_attr c a with Some x => EOk x w | None => method v a w end
  | VNone => attr_error a w
  | VModule m =>
      match assoc m struct_modules with
      | Some c => ok_or_stuck (struct_module_attr m c a) w
      | None => ok_or_stuck (module_attr m a) w
      end
  | _ => method v a w
  end.

(** Fresh zero-filled instances. *)
Definition new_view (t : ctype) (b : list byte) (w : world) : er value :=
  let (blk, w') := alloc (CMem b) w in EOk (VView t blk 0) w'.
Definition new_header (c : hclass) (blk : nat) (w : world) : er value :=
  let (id, w') := alloc (CHdr c blk []) w in EOk (VHdr id) w'.

(** [raw_file.readinto(v)]: the bytes read replace the leading bytes of the memory. *)
Definition readinto (v : value) (w : world) : er value :=
  match buffer_of w v with
  | Some (blk, n) =>
      match mem w blk with
      | Some old =>
          match fread n (w_file w) with
          | (Ok b, f') => EOk (VInt (zlen b)) (upd blk (CMem (b ++ zdrop (zlen b) old)) (set_file f' w))
          | (Raise e, f') => EErr (XB e) (set_file f' w)
          end
      | None => EErr XStuck w
      end
  | None => EErr XStuck w
  end.

Definition open_builtin (gz : bool) (args : list value) (w : world) : er value :=
  match args with
  | [p; VStr "rb"] =>
      match cps p with
      | Some path =>
          let w' := emit (Opened path) w in
          match disk path with
          | Ok b => EOk VFile (set_file (if gz then gzip_file salvage fault b else plain b) w')
          | Raise e => EErr (XB e) w'
          end
      | None => EErr XStuck w
      end
  | _ => EErr XStuck w
  end.

(** Methods of built-in objects. *)
Definition call_method (recv : value) (m : string) (args : list value) (kws : list (string * value))
           (w : world) : er value :=
  match recv, m, args, kws with
  | VFile, "read", [VInt n], [] =>
      if n <? 0 then EErr XStuck w else
      match fread n (w_file w) with
      | (Ok b, f') => EOk (VBytes b) (set_file f' w)
      | (Raise e, f') => EErr (XB e) (set_file f' w)
      end
  | VFile, "readinto", [v], [] => readinto v w
  | VCType t, "from_buffer_copy", [VBytes b], [] =>
      match from_buffer_copy t b with
      | Ok o => new_view t (o_buf o) w
      | Raise e => EErr (XB e) w
      end
  | VHClass c, "from_buffer", [VHdr id], [] =>
      match cell_at w id with
      | Some (CHdr _ blk _) =>
          match mem w blk with
          | Some b => if zlen b <? sizeof (hc_header c) then EErr (XB (ValueError BufferTooSmall)) w
                      else new_header c blk w
          | None => EErr XStuck w
          end
      | _ => EErr XStuck w
      end
  | VHdr id, "check_compatibility", [], [] =>
      f_call F "atoparser.structs.shared" "HeaderMixin.check_compatibility" [recv] [] w
  | VList id, "append", [v], [] =>
      match cell_at w id with
      | Some (CList l) => EOk VNone (upd id (CList (l ++ [v])) w)
      | _ => EErr XStuck w
      end
  | VDict id, "get", [VStr k], [] =>
      match cell_at w id with
      | Some (CDict d) => EOk (match assoc k d with Some x => x | None => VNone end) w
      | _ => EErr XStuck w
      end
  | VDict id, "get", [VStr k; dflt], [] =>
      match cell_at w id with
      | Some (CDict d) => EOk (match assoc k d with Some x => x | None => dflt end) w
      | _ => EErr XStuck w
      end
  | VMap d, "get", [VStr k], [] => EOk (match assoc k d with Some x => x | None => VNone end) w
  | VBytes b, "decode", [], [] =>
      match decode_strict b with Ok l => EOk (VText l) w | Raise e => EErr (XB e) w end
  | VBytes b, "decode", [], [("errors", VStr "ignore")] => EOk (VText (decode_ignore b)) w
  | VStr s, "split", [VStr "."], [] =>
      let (id, w') := alloc (CList (map VStr (split_dot s))) w in EOk (VList id) w'
  | VClass "int", "from_bytes", [VBytes b], [("byteorder", VStr "big")] => EOk (VInt (be_uint b)) w
  | _, _, _, _ => EErr XStuck w
  end.

(** [getattr(v, a, dflt)]: only AttributeError is replaced by the default. *)
Definition getattr_default (v : value) (a : string) (dflt : value) (w : world) : er value :=
  match get_attr v a w with
  | EErr (XB (AttributeError _)) w' => EOk dflt w'
  | r => r
  end.

Definition indent_of (kws : list (string * value)) : option bool :=
  match kws with
  | [("indent", VInt 2)] => Some true
  | [("indent", VNone)] => Some false
  | _ => None
  end.

Definition call_builtin (b : string) (args : list value) (kws : list (string * value)) (w : world)
  : er value :=
  match b, args, kws with
  | "range", [VInt n], [] => EOk (VRange n) w
  | "enumerate", [v], [] => EOk (VEnum v) w
  | "hex", [VInt n], [] => if n <? 0 then EErr XStuck w else EOk (VText (py_hex n)) w
  | "getattr", [v; VStr a], [] => get_attr v a w
  | "getattr", [v; VStr a; d], [] => getattr_default v a d w
  | "isinstance", [v; c], [] => ok_or_stuck (option_map VBool (isinstance_val v c)) w
  | "ctypes.sizeof", [VCType t], [] => EOk (VInt (sizeof t)) w
  | "ctypes.sizeof", [VHClass c], [] => EOk (VInt (sizeof (hc_header c))) w
  | "ctypes.sizeof", [VNone], [] => EErr (XB TypeError) w
  | "zlib.decompress", [VBytes b], [] =>
      match dec b with Some x => EOk (VBytes x) w | None => EErr (XB ZlibError) w end
  | "open", _, [] => open_builtin false args w
  | "gzip.open", _, [] => open_builtin true args w
  | "json.dumps", [v], _ =>
      match indent_of kws, to_json json_depth w v with
      | Some p, Some j => match dumps float_repr p 0 j with
                          | Some t => EOk (VText t) w
                          | None => EErr (XB TypeError) w
                          end
      | _, _ => EErr XStuck w
      end
  | "print", [v], [] => match cps v with Some t => EOk VNone (emit (Printed t) w) | None => EErr XStuck w end
  | _, _, _ => EErr XStuck w
  end.

(** [f(args, kws)] *)
Definition call_value (f : value) (args : list value) (kws : list (string * value)) (w : world)
  : er value :=
  match f with
  | VFun m name => f_call F m name args kws w
  | VBuiltin b => call_builtin b args kws w
  | VBound recv m => call_method recv m args kws w
  | VCType t => match args, kws with
                | [], [] => new_view t (zeros (sizeof t)) w
                | _, _ => EErr XStuck w
                end
  | VHClass c => match args, kws with
                 | [], [] => let (blk, w') := alloc (CMem (zeros (sizeof (hc_header c)))) w in
                             new_header c blk w'
                 | _, _ => EErr XStuck w
                 end
  | VClass "CGChainer" =>
      let (id, w') := alloc (CObj []) w in
      ebind (f_call F "atoparser.structs.atop_2_11" "CGChainer.__init__" (VObj id :: args) kws w')
            (fun _ w'' => EOk (VObj id) w'')
  | VClass "int" => match args, kws with
                    | [VStr s], [] => match int_of_str s with
                                      | Ok z => EOk (VInt z) w
                                      | Raise e => EErr (XB e) w
                                      end
                    | _, _ => EErr XStuck w
                    end
  | VClass "ValueError" => match args, kws with
                           | [v], [] => match cps v with
                                        | Some t => EOk (VExc "ValueError" t) w
                                        | None => EErr XStuck w
                                        end
                           | _, _ => EErr XStuck w
                           end
  | _ => EErr XStuck w
  end.

Variable md : string.

(** A name: local, global, built-in. *)
Definition global_name (x : string) : option value :=
  match globals md x with
  | Some v => Some v
  | None => builtin_value x
  end.
Definition name_value (l : env) (x : string) : option value :=
  match assoc x l with Some v => Some v | None => global_name x end.

Definition slice_bound (v : value) : option Z := match v with VInt z => Some z | _ => None end.

Section Lists.
(** Evaluation of lists of expressions, left to right. *)
Variable ev : expr -> env -> world -> er value.

Definition eval_list := fix go (l : list expr) (e : env) (w : world) : er (list value) :=
  match l with
  | [] => EOk [] w
  | x :: r => ebind (ev x e w) (fun v w => ebind (go r e w) (fun vs w => EOk (v :: vs) w))
  end.

Definition eval_kws := fix go (l : list (string * expr)) (e : env) (w : world)
  : er (list (string * value)) :=
  match l with
  | [] => EOk [] w
  | (k, x) :: r => ebind (ev x e w) (fun v w => ebind (go r e w) (fun vs w => EOk ((k, v) :: vs) w))
  end.

(** A dictionary display: the key, then the value, entry by entry. *)
Definition eval_dict := fix go (l : list (expr * expr)) (acc : env) (e : env) (w : world) : er env :=
  match l with
  | [] => EOk acc w
  | (kx, vx) :: r =>
      ebind (ev kx e w) (fun k w =>
      ebind (ev vx e w) (fun v w =>
      match k with VStr s => go r (dict_set acc s v) e w | _ => EErr XStuck w end))
  end.

Definition eval_fstr := fix go (l : list expr) (acc : value) (e : env) (w : world) : er value :=
  match l with
  | [] => EOk acc w
  | x :: r =>
      ebind (ev x e w) (fun v w =>
      match format_val w v with
      | Some t => match str_cat acc t with Some a => go r a e w | None => EErr XStuck w end
      | None => EErr XStuck w
      end)
  end.

(** Comprehensions: [x] is bound in a scope of its own. *)
Definition eval_comp (elt : expr) (x : string) := fix go (acc : list access) (e : env) (w : world)
  : er (list value) :=
  match acc with
  | [] => EOk [] w
  | a :: r =>
      match a w with
      | Some v => ebind (ev elt ((x, v) :: e) w) (fun y w =>
                  ebind (go r e w) (fun ys w => EOk (y :: ys) w))
      | None => EErr XStuck w
      end
  end.

Definition eval_dcomp (k v : expr) (x : string) := fix go (acc : list access) (d : env) (e : env) (w : world)
  : er env :=
  match acc with
  | [] => EOk d w
  | a :: r =>
      match a w with
      | Some it => ebind (ev k ((x, it) :: e) w) (fun kv w =>
                   ebind (ev v ((x, it) :: e) w) (fun vv w =>
                   match kv with VStr s => go r (dict_set d s vv) e w | _ => EErr XStuck w end))
      | None => EErr XStuck w
      end
  end.

(** [any(elt for x in ...)]: stops at the first true element. *)
Definition eval_any (elt : expr) (x : string) := fix go (acc : list access) (e : env) (w : world)
  : er value :=
  match acc with
  | [] => EOk (VBool false) w
  | a :: r =>
      match a w with
      | Some v => ebind (ev elt ((x, v) :: e) w) (fun y w =>
                  match truthy w y with
                  | Some true => EOk (VBool true) w
                  | Some false => go r e w
                  | None => EErr XStuck w
                  end)
      | None => EErr XStuck w
      end
  end.
End Lists.

Definition iterate {A} (v : value) (w : world) (k : list access -> er A) : er A :=
  match accesses w v with Some acc => k acc | None => EErr XStuck w end.

Fixpoint eval (x : expr) (e : env) (w : world) {struct x} : er value :=
  match x with
  | EName n => ok_or_stuck (name_value e n) w
  | EInt z => EOk (VInt z) w
  | EStr s => EOk (VStr s) w
  | ENone => EOk VNone w
  | EBool b => EOk (VBool b) w
  | EAttr x a => ebind (eval x e w) (fun v w => get_attr v a w)
  | ECall f args kws =>
      match f, args with
      | EName "any", [EGenExp elt y it] =>
          ebind (eval it e w) (fun v w => iterate v w (fun acc => eval_any eval elt y acc e w))
      | _, _ =>
          ebind (eval f e w) (fun fv w =>
          ebind (eval_list eval args e w) (fun vs w =>
          ebind (eval_kws eval kws e w) (fun ks w => call_value fv vs ks w)))
      end
  | ESub x i => ebind (eval x e w) (fun v w => ebind (eval i e w) (fun iv w => sub_val v iv w))
  | ESlice x lo hi =>
      let bound (o : option expr) (w : world) : er (option Z) :=
        match o with
        | None => EOk None w
        | Some b => ebind (eval b e w) (fun v w =>
                      match slice_bound v with Some z => EOk (Some z) w | None => EErr XStuck w end)
        end in
      ebind (eval x e w) (fun v w =>
      ebind (bound lo w) (fun a w =>
      ebind (bound hi w) (fun b w => slice_val v a b w)))
  | ECmp op a b =>
      ebind (eval a e w) (fun va w => ebind (eval b e w) (fun vb w =>
        ok_or_stuck (option_map VBool (compare_val w op va vb)) w))
  | EAnd a b =>
      ebind (eval a e w) (fun v w =>
        match truthy w v with
        | Some true => eval b e w
        | Some false => EOk v w
        | None => EErr XStuck w
        end)
  | EOr a b =>
      ebind (eval a e w) (fun v w =>
        match truthy w v with
        | Some true => EOk v w
        | Some false => eval b e w
        | None => EErr XStuck w
        end)
  | ENot a =>
      ebind (eval a e w) (fun v w =>
        match truthy w v with Some b => EOk (VBool (negb b)) w | None => EErr XStuck w end)
  | ENeg a =>
      ebind (eval a e w) (fun v w => match v with VInt z => EOk (VInt (- z)) w | _ => EErr XStuck w end)
  | EBin op a b =>
      ebind (eval a e w) (fun va w => ebind (eval b e w) (fun vb w => bin_val op va vb w))
  | EIf c a b =>
      ebind (eval c e w) (fun v w =>
        match truthy w v with
        | Some true => eval a e w
        | Some false => eval b e w
        | None => EErr XStuck w
        end)
  | EList l => ebind (eval_list eval l e w) (fun vs w =>
                 let (id, w') := alloc (CList vs) w in EOk (VList id) w')
  | ETuple l => ebind (eval_list eval l e w) (fun vs w => EOk (VTuple vs) w)
  | EDict l => ebind (eval_dict eval l [] e w) (fun d w =>
                 let (id, w') := alloc (CDict d) w in EOk (VDict id) w')
  | EFStr l => eval_fstr eval l (VStr "") e w
  | EFormat x spec => ebind (eval x e w) (fun v w => ok_or_stuck (format_spec v spec) w)
  | EListComp elt y it =>
      ebind (eval it e w) (fun v w => iterate v w (fun acc =>
        ebind (eval_comp eval elt y acc e w) (fun vs w =>
          let (id, w') := alloc (CList vs) w in EOk (VList id) w')))
  | EGenExp _ _ _ => EErr XStuck w
  | EDictComp k v y it =>
      ebind (eval it e w) (fun iv w => iterate iv w (fun acc =>
        ebind (eval_dcomp eval k v y acc [] e w) (fun d w =>
          let (id, w') := alloc (CDict d) w in EOk (VDict id) w')))
  end.

(** ** Statements *)

Fixpoint bind_all (xs : list string) (vs : list value) (l : env) : option env :=
  match xs, vs with
  | [], [] => Some l
  | x :: xs, v :: vs => bind_all xs vs (dict_set l x v)
  | _, _ => None
  end.

(** Unpacking; a list or tuple of another length is a ValueError in Python (not modelled). *)
Definition unpack (w : world) (v : value) : option (list value) :=
  match v with
  | VTuple l => Some l
  | VList id => match cell_at w id with Some (CList l) => Some l | _ => None end
  | _ => None
  end.

(** [o.a = v] *)
Definition set_attr (o : value) (a : string) (v : value) (w : world) : option world :=
  match o with
  | VHdr id => match cell_at w id with
               | Some (CHdr c blk attrs) =>
                   match field_at (hc_header c) a with
                   | None => Some (upd id (CHdr c blk (dict_set attrs a v)) w)
                   | Some _ => None
                   end
               | _ => None
               end
  | VObj id => match cell_at w id with
               | Some (CObj attrs) => Some (upd id (CObj (dict_set attrs a v)) w)
               | _ => None
               end
  | _ => None
  end.

(** [d[k] = v] *)
Definition set_sub (d k v : value) (w : world) : option world :=
  match d, k with
  | VDict id, VStr s => match cell_at w id with
                        | Some (CDict m) => Some (upd id (CDict (dict_set m s v)) w)
                        | _ => None
                        end
  | _, _ => None
  end.

Definition tfail (x : exc) (l : env) (w : world) : tree := TDone (OExc x) l w.

(** Continue a statement with the value of an expression. *)
Definition with_val {A} (r : er A) (l : env) (k : A -> world -> tree) : tree :=
  match r with EOk v w => k v w | EErr x w => tfail x l w end.

Definition assign (t : target) (v : value) (l : env) (w : world) : tree :=
  match t with
  | TgName x => TDone ONext (dict_set l x v) w
  | TgTuple xs =>
      match unpack w v with
      | Some vs => match bind_all xs vs l with
                   | Some l' => TDone ONext l' w
                   | None => tfail XStuck l w
                   end
      | None => tfail XStuck l w
      end
  | TgAttr o a =>
      with_val (eval o l w) l (fun ov w =>
        match set_attr ov a v w with Some w' => TDone ONext l w' | None => tfail XStuck l w end)
  | TgSub d k =>
      with_val (eval d l w) l (fun dv w => with_val (eval k l w) l (fun kv w =>
        match set_sub dv kv v w with Some w' => TDone ONext l w' | None => tfail XStuck l w end))
  end.

Definition exec_block (ex : stmt -> env -> world -> tree) :=
  fix go (b : list stmt) (l : env) (w : world) : tree :=
    match b with
    | [] => TDone ONext l w
    | s :: r => tseq (ex s l w) (fun o l w =>
                  match o with ONext => go r l w | _ => TDone o l w end)
    end.

(** A [for] loop over accesses. *)
Definition exec_for (t : target) (body : env -> world -> tree) :=
  fix go (acc : list access) (l : env) (w : world) : tree :=
    match acc with
    | [] => TDone ONext l w
    | a :: r =>
        match a w with
        | Some v =>
            tseq (assign t v l w) (fun o l w =>
              match o with
              | ONext => tseq (body l w) (fun o l w =>
                  match o with
                  | ONext => go r l w
                  | OBreak => TDone ONext l w
                  | _ => TDone o l w
                  end)
              | _ => TDone o l w
              end)
        | None => tfail XStuck l w
        end
    end.

(** [cur]: the exception being handled, for a bare [raise]. *)
Fixpoint exec (cur : option exc) (s : stmt) (l : env) (w : world) {struct s} : tree :=
  match s with
  | SExpr e => with_val (eval e l w) l (fun _ w => TDone ONext l w)
  | SAssign t e => with_val (eval e l w) l (fun v w => assign t v l w)
  | SAug x op e =>
      match assoc x l with
      | Some a => with_val (eval e l w) l (fun b w =>
                    with_val (bin_val op a b w) l (fun v w => TDone ONext (dict_set l x v) w))
      | None => tfail XStuck l w
      end
  | SIf c th el =>
      with_val (eval c l w) l (fun v w =>
        match truthy w v with
        | Some true => exec_block (exec cur) th l w
        | Some false => exec_block (exec cur) el l w
        | None => tfail XStuck l w
        end)
  | SFor t it body =>
      with_val (eval it l w) l (fun v w =>
        match v with
        | VGen m name locals =>
            tfor (f_gen F m name locals w)
                 (fun v l w => tseq (assign t v l w) (fun o l w =>
                    match o with ONext => exec_block (exec cur) body l w | _ => TDone o l w end)) l
        | _ => match accesses w v with
               | Some acc => exec_for t (exec_block (exec cur) body) acc l w
               | None => tfail XStuck l w
               end
        end)
  | SReturn e => with_val (eval e l w) l (fun v w => TDone (ORet v) l w)
  | SRaise e =>
      with_val (eval e l w) l (fun v w =>
        match v with VExc c m => tfail (XUser c m) l w | _ => tfail XStuck l w end)
  | SReraise => match cur with Some x => tfail x l w | None => tfail XStuck l w end
  | STry body cls handler =>
      ttry (exec_block (exec cur) body l w) (fun x l w =>
        with_val (eval cls l w) l (fun c w =>
          match exc_is x c with
          | Some true => exec_block (exec (Some x)) handler l w
          | Some false => tfail x l w
          | None => tfail XStuck l w
          end))
  | SBreak => TDone OBreak l w
  | SPass => TDone ONext l w
  | SYield e =>
      with_val (eval e l w) l (fun v w =>
        TYield v w (fun r w => match r with None => TDone ONext l w | Some x => tfail x l w end))
  | SWith e x body =>
      with_val (eval e l w) l (fun v w =>
        match v with
        | VFile => exec_block (exec cur) body (dict_set l x v) w
        | _ => tfail XStuck l w
        end)
  end.

(** ** Functions *)

(** Defaults are constants or globals. *)
Definition default_value (e : expr) : option value :=
  match e with
  | ENone => Some VNone
  | EBool b => Some (VBool b)
  | EInt z => Some (VInt z)
  | EName x => global_name x
  | _ => None
  end.

Fixpoint bind_params (ps : list (string * option expr)) (args : list value)
         (kws : list (string * value)) : option env :=
  match ps, args with
  | [], [] => Some []
  | [], _ :: _ => None
  | (x, _) :: ps, v :: vs => option_map (cons (x, v)) (bind_params ps vs kws)
  | (x, d) :: ps, [] =>
      match assoc x kws with
      | Some v => option_map (cons (x, v)) (bind_params ps [] kws)
      | None => match d with
                | Some e => match default_value e with
                            | Some v => option_map (cons (x, v)) (bind_params ps [] kws)
                            | None => None
                            end
                | None => None
                end
      end
  end.

(** What a call returns when its body has run. *)
Definition finish (t : tree) : er value :=
  match t with
  | TDone (ORet v) _ w => EOk v w
  | TDone ONext _ w => EOk VNone w
  | TDone OBreak _ w => EErr XStuck w
  | TDone (OExc x) _ w => EErr x w
  | TYield _ w _ => EErr XStuck w
  end.

Definition run_body (fd : fundef) (l : env) (w : world) : tree :=
  exec_block (exec None) (fd_body fd) l w.
End WithFns.

Variable functions : string -> string -> option fundef.

(** The functions of the program, with [n] levels of calls. *)
Fixpoint call_n (n : nat) : fns :=
  match n with
  | O => mkFns (fun _ _ _ _ w => EErr XStuck w) (fun _ _ l w => tfail XStuck l w)
  | S k =>
      let F := call_n k in
      mkFns
        (fun m name args kws w =>
           if (String.eqb m "atoparser.reader" && String.eqb name "parse_args")%bool then
             (let (id, w') := alloc (CObj argv) w in EOk (VObj id) w')
           else
           match functions m name with
           | Some fd =>
               match bind_params m (fd_params fd) args kws with
               | Some l =>
                   if fd_gen fd then EOk (VGen m name l) w
                   else finish (run_body F m fd l w)
               | None => EErr XStuck w
               end
           | None => EErr XStuck w
           end)
        (fun m name l w =>
           match functions m name with
           | Some fd => run_body F m fd l w
           | None => tfail XStuck l w
           end)
  end.
End Interp.
