(** * Memory: which objects share bytes

    Model.v treats the objects returned by the library as values.  In Python they are objects with
    memory: [readinto] writes into the memory of an existing object, [from_buffer] makes a second
    object over the memory of a first, [from_buffer_copy] makes an object with memory of its own,
    attribute assignment changes the memory of one object, and the generator keeps the header
    object, not its contents.  This file models the same functions with memory blocks; PropHeap.v
    proves that callers cannot tell the difference. *)
From Coq Require Import List ZArith Lia Bool String.
From Coq Require Import Init.Byte.
From Verif Require Import PyBase CTypes S_shared Model.
Import ListNotations.
Open Scope list_scope.
Open Scope Z_scope.

(** Memory blocks; a block is named by its position and never freed. *)
Definition heap := list (list byte).

(** A ctypes object: its class and the block that holds its bytes. *)
Record ref := mkRef { r_type : ctype; r_block : nat }.
(** A header object. *)
Record href := mkHref { hr_class : hclass; hr_block : nat }.

Definition block_of (H : heap) (n : nat) : list byte := nth n H [].
(** What is seen when the attributes of an object are read now. *)
Definition deref (H : heap) (r : ref) : cobj := mkObj (r_type r) (ztake (sizeof (r_type r)) (block_of H (r_block r))).
Definition deref_header (H : heap) (r : href) : hobj :=
  mkHdr (hr_class r) (ztake (sizeof (hc_header (hr_class r))) (block_of H (hr_block r))).

(** A new block. *)
Definition alloc (b : list byte) (H : heap) : nat * heap := (List.length H, H ++ [b]).

(** Bytes [x] written at offset [off] of [b]. *)
Definition overwrite (off : Z) (x b : list byte) : list byte := ztake off b ++ x ++ zdrop (off + zlen x) b.
Fixpoint poke (n : nat) (off : Z) (x : list byte) (H : heap) : heap :=
  match H, n with
  | [], _ => []
  | b :: r, O => overwrite off x b :: r
  | b :: r, S k => b :: poke k off x r
  end.

(** Computations on memory and a file. *)
Definition HM (A : Type) := heap -> file -> res A * heap * file.
Definition hret {A} (a : A) : HM A := fun H f => (Ok a, H, f).
Definition hlift {A} (r : res A) : HM A := fun H f => (r, H, f).
Definition hbind {A B} (m : HM A) (k : A -> HM B) : HM B :=
  fun H f => match m H f with
             | (Ok a, H', f') => k a H' f'
             | (Raise e, H', f') => (Raise e, H', f')
             end.
Definition hread (n : Z) : HM (list byte) := fun H f => let (r, f') := fread n f in (r, H, f').

(** [T()] followed by [raw_file.readinto(obj)]: zeroed memory, then the bytes that were there. *)
Definition new_readinto (size : Z) : HM nat := fun H f =>
  let (n, H1) := alloc (zeros size) H in
  match fread size f with
  | (Ok b, f') => (Ok n, poke n 0 b H1, f')
  | (Raise e, f') => (Raise e, H1, f')
  end.

(** [T.from_buffer_copy(bytes)] *)
Definition from_buffer_copy_h (t : ctype) (b : list byte) : HM ref := fun H f =>
  if zlen b <? sizeof t then (Raise (ValueError BufferTooSmall), H, f)
  else let (n, H') := alloc (ztake (sizeof t) b) H in (Ok (mkRef t n), H', f).

(** utils.py:132-163 get_header: [from_buffer] keeps the block. *)
Definition get_header_h (check : bool) : HM href :=
  hbind (new_readinto (sizeof (hc_header default_class))) (fun n H f =>
  let r0 := mkHref default_class n in
  let h0 := deref_header H r0 in
  (let? magic := getint (h_obj h0) "magic" in
   if negb (magic =? MAGIC) then Raise (ValueError (BadMagic magic)) else
   let? v := semantic_version h0 in
   let? r :=
     if negb (String.eqb v default_version) then
       match assoc v header_by_version with
       | Some c =>
           if zlen (block_of H n) <? sizeof (hc_header c) then Raise (ValueError BufferTooSmall)
           else Ok (mkHref c n)
       | None => Ok r0
       end
     else Ok r0 in
   if check then let? _ := check_compatibility (deref_header H r) in Ok r else Ok r, H, f)).

(** utils.py:166-185 get_record *)
Definition get_record_h (r : href) : HM ref :=
  let t := hc_record (hr_class r) in
  hbind (new_readinto (sizeof t)) (fun n => hret (mkRef t n)).

(** Reading an integer attribute of an object now. *)
Definition attr (r : ref) (name : string) : HM Z := fun H f => (getint (deref H r) name, H, f).
Definition header_attr (r : href) (name : string) : HM Z := fun H f => (getint (h_obj (deref_header H r)) name, H, f).

Section Decompressor.
Variable dec : list byte -> option (list byte).

(** utils.py:188-210 get_sstat *)
Definition get_sstat_h (hr : href) (r : ref) : HM ref :=
  hbind (attr r "scomplen") (fun n =>
  hbind (hread n) (fun buffer =>
  hbind (hlift (zlib_decompress dec buffer)) (fun d =>
  from_buffer_copy_h (hc_sstat (hr_class hr)) d))).

(** utils.py:239-244 *)
Fixpoint tstat_loop_h (t : ctype) (tstatlen : Z) (d : list byte) (count : nat) (index : Z) : HM (list ref) :=
  match count with
  | O => hret []
  | S k =>
      hbind (from_buffer_copy_h t (pyslice (index * tstatlen) (tstatlen * (index + 1)) d)) (fun o =>
      hbind (tstat_loop_h t tstatlen d k (index + 1)) (fun r => hret (o :: r)))
  end.

(** utils.py:213-245 get_tstat *)
Definition get_tstat_h (hr : href) (r : ref) : HM (list ref) :=
  hbind (attr r "pcomplen") (fun n =>
  hbind (hread n) (fun buffer =>
  hbind (hlift (zlib_decompress dec buffer)) (fun d =>
  hbind (fun H f => (if is_record_1_26 (deref H r) then getint (deref H r) "nlist" else getint (deref H r) "ndeviat", H, f)) (fun count =>
  hbind (fun H f => (version_at_least_2 (deref_header H hr) 3, H, f)) (fun v23 =>
  hbind (if v23 : bool then header_attr hr "tstatlen" else header_attr hr "pstatlen") (fun tstatlen =>
  tstat_loop_h (hc_tstat (hr_class hr)) tstatlen d (Z.to_nat count) 0)))))).

(** utils.py:277-292; a CGChainer holds two objects. *)
Fixpoint cstat_loop_h (ct : ctype) (cstatlen : Z) (dc dp : list byte) (count : nat) (cstat_start pidlist_start : Z)
  : HM (list (ref * ref)) :=
  match count with
  | O => hret []
  | S k =>
      hbind (from_buffer_copy_h ct (pyslice cstat_start (cstat_start + cstatlen) dc)) (fun cstat =>
      hbind (fun H f => (getobj (deref H cstat) "gen", H, f)) (fun gen =>
      hbind (hlift (getint gen "structlen")) (fun structlen =>
      hbind (hlift (getint gen "nprocs")) (fun nprocs =>
      if nprocs <? 0 then hlift (Raise (ValueError NegativeArrayLength)) else
      let pid_array := TArr sh_pid_t nprocs in
      let size := sizeof pid_array in
      hbind (from_buffer_copy_h pid_array (pyslice pidlist_start (pidlist_start + size) dp)) (fun pidlist =>
      hbind (cstat_loop_h ct cstatlen dc dp k (cstat_start + structlen) (pidlist_start + size)) (fun r =>
      hret ((cstat, pidlist) :: r)))))))
  end.

(** utils.py:248-293 get_cstat *)
Definition get_cstat_h (hr : href) (r : ref) : HM (list (ref * ref)) :=
  hbind (attr r "ccomplen") (fun nc =>
  hbind (hread nc) (fun buffer_cstats =>
  hbind (hlift (zlib_decompress dec buffer_cstats)) (fun dc =>
  hbind (attr r "icomplen") (fun ni =>
  hbind (hread ni) (fun buffer_pidlist =>
  hbind (hlift (zlib_decompress dec buffer_pidlist)) (fun dp =>
  hbind (header_attr hr "cstatlen") (fun cstatlen =>
  hbind (attr r "ncgroups") (fun ncgroups =>
  match hc_cstat (hr_class hr) with
  | Some ct => cstat_loop_h ct cstatlen dc dp (Z.to_nat ncgroups) 0 0
  | None => hlift (if 0 <? ncgroups then Raise (AttributeError "from_buffer_copy") else Ok [])
  end)))))))).

(** The four objects of a sample. *)
Record srefs := mkSrefs { sr_record : ref; sr_sstat : ref; sr_tstats : list ref; sr_cgroups : list (ref * ref) }.

Definition deref_sample (H : heap) (s : srefs) : sample :=
  mkSample (deref H (sr_record s)) (deref H (sr_sstat s)) (map (deref H) (sr_tstats s))
           (map (fun p => mkChain (deref H (fst p)) (deref H (snd p))) (sr_cgroups s)).

(** utils.py:114-123 *)
Definition read_sample_h (hr : href) (gate : bool) : HM (option srefs) :=
  hbind (get_record_h hr) (fun record =>
  hbind (attr record "scomplen") (fun scomplen =>
  if scomplen <=? 0 then hret None else
  hbind (get_sstat_h hr record) (fun sstat =>
  hbind (get_tstat_h hr record) (fun tstats =>
  hbind (if gate then get_cstat_h hr record else hret []) (fun cgroups =>
  hret (Some (mkSrefs record sstat tstats cgroups))))))).

(** The generator keeps the header object. *)
Inductive hgen :=
| HInit (hdr : option href) (strict : bool) (max_samples : Z)
| HYielded (hdr : href) (gate strict : bool) (todo : Z)
| HDone.

Inductive hout := HYield (s : srefs) | HStop | HRaised (e : exn).

Definition hout_exception (strict : bool) (e : exn) : hout :=
  match e with
  | ZlibError => if strict then HRaised ZlibError else HStop
  | _ => HRaised e
  end.

(** utils.py:107-129 *)
Definition hloop (hr : href) (gate strict : bool) (todo : Z) (H : heap) (f : file) : hout * hgen * heap * file :=
  if todo <=? 0 then (HStop, HDone, H, f) else
  match read_sample_h hr gate H f with
  | (Ok (Some s), H', f') => (HYield s, HYielded hr gate strict (todo - 1), H', f')
  | (Ok None, H', f') => (HStop, HDone, H', f')
  | (Raise e, H', f') => (hout_exception strict e, HDone, H', f')
  end.

Definition hstart (hr : href) (strict : bool) (ms : Z) (H : heap) (f : file) : hout * hgen * heap * file :=
  match cgroup_gate (deref_header H hr) with
  | Ok gate => hloop hr gate strict ms H f
  | Raise e => (hout_exception strict e, HDone, H, f)
  end.

Definition hnext (g : hgen) (H : heap) (f : file) : hout * hgen * heap * file :=
  match g with
  | HInit (Some hr) strict ms => hstart hr strict ms H f
  | HInit None strict ms =>
      match get_header_h true H f with
      | (Ok hr, H', f') => hstart hr strict ms H' f'
      | (Raise e, H', f') => (HRaised e, HDone, H', f')
      end
  | HYielded hr gate strict todo => hloop hr gate strict todo H f
  | HDone => (HStop, HDone, H, f)
  end.

Definition hthrow (g : hgen) (e : exn) : hout :=
  match g with
  | HYielded _ _ strict _ => hout_exception strict e
  | HInit _ _ _ | HDone => HRaised e
  end.

(** ** A program that iterates and changes objects it was given *)

(** A part of a sample. *)
Inductive part := PRecord | PSstat | PTstat (i : nat) | PCstat (i : nat) | PProclist (i : nat).

(** Steps of the program: advance the generator, throw into it, close it, change bytes of a part of
    the [k]-th sample received, or change bytes of the header it passed.  Assigning to an attribute
    of an object (or to an element of an array in it) changes bytes inside that object.
    The version bytes of the header (4, 5) are left alone here; what happens when they are changed
    is the subject of HeaderCache.v. *)
Inductive uop :=
| UNext | UThrow (e : exn) | UClose
| UWrite (k : nat) (p : part) (off : Z) (x : list byte)
| UWriteHeader (off : Z) (x : list byte).

(** What the program observes of a step; a sample is looked at as soon as it arrives. *)
Inductive useen := USaw (s : sample) | UStop | URaise (e : exn) | UNothing.

(** Are these bytes inside an object of [size] bytes? *)
Definition inside (off : Z) (x : list byte) (size : Z) : bool := (0 <=? off) && (off + zlen x <=? size).

Definition part_ref (s : srefs) (p : part) : option ref :=
  match p with
  | PRecord => Some (sr_record s)
  | PSstat => Some (sr_sstat s)
  | PTstat i => nth_error (sr_tstats s) i
  | PCstat i => option_map fst (nth_error (sr_cgroups s) i)
  | PProclist i => option_map snd (nth_error (sr_cgroups s) i)
  end.

Record hworld := mkHW { w_heap : heap; w_file : file; w_gen : hgen; w_header : option href; w_samples : list srefs }.

Definition hstep (o : uop) (w : hworld) : useen * hworld :=
  match o with
  | UNext =>
      match hnext (w_gen w) (w_heap w) (w_file w) with
      | (HYield s, g, H, f) => (USaw (deref_sample H s), mkHW H f g (w_header w) (w_samples w ++ [s]))
      | (HStop, g, H, f) => (UStop, mkHW H f g (w_header w) (w_samples w))
      | (HRaised e, g, H, f) => (URaise e, mkHW H f g (w_header w) (w_samples w))
      end
  | UThrow e =>
      (match hthrow (w_gen w) e with HYield s => USaw (deref_sample (w_heap w) s) | HStop => UStop | HRaised e' => URaise e' end,
       mkHW (w_heap w) (w_file w) HDone (w_header w) (w_samples w))
  | UClose => (UNothing, mkHW (w_heap w) (w_file w) HDone (w_header w) (w_samples w))
  | UWrite k p off x =>
      (UNothing,
       match nth_error (w_samples w) k with
       | Some s => match part_ref s p with
                   | Some r => if inside off x (sizeof (r_type r))
                               then mkHW (poke (r_block r) off x (w_heap w)) (w_file w) (w_gen w) (w_header w) (w_samples w)
                               else w
                   | None => w
                   end
       | None => w
       end)
  | UWriteHeader off x =>
      (UNothing,
       match w_header w with
       | Some r => if (6 <=? off) && inside off x (sizeof (hc_header (hr_class r)))
                   then mkHW (poke (hr_block r) off x (w_heap w)) (w_file w) (w_gen w) (w_header w) (w_samples w)
                   else w
       | None => w
       end)
  end.

Fixpoint hprogram (ops : list uop) (w : hworld) : list useen * hworld :=
  match ops with
  | [] => ([], w)
  | o :: r => let (x, w1) := hstep o w in let (xs, w2) := hprogram r w1 in (x :: xs, w2)
  end.

(** The program starts by creating the generator, with or without a header object that it got
    from get_header before. *)
Definition hbegin (H : heap) (f : file) (hdr : option href) (strict : bool) (ms : Z) : hworld :=
  mkHW H f (HInit hdr strict ms) hdr [].

End Decompressor.
