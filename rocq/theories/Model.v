(** * Model of atoparser/structs/shared.py (HeaderMixin) and atoparser/utils.py *)
From Coq Require Import List ZArith Lia Bool String.
From Coq Require Import Init.Byte.
From Verif Require Import PyBase Utf8 CTypes.
From Verif Require Import S_shared S_1_26 S_2_3 S_2_4 S_2_5 S_2_6 S_2_7 S_2_8 S_2_9 S_2_10 S_2_11 S_2_12.
Import ListNotations.
Open Scope Z_scope.

(** ** Version table (utils.py:47-63) *)

(** utils.py:47-59 [_VERSIONS]. *)
Definition versions : list hclass :=
  [a1_26_class; a2_3_class; a2_4_class; a2_5_class; a2_6_class; a2_7_class; a2_8_class;
   a2_9_class; a2_10_class; a2_11_class; a2_12_class].

(** utils.py:62 [_DEFAULT_VERSION]: [_VERSIONS[-1].Header.supported_version]. *)
Definition default_version : string := hc_version (last versions a2_12_class).

(** utils.py:63 [_HEADER_BY_VERSION]: dict comprehension, later duplicates would win. *)
Definition header_by_version : list (string * hclass) :=
  fold_left (fun d c => dict_set d (hc_version c) c) versions [].

(** utils.py:76 *)
Definition MAX_SAMPLES_PER_FILE : Z := 86400.

(** utils.py:79 *)
Definition MAGIC : Z := 4276993775. (* 0xFEEDBEEF *)

(** ** Header objects (shared.py:27-89) *)

(** A Header instance: its class and its memory. *)
Record hobj := mkHdr { h_class : hclass; h_buf : list byte }.

Definition h_obj (h : hobj) : cobj := mkObj (hc_header (h_class h)) (h_buf h).

(** shared.py:86 [(self.aversion >> 8) & 0x7F] *)
Definition major_of_aversion (a : Z) : Z := Z.land (Z.shiftr a 8) 127.
(** shared.py:87 [self.aversion & 0xFF] *)
Definition minor_of_aversion (a : Z) : Z := Z.land a 255.
(** shared.py:88 *)
Definition version_text (major minor : Z) : string :=
  String.append (str_of_int major) (String.append "." (str_of_int minor)).

(** shared.py:63-89, the values of the three properties on an instance whose cache is empty or
    was filled from the current bytes; the caching itself is modelled in HeaderCache.v. *)
Definition major_version (h : hobj) : res Z :=
  let? a := getint (h_obj h) "aversion" in Ok (major_of_aversion a).
Definition minor_version (h : hobj) : res Z :=
  let? a := getint (h_obj h) "aversion" in Ok (minor_of_aversion a).
Definition semantic_version (h : hobj) : res string :=
  let? a := getint (h_obj h) "aversion" in
  Ok (version_text (major_of_aversion a) (minor_of_aversion a)).

(** [major_version >= 2 and minor_version >= n] (shared.py:52, 56; utils.py:237). *)
Definition version_at_least_2 (h : hobj) (n : Z) : res bool :=
  let? ma := major_version h in
  if 2 <=? ma then let? mi := minor_version h in Ok (n <=? mi) else Ok false.

(** shared.py:41-61 check_compatibility.  Reading a length field that the class does not
    have raises AttributeError; [ctypes.sizeof(None)] raises TypeError. *)
Definition check_compatibility (h : hobj) : res unit :=
  let c := h_class h in
  let? rawheadlen := getint (h_obj h) "rawheadlen" in
  let? rawreclen := getint (h_obj h) "rawreclen" in
  let? sstatlen := getint (h_obj h) "sstatlen" in
  let sizes :=
    [("Header"%string, rawheadlen, sizeof (hc_header c));
     ("Record"%string, rawreclen, sizeof (hc_record c));
     ("SStat"%string, sstatlen, sizeof (hc_sstat c))] in
  let? v23 := version_at_least_2 h 3 in
  let? sizes :=
    if v23 : bool then
      let? tstatlen := getint (h_obj h) "tstatlen" in
      Ok (sizes ++ [("TStat"%string, tstatlen, sizeof (hc_tstat c))])
    else
      let? pstatlen := getint (h_obj h) "pstatlen" in
      Ok (sizes ++ [("PStat"%string, pstatlen, sizeof (hc_tstat c))]) in
  let? v211 := version_at_least_2 h 11 in
  let? sizes :=
    if v211 : bool then
      let? cstatlen := getint (h_obj h) "cstatlen" in
      match hc_cstat c with
      | Some ct => Ok (sizes ++ [("CStat"%string, cstatlen, sizeof ct)])
      | None => Raise TypeError
      end
    else Ok sizes in
  if existsb (fun s => negb (snd (fst s) =? snd s)) sizes
  then Raise (ValueError (Incompatible sizes))
  else Ok tt.

(** ** get_header (utils.py:132-163) *)

(** utils.py:147 [_HEADER_BY_VERSION[_DEFAULT_VERSION]]. *)
Definition default_class : hclass :=
  match assoc default_version header_by_version with Some c => c | None => a2_12_class end.

(** utils.py:150-163, on the bytes already read into a default header. *)
Definition get_header_of_bytes (buf : list byte) (check : bool) : res hobj :=
  let h0 := mkHdr default_class buf in
  let? magic := getint (h_obj h0) "magic" in
  if negb (magic =? MAGIC) then Raise (ValueError (BadMagic magic)) else
  let? v := semantic_version h0 in
  let? h :=
    if negb (String.eqb v default_version) then
      match assoc v header_by_version with
      | Some c =>
          (* [from_buffer]: shares the memory of the header just read *)
          if zlen buf <? sizeof (hc_header c) then Raise (ValueError BufferTooSmall)
          else Ok (mkHdr c (ztake (sizeof (hc_header c)) buf))
      | None => Ok h0
      end
    else Ok h0 in
  if check then let? _ := check_compatibility h in Ok h else Ok h.

(** utils.py:132-163 *)
Definition get_header (check : bool) : M hobj :=
  let! buf := freadinto (sizeof (hc_header default_class)) in
  mlift (get_header_of_bytes buf check).

(** ** Records and statistics (utils.py:166-293) *)

(** utils.py:166-185 get_record *)
Definition get_record (h : hobj) : M cobj :=
  let t := hc_record (h_class h) in
  let! b := freadinto (sizeof t) in
  mret (mkObj t b).

Section Decompressor.

(** [zlib.decompress]: [None] stands for zlib.error (the only exception it raises on bytes).
    A parameter of every function below; Inflate.v defines the real one. *)
Variable dec : list byte -> option (list byte).

Definition zlib_decompress (b : list byte) : res (list byte) :=
  match dec b with Some x => Ok x | None => Raise ZlibError end.

(** utils.py:188-210 get_sstat *)
Definition get_sstat (h : hobj) (r : cobj) : M cobj :=
  let! n := mlift (getint r "scomplen") in
  let! buffer := fread n in
  let! d := mlift (zlib_decompress buffer) in
  mlift (from_buffer_copy (hc_sstat (h_class h)) d).

(** [isinstance(record, atop_1_26.Record)] (utils.py:236): class identity. *)
Definition is_record_1_26 (r : cobj) : bool :=
  String.eqb (struct_name (o_type r)) (struct_name a1_26_Record).

(** utils.py:239-244: the loop over [range(record_count)]; [index] counts up. *)
Fixpoint tstat_loop (t : ctype) (tstatlen : Z) (d : list byte) (count : nat) (index : Z)
  : res (list cobj) :=
  match count with
  | O => Ok []
  | S k =>
      let? o := from_buffer_copy t (pyslice (index * tstatlen) (tstatlen * (index + 1)) d) in
      let? r := tstat_loop t tstatlen d k (index + 1) in
      Ok (o :: r)
  end.

(** utils.py:213-245 get_tstat *)
Definition get_tstat (h : hobj) (r : cobj) : M (list cobj) :=
  let! n := mlift (getint r "pcomplen") in
  let! buffer := fread n in
  let! d := mlift (zlib_decompress buffer) in
  let! record_count := mlift (if is_record_1_26 r then getint r "nlist" else getint r "ndeviat") in
  let! v23 := mlift (version_at_least_2 h 3) in
  let! tstatlen := mlift (if v23 : bool then getint (h_obj h) "tstatlen" else getint (h_obj h) "pstatlen") in
  mlift (tstat_loop (hc_tstat (h_class h)) tstatlen d (Z.to_nat record_count) 0).

(** structs/atop_2_11.py:645-668 CGChainer: a cstat and a [pid_t * nprocs] array. *)
Record chainer := mkChain { cg_cstat : cobj; cg_proclist : cobj }.

(** utils.py:277-292: the loop over [range(record.ncgroups)]. *)
Fixpoint cstat_loop (ct : ctype) (cstatlen : Z) (dc dp : list byte)
         (count : nat) (cstat_start pidlist_start : Z) : res (list chainer) :=
  match count with
  | O => Ok []
  | S k =>
      let? cstat := from_buffer_copy ct (pyslice cstat_start (cstat_start + cstatlen) dc) in
      let? gen := getobj cstat "gen" in
      let? structlen := getint gen "structlen" in
      let? nprocs := getint gen "nprocs" in
      if nprocs <? 0 then Raise (ValueError NegativeArrayLength) else
      let pid_array := TArr sh_pid_t nprocs in
      let pid_array_size := sizeof pid_array in
      let? pidlist := from_buffer_copy pid_array
                        (pyslice pidlist_start (pidlist_start + pid_array_size) dp) in
      let? r := cstat_loop ct cstatlen dc dp k (cstat_start + structlen)
                           (pidlist_start + pid_array_size) in
      Ok (mkChain cstat pidlist :: r)
  end.

(** utils.py:248-293 get_cstat.  [header.CStat is None] raises AttributeError on first use. *)
Definition get_cstat (h : hobj) (r : cobj) : M (list chainer) :=
  let! nc := mlift (getint r "ccomplen") in
  let! buffer_cstats := fread nc in
  let! dc := mlift (zlib_decompress buffer_cstats) in
  let! ni := mlift (getint r "icomplen") in
  let! buffer_pidlist := fread ni in
  let! dp := mlift (zlib_decompress buffer_pidlist) in
  let! cstatlen := mlift (getint (h_obj h) "cstatlen") in
  let! ncgroups := mlift (getint r "ncgroups") in
  mlift (match hc_cstat (h_class h) with
         | Some ct => cstat_loop ct cstatlen dc dp (Z.to_nat ncgroups) 0 0
         | None => if 0 <? ncgroups then Raise (AttributeError "from_buffer_copy") else Ok []
         end).

(** ** generate_statistics (utils.py:82-129) *)

Record sample := mkSample {
  s_record : cobj; s_sstat : cobj; s_tstats : list cobj; s_cgroups : list chainer }.

(** utils.py:104-106, 120: split the version text and compare. *)
Definition cgroup_gate (h : hobj) : res bool :=
  let? v := semantic_version h in
  match split_dot v with
  | a :: b :: _ =>
      let? major := int_of_str a in
      let? minor := int_of_str b in
      Ok ((2 <=? major) && (11 <=? minor))
  | _ => Raise (ValueError NotAnInteger)
  end.

(** utils.py:114-123: one loop body; [None] is the [break] at the natural end of file. *)
Definition read_sample (h : hobj) (gate : bool) : M (option sample) :=
  let! record := get_record h in
  let! scomplen := mlift (getint record "scomplen") in
  if scomplen <=? 0 then mret None else
  let! sstat := get_sstat h record in
  let! tstats := get_tstat h record in
  let! cgroups := (if gate then get_cstat h record else mret []) in
  mret (Some (mkSample record sstat tstats cgroups)).

(** The generator object.  [GInit]: created, body not started.  [GYielded]: suspended at the
    [yield] (utils.py:124) with [todo] iterations of [range(max_samples)] to go. *)
Inductive gstate :=
| GInit (hdr : option hobj) (strict : bool) (max_samples : Z)
| GYielded (hdr : hobj) (gate strict : bool) (todo : Z)
| GDone.

Inductive gout := Yield (s : sample) | StopIteration | Raised (e : exn).

(** utils.py:125-129: an exception inside the [try] block. *)
Definition on_exception (strict : bool) (e : exn) : gout :=
  match e with
  | ZlibError => if strict then Raised ZlibError else StopIteration
  | _ => Raised e
  end.

(** utils.py:107-124, from the loop head to the next suspension. *)
Definition gloop (h : hobj) (gate strict : bool) (todo : Z) (f : file) : gout * gstate * file :=
  if todo <=? 0 then (StopIteration, GDone, f) else
  match read_sample h gate f with
  | (Ok (Some s), f') => (Yield s, GYielded h gate strict (todo - 1), f')
  | (Ok None, f') => (StopIteration, GDone, f')
  | (Raise e, f') => (on_exception strict e, GDone, f')
  end.

(** utils.py:103-107, entering the [try] block. *)
Definition gstart (h : hobj) (strict : bool) (max_samples : Z) (f : file) : gout * gstate * file :=
  match cgroup_gate h with
  | Ok gate => gloop h gate strict max_samples f
  | Raise e => (on_exception strict e, GDone, f)
  end.

(** [next(generator)] *)
Definition gnext (g : gstate) (f : file) : gout * gstate * file :=
  match g with
  | GInit (Some h) strict ms => gstart h strict ms f
  | GInit None strict ms =>
      match get_header true f with           (* utils.py:99-101, outside the try block *)
      | (Ok h, f') => gstart h strict ms f'
      | (Raise e, f') => (Raised e, GDone, f')
      end
  | GYielded h gate strict todo => gloop h gate strict todo f
  | GDone => (StopIteration, GDone, f)
  end.

(** [generator.throw(e)]: raised at the suspension point, which is inside the [try] block
    exactly when the generator is suspended at the yield. *)
Definition gthrow (g : gstate) (e : exn) (f : file) : gout * gstate * file :=
  match g with
  | GYielded _ _ strict _ => (on_exception strict e, GDone, f)
  | GInit _ _ _ | GDone => (Raised e, GDone, f)
  end.

(** [generator.close()] *)
Definition gclose (g : gstate) (f : file) : gstate * file := (GDone, f).

(** Calling [generate_statistics(raw_file, header, raise_on_truncation, max_samples)]
    only creates the generator. *)
Definition generate_statistics (hdr : option hobj) (raise_on_truncation : bool) (max_samples : Z)
  : gstate := GInit hdr raise_on_truncation max_samples.

(** How iteration ended: [None] normally, [Some e] with exception [e]. *)
Definition ending := option exn.

(** Consuming the generator with a [for] loop for at most [fuel] calls of next. *)
Fixpoint drain (fuel : nat) (g : gstate) (f : file) : list sample * option ending * file :=
  match fuel with
  | O => ([], None, f)
  | S k =>
      match gnext g f with
      | (Yield s, g', f') =>
          let '(ss, e, f'') := drain k g' f' in (s :: ss, e, f'')
      | (StopIteration, _, f') => ([], Some None, f')
      | (Raised e, _, f') => ([], Some (Some e), f')
      end
  end.

(** A full [for] loop: [max_samples + 1] calls of next always reach the end
    ([drain_complete] in GenProofs.v). *)
Definition run (hdr : option hobj) (strict : bool) (max_samples : Z) (f : file)
  : list sample * option ending * file :=
  drain (S (Z.to_nat max_samples)) (generate_statistics hdr strict max_samples) f.

End Decompressor.

(** ** struct_to_dict (utils.py:296-329) *)

(** Python values that struct_to_dict and the parsers produce.  [JRaw] is any object that
    json.dumps rejects (bytes, ctypes instances). *)
Inductive json :=
| JInt (z : Z)
| JFloat (bits : Z)
| JStr (cps : list Z)
| JList (l : list json)
| JDict (d : list (string * json))
| JRaw.

(** A non-struct array element (utils.py:323-324). *)
Definition elem_json (e : ctype) (b : list byte) : json :=
  match e with
  | TInt sg sz => JInt (int_value sg sz b)
  | TFloat => JFloat (le_uint b)
  | _ => JRaw
  end.

(** utils.py:316-319: the array elements that are visited. *)
Definition limited (self : cobj) (name : string) (items : list (list byte))
  : res (list (list byte)) :=
  match assoc name (struct_limiters (o_type self)) with
  | Some lim => let? n := getint self lim in Ok (pyslice_to n items)
  | None => Ok items
  end.

(** utils.py:296-329.  Field [i] is read at its declared place; attribute lookup by name finds
    the same descriptor because field names are unique (proved for all tables). *)
Fixpoint struct_to_dict_ (t : ctype) (buf : list byte) {struct t} : res json :=
  match t with
  | TStruct sname fs lims =>
      (fix go (rest : list (string * ctype)) (off : Z) (acc : list (string * json)) {struct rest}
         : res json :=
         match rest with
         | [] => Ok (JDict acc)
         | (name, ft) :: r =>
             let o := align_up off (alignof ft) in
             let fb := sub_bytes o (sizeof ft) buf in
             let next := o + sizeof ft in
             match ft with
             | TStruct _ _ _ =>
                 let? j := struct_to_dict_ ft fb in go r next (dict_set acc name j)
             | _ =>
                 if str_contains "future" name then go r next acc else
                 match ft with
                 | TArr TChar _ =>
                     go r next (dict_set acc name (JStr (decode_ignore (until_nul fb))))
                 | TArr e n =>
                     let? sel := limited (mkObj t buf) name (chunks (Z.to_nat n) (sizeof e) fb) in
                     let? js := rmap (fun b => match e with
                                               | TStruct _ _ _ => struct_to_dict_ e b
                                               | _ => Ok (elem_json e b)
                                               end) sel in
                     go r next (dict_set acc name (JList js))
                 | TChar => go r next (dict_set acc name (JStr (decode_ignore fb)))
                 | TInt sg sz => go r next (dict_set acc name (JInt (int_value sg sz fb)))
                 | TFloat => go r next (dict_set acc name (JFloat (le_uint fb)))
                 | TStruct _ _ _ => go r next acc
                 end
             end
         end) fs 0 []
  | _ => Raise (AttributeError "_fields_")
  end.

Definition struct_to_dict (o : cobj) : res json := struct_to_dict_ (o_type o) (o_buf o).

(** struct_to_dict on a CGChainer (structs/atop_2_11.py:655-658 gives its [_fields_]): a nested
    struct, then a ctypes array without limiter. *)
Definition chainer_to_dict (c : chainer) : res json :=
  let? j := struct_to_dict (cg_cstat c) in
  let items := match o_type (cg_proclist c) with
               | TArr e n => map (elem_json e) (chunks (Z.to_nat n) (sizeof e) (o_buf (cg_proclist c)))
               | _ => []
               end in
  Ok (JDict [("cstat"%string, j); ("proclist"%string, JList items)]).
