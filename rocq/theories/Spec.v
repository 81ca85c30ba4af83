(** * Independent specifications

    What the property theorems are stated against.  Nothing here models /repo: numbers are byte
    offsets, sizes and encodings of the Atop file format, of C on x86-64, of UTF-8 and of JSON,
    written down separately from the model's struct tables and functions. *)
From Coq Require Import List ZArith Lia Bool String Ascii.
From Coq Require Import Init.Byte.
From Verif Require Import PyBase CTypes.
Import ListNotations.
Open Scope list_scope.
Open Scope Z_scope.

(** ** Numbers in a byte string (bytes past the end count as zero) *)

Definition at8 (b : list byte) (i : Z) : Z := bval (nth (Z.to_nat i) b x00).
Definition u16_at (b : list byte) (i : Z) : Z := at8 b i + 256 * at8 b (i + 1).
Definition u32_at (b : list byte) (i : Z) : Z := u16_at b i + 65536 * u16_at b (i + 2).
Definition u64_at (b : list byte) (i : Z) : Z := u32_at b i + 4294967296 * u32_at b (i + 4).
Definition i32_at (b : list byte) (i : Z) : Z :=
  let u := u32_at b i in if u <? 2147483648 then u else u - 4294967296.
Definition i64_at (b : list byte) (i : Z) : Z :=
  let u := u64_at b i in if u <? 9223372036854775808 then u else u - 18446744073709551616.

(** Little-endian image of a 32-bit two's complement integer. *)
Definition byte_of_Z (z : Z) : byte :=
  match Byte.of_N (Z.to_N z) with Some b => b | None => x00 end.
Definition le32 (z : Z) : list byte :=
  [byte_of_Z (z mod 256); byte_of_Z (z / 256 mod 256); byte_of_Z (z / 65536 mod 256);
   byte_of_Z (z / 16777216 mod 256)].

(** ** Decimal text of 0..255 *)

Definition digit (d : Z) : ascii := ascii_of_N (Z.to_N (48 + d)).
Definition dec_text (n : Z) : string :=
  if n <? 10 then String (digit n) EmptyString
  else if n <? 100 then String (digit (n / 10)) (String (digit (n mod 10)) EmptyString)
  else String (digit (n / 100)) (String (digit (n / 10 mod 10)) (String (digit (n mod 10)) EmptyString)).
Definition dotted (major minor : Z) : string :=
  String.append (dec_text major) (String "." (dec_text minor)).

(** ** Atop versions: name, major, minor, sizes of rawrecord, sstat, tstat, cstat *)

Record vspec := mkVS {
  vs_name : string; vs_major : Z; vs_minor : Z;
  vs_rec : Z; vs_sstat : Z; vs_tstat : Z; vs_cstat : option Z }.

Definition header_size : Z := 480.

Definition spec_versions : list vspec := [
  mkVS "1.26" 1 26 80 88368   616 None;
  mkVS "2.3"  2 3  96 711904  784 None;
  mkVS "2.4"  2 4  96 716656  840 None;
  mkVS "2.5"  2 5  96 716656  840 None;
  mkVS "2.6"  2 6  96 716656  840 None;
  mkVS "2.7"  2 7  96 954360  840 None;
  mkVS "2.8"  2 8  96 1021960 968 None;
  mkVS "2.9"  2 9  96 1021960 968 None;
  mkVS "2.10" 2 10 96 1030216 992 None;
  mkVS "2.11" 2 11 96 1064016 968 (Some 432);
  mkVS "2.12" 2 12 96 1064016 968 (Some 432)].

(** ** The raw header *)

Definition magic_number : Z := 4276993775.

Definition magic_of (hb : list byte) : Z := u32_at hb 0.
Definition aversion_of (hb : list byte) : Z := u16_at hb 4.
(** Bits 8..14 and 0..7. *)
Definition major_of (hb : list byte) : Z := aversion_of hb / 256 mod 128.
Definition minor_of (hb : list byte) : Z := aversion_of hb mod 256.

(** Header [hb] says it is of version [vs]. *)
Definition is_version (vs : vspec) (hb : list byte) : Prop :=
  major_of hb = vs_major vs /\ minor_of hb = vs_minor vs.

(** The length fields are the ones of version [vs]. *)
Definition sizes_match (vs : vspec) (hb : list byte) : Prop :=
  u16_at hb 10 = header_size /\ u16_at hb 12 = vs_rec vs /\ u32_at hb 28 = vs_sstat vs /\
  u32_at hb 32 = vs_tstat vs /\
  match vs_cstat vs with Some n => i32_at hb 456 = n | None => True end.

(** A header as Atop of version [vs] writes it. *)
Definition atop_header (vs : vspec) (hb : list byte) : Prop :=
  zlen hb = header_size /\ magic_of hb = magic_number /\ is_version vs hb /\ sizes_match vs hb.

(** Kinds of scalar fields. *)
Inductive kind := U16 | U32 | I32 | I64.
Definition num_at (k : kind) (b : list byte) (off : Z) : Z :=
  match k with U16 => u16_at b off | U32 => u32_at b off | I32 => i32_at b off | I64 => i64_at b off end.

(** Scalar header fields: name, offset, kind. *)
Definition header_fields (vs : vspec) : list (string * Z * kind) :=
  [("magic"%string, 0, U32); ("aversion"%string, 4, U16); ("future1"%string, 6, U16);
   ("future2"%string, 8, U16); ("rawheadlen"%string, 10, U16); ("rawreclen"%string, 12, U16);
   ("hertz"%string, 14, U16); ("sstatlen"%string, 28, U32);
   ((if vs_major vs =? 1 then "pstatlen"%string else "tstatlen"%string), 32, U32);
   ("pagesize"%string, 436, U32); ("supportflags"%string, 440, I32); ("osrel"%string, 444, I32);
   ("osvers"%string, 448, I32); ("ossub"%string, 452, I32)]
  ++ (if (2 <=? vs_major vs) && (8 <=? vs_minor vs) then [("pidwidth"%string, 16, U16)] else [])
  ++ (match vs_cstat vs with Some _ => [("cstatlen"%string, 456, I32)] | None => [] end).

(** The six 65-byte utsname strings. *)
Definition utsname_fields : list (string * Z) :=
  [("sysname"%string, 36); ("nodename"%string, 101); ("release"%string, 166);
   ("version"%string, 231); ("machine"%string, 296); ("domain"%string, 361)].

(** ** C strings: [s] is the text stored in the character array [field] *)

Definition c_string (s field : list byte) : Prop :=
  ~ In x00 s /\ (field = s \/ exists rest, field = s ++ x00 :: rest).

(** ** Scalar record fields *)

Definition record_fields (vs : vspec) : list (string * Z * kind) :=
  if vs_major vs =? 1 then
    [("curtime"%string, 0, I64); ("flags"%string, 8, U16); ("scomplen"%string, 16, U32);
     ("pcomplen"%string, 20, U32); ("interval"%string, 24, U32); ("nlist"%string, 28, U32);
     ("npresent"%string, 32, U32); ("nexit"%string, 36, U32); ("ntrun"%string, 40, U32);
     ("ntslpi"%string, 44, U32); ("ntslpu"%string, 48, U32); ("nzombie"%string, 52, U32)]
  else
    [("curtime"%string, 0, I64); ("flags"%string, 8, U16); ("scomplen"%string, 16, U32);
     ("pcomplen"%string, 20, U32); ("interval"%string, 24, U32); ("ndeviat"%string, 28, U32);
     ("nactproc"%string, 32, U32); ("ntask"%string, 36, U32); ("totproc"%string, 40, U32);
     ("totrun"%string, 44, U32); ("totslpi"%string, 48, U32); ("totslpu"%string, 52, U32);
     ("totzomb"%string, 56, U32); ("nexit"%string, 60, U32); ("noverflow"%string, 64, U32)]
    ++ (if 8 <=? vs_minor vs then [("totidle"%string, 68, U32)] else [])
    ++ (if 11 <=? vs_minor vs then
          [("ncgroups"%string, 10, U16); ("ccomplen"%string, 72, U32); ("coriglen"%string, 76, U32);
           ("ncgpids"%string, 80, U32); ("icomplen"%string, 84, U32)]
        else []).

(** ** The log

    A stream [c] that decompresses to [x] and that cannot be cut anywhere without the
    decompressor noticing (true of every complete zlib stream, C41). *)
Definition stream (dec : list byte -> option (list byte)) (c x : list byte) : Prop :=
  c <> [] /\ dec c = Some x /\ forall p q, c = p ++ q -> q <> [] -> dec p = None.

(** A cgroup as Atop writes it: the fixed part, the name bytes after it, the pids. *)
Record lgroup := mkLG { lg_cstat : list byte; lg_name : list byte; lg_pids : list Z }.

(** One sample: the images of its structs, and the compressed blocks in the file. *)
Record lsample := mkLS {
  ls_record : list byte; ls_sstat : list byte; ls_tstats : list (list byte);
  ls_groups : list lgroup;
  ls_cs : list byte;   (* compressed sstat *)
  ls_ct : list byte;   (* compressed tstats *)
  ls_cc : list byte;   (* compressed cstats *)
  ls_ci : list byte }. (* compressed pid lists *)

Definition wf_group (size : Z) (g : lgroup) : Prop :=
  zlen (lg_cstat g) = size /\
  i32_at (lg_cstat g) 0 = size + zlen (lg_name g) /\
  i32_at (lg_cstat g) 16 = zlen (lg_pids g) /\
  Forall (fun p => -2147483648 <= p < 2147483648) (lg_pids g).

Definition groups_data (gs : list lgroup) : list byte :=
  List.concat (map (fun g => lg_cstat g ++ lg_name g) gs).
Definition groups_pids (gs : list lgroup) : list byte :=
  List.concat (map (fun g => List.concat (map le32 (lg_pids g))) gs).

(** A well-formed sample of a log of version [vs]. *)
Definition wf_sample (dec : list byte -> option (list byte)) (vs : vspec) (s : lsample) : Prop :=
  zlen (ls_record s) = vs_rec vs /\
  u32_at (ls_record s) 16 = zlen (ls_cs s) /\
  u32_at (ls_record s) 20 = zlen (ls_ct s) /\
  u32_at (ls_record s) 28 = zlen (ls_tstats s) /\
  zlen (ls_sstat s) = vs_sstat vs /\
  Forall (fun t => zlen t = vs_tstat vs) (ls_tstats s) /\
  stream dec (ls_cs s) (ls_sstat s) /\
  stream dec (ls_ct s) (List.concat (ls_tstats s)) /\
  match vs_cstat vs with
  | None => ls_groups s = [] /\ ls_cc s = [] /\ ls_ci s = []
  | Some size =>
      u16_at (ls_record s) 10 = zlen (ls_groups s) /\
      u32_at (ls_record s) 72 = zlen (ls_cc s) /\
      u32_at (ls_record s) 84 = zlen (ls_ci s) /\
      Forall (wf_group size) (ls_groups s) /\
      stream dec (ls_cc s) (groups_data (ls_groups s)) /\
      stream dec (ls_ci s) (groups_pids (ls_groups s))
  end.

(** The bytes of a sample and of a log. *)
Definition sample_bytes (s : lsample) : list byte :=
  ls_record s ++ ls_cs s ++ ls_ct s ++ ls_cc s ++ ls_ci s.
Definition samples_bytes (ss : list lsample) : list byte := List.concat (map sample_bytes ss).
Definition log_bytes (hb : list byte) (ss : list lsample) : list byte := hb ++ samples_bytes ss.

(** A well-formed log. *)
Definition wf_log (dec : list byte -> option (list byte)) (vs : vspec) (hb : list byte)
           (ss : list lsample) : Prop :=
  In vs spec_versions /\ atop_header vs hb /\ Forall (wf_sample dec vs) ss.

(** The samples that lie completely within the first [k] bytes after the header, and what is
    left of those [k] bytes after them. *)
Fixpoint complete (k : Z) (ss : list lsample) : list lsample :=
  match ss with
  | [] => []
  | s :: r => let n := zlen (sample_bytes s) in
              if n <=? k then s :: complete (k - n) r else []
  end.

(** ** C values and their images in memory *)

Inductive cval :=
| VInt (z : Z)
| VFloat (bits : Z)
| VChar (c : byte)
| VStr (s : list byte)
| VArr (l : list cval)
| VStruct (l : list (string * cval)).

(** Natural alignment. *)
Fixpoint c_align (t : ctype) : Z :=
  match t with
  | TInt _ sz => sz
  | TFloat => 4
  | TChar => 1
  | TArr e _ => c_align e
  | TStruct _ fs _ => fold_right (fun f m => Z.max (c_align (snd f)) m) 1 fs
  end.

Definition in_range (sg : bool) (sz z : Z) : Prop :=
  if sg then - 2 ^ (8 * sz - 1) <= z < 2 ^ (8 * sz - 1) else 0 <= z < 2 ^ (8 * sz).

(** [rep t v b]: the bytes [b] are an image of value [v] of type [t]: little-endian integers,
    fields in order, each preceded by the least padding (of any content) that aligns it, the
    whole padded to a multiple of its alignment. *)
Fixpoint rep (t : ctype) (v : cval) (b : list byte) {struct t} : Prop :=
  match t with
  | TInt sg sz =>
      exists z, v = VInt z /\ in_range sg sz z /\ zlen b = sz /\
                forall i, 0 <= i < sz -> at8 b i = z / 256 ^ i mod 256
  | TFloat => exists x, v = VFloat x /\ zlen b = 4 /\ u32_at b 0 = x
  | TChar => exists c, v = VChar c /\ b = [c]
  | TArr TChar n => exists s, v = VStr s /\ zlen b = n /\ c_string s b
  | TArr e n =>
      exists vs bs, v = VArr vs /\ zlen vs = n /\ b = List.concat bs /\ Forall2 (rep e) vs bs
  | TStruct _ fs _ =>
      exists vs, v = VStruct vs /\
      (fix go (fs : list (string * ctype)) (vs : list (string * cval)) (off : Z) (b : list byte)
         {struct fs} : Prop :=
         match fs, vs with
         | [], [] => zlen b < c_align t /\ (off + zlen b) mod c_align t = 0
         | (n, ft) :: fs', (n', v') :: vs' =>
             n = n' /\
             exists pad fb rest,
               b = pad ++ fb ++ rest /\
               zlen pad < c_align ft /\ (off + zlen pad) mod c_align ft = 0 /\
               rep ft v' fb /\ go fs' vs' (off + zlen pad + zlen fb) rest
         | _, _ => False
         end) fs vs 0 b
  end.

(** [shows v p]: the Python value [p] has the content [v], at every attribute, nesting level and
    array index. *)
Fixpoint shows (v : cval) (p : pyval) {struct v} : Prop :=
  match v with
  | VInt z => p = PInt z
  | VFloat x => p = PFloat x
  | VChar c => p = PBytes [c]
  | VStr s => p = PBytes s
  | VArr vs =>
      exists o, p = PObj o /\
      (fix go (vs : list cval) (ps : list pyval) {struct vs} : Prop :=
         match vs, ps with
         | [], [] => True
         | v' :: vs', p' :: ps' => shows v' p' /\ go vs' ps'
         | _, _ => False
         end) vs (array_items o)
  | VStruct vs =>
      exists o, p = PObj o /\ map fst (struct_fields (o_type o)) = map fst vs /\
      (fix go (vs : list (string * cval)) {struct vs} : Prop :=
         match vs with
         | [] => True
         | (n, v') :: vs' => (exists q, getattr o n = Ok q /\ shows v' q) /\ go vs'
         end) vs
  end.

(** ** Padding *)

(** Is byte [i] of an image of type [t] part of a scalar or character field? *)
Fixpoint data_byte (t : ctype) (i : Z) {struct t} : bool :=
  match t with
  | TInt _ _ | TFloat | TChar => true
  | TArr e n => data_byte e (i mod sizeof e)
  | TStruct _ fs _ =>
      (fix go (fs : list (string * ctype)) (off : Z) {struct fs} : bool :=
         match fs with
         | [] => false
         | (_, ft) :: fs' =>
             let o := align_up off (alignof ft) in
             ((o <=? i) && (i <? o + sizeof ft) && data_byte ft (i - o)) || go fs' (o + sizeof ft)
         end) fs 0
  end.

Definition same_data (t : ctype) (b c : list byte) : Prop :=
  zlen b = zlen c /\ forall i, 0 <= i < zlen b -> data_byte t i = true -> at8 b i = at8 c i.

(** ** UTF-8 *)

(** Unicode scalar values. *)
Definition scalar (c : Z) : Prop := 0 <= c < 55296 \/ 57344 <= c < 1114112.

Definition utf8_char (c : Z) : list byte :=
  if c <? 128 then [byte_of_Z c]
  else if c <? 2048 then [byte_of_Z (192 + c / 64); byte_of_Z (128 + c mod 64)]
  else if c <? 65536 then
    [byte_of_Z (224 + c / 4096); byte_of_Z (128 + c / 64 mod 64); byte_of_Z (128 + c mod 64)]
  else
    [byte_of_Z (240 + c / 262144); byte_of_Z (128 + c / 4096 mod 64);
     byte_of_Z (128 + c / 64 mod 64); byte_of_Z (128 + c mod 64)].

Definition utf8 (text : list Z) : list byte := flat_map utf8_char text.

(** [text] is what the character array [field] holds. *)
Definition holds_text (text : list Z) (field : list byte) : Prop :=
  Forall scalar text /\ c_string (utf8 text) field.

(** The text in arbitrary bytes, reading from the left: a well-formed character is kept, a byte
    at which no well-formed character starts is skipped. *)
Inductive lenient_text : list byte -> list Z -> Prop :=
| lt_end : lenient_text [] []
| lt_char c r t : scalar c -> lenient_text r t -> lenient_text (utf8_char c ++ r) (c :: t)
| lt_skip x r t : (forall c r', scalar c -> x :: r <> utf8_char c ++ r') ->
                  lenient_text r t -> lenient_text (x :: r) t.
