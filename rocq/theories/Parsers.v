(** * Model of atoparser/parsers/atop_1_26.py

    Each parse_* function is a generator of dictionaries.  Its full run is the list of rows
    it yields and the exception that ended it, if any. *)
From Coq Require Import List ZArith Lia Bool String.
From Coq Require Import Init.Byte.
From Verif Require Import PyBase Utf8 CTypes S_shared S_1_26 Model.
Import ListNotations.
Local Open Scope string_scope.
Local Open Scope Z_scope.

Definition row := list (string * json).
Definition rows_out := (list row * option exn)%type.

(** A dictionary display: the values are evaluated in order. *)
Fixpoint mkrow (l : list (string * res json)) (acc : row) : res row :=
  match l with
  | [] => Ok acc
  | (k, rv) :: r => let? v := rv in mkrow r (dict_set acc k v)
  end.
Definition row_of (l : list (string * res json)) : res row := mkrow l [].

(** The loop of a generator: [Ok None] is [break]. *)
Fixpoint gen_loop {A} (body : A -> res (option row)) (l : list A) : rows_out :=
  match l with
  | [] => ([], None)
  | x :: r =>
      match body x with
      | Raise e => ([], Some e)
      | Ok None => ([], None)
      | Ok (Some v) => let '(rs, e) := gen_loop body r in (v :: rs, e)
      end
  end.

Definition gen_for {A} (l : res (list A)) (body : A -> res (option row)) : rows_out :=
  match l with
  | Ok l => gen_loop body l
  | Raise e => ([], Some e)
  end.

Definition gen_single (r : res row) : rows_out :=
  match r with Ok v => ([v], None) | Raise e => ([], Some e) end.

(** Attribute paths such as [sstat.cpu.all.stime]. *)
Fixpoint getpath (o : cobj) (p : list string) : res pyval :=
  match p with
  | [] => Ok (PObj o)
  | [n] => getattr o n
  | n :: r => let? x := getobj o n in getpath x r
  end.

(** A Python scalar placed in a dictionary. *)
Definition jval (o : cobj) (p : list string) : res json :=
  let? v := getpath o p in
  match v with
  | PInt z => Ok (JInt z)
  | PFloat b => Ok (JFloat b)
  | _ => Ok JRaw
  end.

Definition intpath (o : cobj) (p : list string) : res Z :=
  let? v := getpath o p in
  match v with PInt z => Ok z | _ => Raise TypeError end.

Definition bytespath (o : cobj) (p : list string) : res (list byte) :=
  let? v := getpath o p in
  match v with PBytes b => Ok b | _ => Raise (AttributeError "decode") end.

(** [x.decode()] *)
Definition jdecode (o : cobj) (p : list string) : res json :=
  let? b := bytespath o p in let? s := decode_strict b in Ok (JStr s).

(** [a + b] of two integer attributes *)
Definition jsum (o : cobj) (p q : list string) : res json :=
  let? a := intpath o p in let? b := intpath o q in Ok (JInt (a + b)).

(** [x * 1024] *)
Definition jkib (o : cobj) (p : list string) : res json :=
  let? a := intpath o p in Ok (JInt (a * 1024)).

(** ASCII text as code points. *)
Fixpoint text (s : string) : list Z :=
  match s with
  | EmptyString => []
  | String c r => Z.of_nat (Ascii.nat_of_ascii c) :: text r
  end.

(** ["y" if header.supportflags & mask else "n"] *)
Definition jflag (h : hobj) (mask : Z) : res json :=
  let? fl := getint (h_obj h) "supportflags" in
  Ok (JStr (text (if negb (Z.land fl mask =? 0) then "y" else "n"))).

(** Iterating over the array attribute at a path yields struct instances. *)
Definition struct_items (o : cobj) (p : list string) : res (list cobj) :=
  let? v := getpath o p in
  match v with
  | PObj a => rmap (fun x => match x with PObj s => Ok s | _ => Raise TypeError end) (array_items a)
  | _ => Raise TypeError
  end.

Fixpoint enumerate_from {A} (i : Z) (l : list A) : list (Z * A) :=
  match l with
  | [] => []
  | x :: r => (i, x) :: enumerate_from (i + 1) r
  end.

(** parsers/atop_1_26.py:11-37 *)
Definition parse_cpu (h : hobj) (r s : cobj) (ts : list cobj) : rows_out :=
  gen_for (let? l := struct_items s ["cpu"; "cpu"] in Ok (enumerate_from 0 l))
    (fun '(index, cpu) =>
       let? nrcpu := intpath s ["cpu"; "nrcpu"] in
       if nrcpu <=? index then Ok None else
       let? v := row_of [
         ("timestamp", jval r ["curtime"]);
         ("interval", jval r ["interval"]);
         ("ticks", jval (h_obj h) ["hertz"]);
         ("proc", Ok (JInt index));
         ("system", jval cpu ["stime"]);
         ("user", jval cpu ["utime"]);
         ("niced", jval cpu ["ntime"]);
         ("idle", jval cpu ["itime"]);
         ("wait", jval cpu ["wtime"]);
         ("irq", jval cpu ["Itime"]);
         ("softirq", jval cpu ["Stime"]);
         ("steal", jval cpu ["steal"]);
         ("guest", jval cpu ["guest"])] in
       Ok (Some v)).

(** parsers/atop_1_26.py:40-57 *)
Definition parse_CPL (h : hobj) (r s : cobj) (ts : list cobj) : rows_out :=
  gen_single (row_of [
    ("timestamp", jval r ["curtime"]);
    ("interval", jval r ["interval"]);
    ("procs", jval s ["cpu"; "nrcpu"]);
    ("load_1", jval s ["cpu"; "lavg1"]);
    ("load_5", jval s ["cpu"; "lavg5"]);
    ("load_15", jval s ["cpu"; "lavg15"]);
    ("context_switches", jval s ["cpu"; "csw"]);
    ("interrupts", jval s ["cpu"; "devint"])]).

(** parsers/atop_1_26.py:60-82 *)
Definition parse_CPU (h : hobj) (r s : cobj) (ts : list cobj) : rows_out :=
  gen_single (row_of [
    ("timestamp", jval r ["curtime"]);
    ("interval", jval r ["interval"]);
    ("ticks", jval (h_obj h) ["hertz"]);
    ("procs", jval s ["cpu"; "nrcpu"]);
    ("system", jval s ["cpu"; "all"; "stime"]);
    ("user", jval s ["cpu"; "all"; "utime"]);
    ("niced", jval s ["cpu"; "all"; "ntime"]);
    ("idle", jval s ["cpu"; "all"; "itime"]);
    ("wait", jval s ["cpu"; "all"; "wtime"]);
    ("irq", jval s ["cpu"; "all"; "Itime"]);
    ("softirq", jval s ["cpu"; "all"; "Stime"]);
    ("steal", jval s ["cpu"; "all"; "steal"]);
    ("guest", jval s ["cpu"; "all"; "guest"])]).

(** The common body of parse_DSK (lines 92-106), parse_LVM (116-130) and parse_MDD (140-154),
    which differ only in the array they visit. *)
Definition disk_row (r disk : cobj) : res (option row) :=
  let? name := bytespath disk ["name"] in
  match name with
  | [] => Ok None
  | _ :: _ =>
      let? v := row_of [
        ("timestamp", jval r ["curtime"]);
        ("interval", jval r ["interval"]);
        ("name", jdecode disk ["name"]);
        ("io_ms", jval disk ["io_ms"]);
        ("reads", jval disk ["nread"]);
        ("read_sectors", jval disk ["nrsect"]);
        ("writes", jval disk ["nwrite"]);
        ("write_sectors", jval disk ["nwsect"])] in
      Ok (Some v)
  end.

(** parsers/atop_1_26.py:85-106 *)
Definition parse_DSK (h : hobj) (r s : cobj) (ts : list cobj) : rows_out :=
  gen_for (struct_items s ["dsk"; "dsk"]) (disk_row r).

(** parsers/atop_1_26.py:109-130 *)
Definition parse_LVM (h : hobj) (r s : cobj) (ts : list cobj) : rows_out :=
  gen_for (struct_items s ["dsk"; "lvm"]) (disk_row r).

(** parsers/atop_1_26.py:133-154 *)
Definition parse_MDD (h : hobj) (r s : cobj) (ts : list cobj) : rows_out :=
  gen_for (struct_items s ["dsk"; "mdd"]) (disk_row r).

(** parsers/atop_1_26.py:157-175 *)
Definition parse_MEM (h : hobj) (r s : cobj) (ts : list cobj) : rows_out :=
  gen_single (row_of [
    ("timestamp", jval r ["curtime"]);
    ("interval", jval r ["interval"]);
    ("page_size", jval (h_obj h) ["pagesize"]);
    ("phys_mem", jval s ["mem"; "physmem"]);
    ("free_mem", jval s ["mem"; "freemem"]);
    ("page_cache", jval s ["mem"; "cachemem"]);
    ("buffer_cache", jval s ["mem"; "buffermem"]);
    ("slab", jval s ["mem"; "slabmem"]);
    ("dirty_pages", jval s ["mem"; "cachedrt"])]).

(** [int.from_bytes(b, byteorder="big")] (line 198) *)
Definition be_uint (l : list byte) : Z := fold_left (fun a b => 256 * a + bval b) l 0.

(** parsers/atop_1_26.py:178-200 *)
Definition parse_NETL (h : hobj) (r s : cobj) (ts : list cobj) : rows_out :=
  gen_for (struct_items s ["intf"; "intf"])
    (fun interface =>
       let? name := bytespath interface ["name"] in
       match name with
       | [] => Ok None
       | _ :: _ =>
           let? v := row_of [
             ("timestamp", jval r ["curtime"]);
             ("interval", jval r ["interval"]);
             ("name", jdecode interface ["name"]);
             ("pkt_received", jval interface ["rpack"]);
             ("byte_received", jval interface ["rbyte"]);
             ("pkt_transmitted", jval interface ["spack"]);
             ("bytes_transmitted", jval interface ["sbyte"]);
             ("speed", jval interface ["speed"]);
             ("duplex", let? b := bytespath interface ["duplex"] in Ok (JInt (be_uint b)))] in
           Ok (Some v)
       end).

(** parsers/atop_1_26.py:203-223 *)
Definition parse_NETU (h : hobj) (r s : cobj) (ts : list cobj) : rows_out :=
  gen_single (row_of [
    ("timestamp", jval r ["curtime"]);
    ("interval", jval r ["interval"]);
    ("name", Ok (JStr (text "upper")));
    ("tcp_pkt_received", jval s ["net"; "tcp"; "InSegs"]);
    ("tcp_pkt_transmitted", jval s ["net"; "tcp"; "OutSegs"]);
    ("udp_pkt_received", jsum s ["net"; "udpv4"; "InDatagrams"] ["net"; "udpv6"; "Udp6InDatagrams"]);
    ("udp_pkt_transmitted", jsum s ["net"; "udpv4"; "OutDatagrams"] ["net"; "udpv6"; "Udp6OutDatagrams"]);
    ("ip_pkt_received", jsum s ["net"; "ipv4"; "InReceives"] ["net"; "ipv6"; "Ip6InReceives"]);
    ("ip_pkt_transmitted", jsum s ["net"; "ipv4"; "OutRequests"] ["net"; "ipv6"; "Ip6OutRequests"]);
    ("ip_pkt_delivered", jsum s ["net"; "ipv4"; "InDelivers"] ["net"; "ipv6"; "Ip6InDelivers"]);
    ("ip_pkt_forwarded", jsum s ["net"; "ipv4"; "ForwDatagrams"] ["net"; "ipv6"; "Ip6OutForwDatagrams"])]).

(** parsers/atop_1_26.py:226-242 *)
Definition parse_PAG (h : hobj) (r s : cobj) (ts : list cobj) : rows_out :=
  gen_single (row_of [
    ("timestamp", jval r ["curtime"]);
    ("interval", jval r ["interval"]);
    ("page_size", jval (h_obj h) ["pagesize"]);
    ("page_scans", jval s ["mem"; "pgscans"]);
    ("alloc_stalls", jval s ["mem"; "allocstall"]);
    ("swapins", jval s ["mem"; "swins"]);
    ("swapouts", jval s ["mem"; "swouts"])]).

(** A [for stat in tstats: values = {...}; yield values] generator. *)
Definition gen_tasks (ts : list cobj) (fields : cobj -> list (string * res json)) : rows_out :=
  gen_for (Ok ts) (fun stat => let? v := row_of (fields stat) in Ok (Some v)).

(** parsers/atop_1_26.py:245-269 *)
Definition parse_PRC (h : hobj) (r s : cobj) (ts : list cobj) : rows_out :=
  gen_tasks ts (fun stat => [
    ("timestamp", jval r ["curtime"]);
    ("interval", jval r ["interval"]);
    ("pid", jval stat ["gen"; "pid"]);
    ("name", jdecode stat ["gen"; "name"]);
    ("state", jdecode stat ["gen"; "state"]);
    ("ticks", jval (h_obj h) ["hertz"]);
    ("user_consumption", jval stat ["cpu"; "utime"]);
    ("system_consumption", jval stat ["cpu"; "stime"]);
    ("nice", jval stat ["cpu"; "nice"]);
    ("priority", jval stat ["cpu"; "prio"]);
    ("priority_realtime", jval stat ["cpu"; "rtprio"]);
    ("policy", jval stat ["cpu"; "policy"]);
    ("cpu", jval stat ["cpu"; "curcpu"]);
    ("sleep", jval stat ["cpu"; "sleepavg"])]).

(** parsers/atop_1_26.py:272-294 *)
Definition parse_PRD (h : hobj) (r s : cobj) (ts : list cobj) : rows_out :=
  gen_tasks ts (fun stat => [
    ("timestamp", jval r ["curtime"]);
    ("interval", jval r ["interval"]);
    ("pid", jval stat ["gen"; "pid"]);
    ("name", jdecode stat ["gen"; "name"]);
    ("state", jdecode stat ["gen"; "state"]);
    ("kernel_patch", jflag h a1_26_PATCHSTAT);
    ("standard_io", jflag h a1_26_IOSTAT);
    ("reads", jval stat ["dsk"; "rio"]);
    ("read_sectors", jval stat ["dsk"; "rsz"]);
    ("writes", jval stat ["dsk"; "wio"]);
    ("written_sectors", jval stat ["dsk"; "wsz"]);
    ("cancelled_sector_writes", jval stat ["dsk"; "cwsz"])]).

(** parsers/atop_1_26.py:297-330 *)
Definition parse_PRG (h : hobj) (r s : cobj) (ts : list cobj) : rows_out :=
  gen_tasks ts (fun stat => [
    ("timestamp", jval r ["curtime"]);
    ("interval", jval r ["interval"]);
    ("pid", jval stat ["gen"; "pid"]);
    ("name", jdecode stat ["gen"; "name"]);
    ("state", jdecode stat ["gen"; "state"]);
    ("real_uid", jval stat ["gen"; "ruid"]);
    ("real_gid", jval stat ["gen"; "rgid"]);
    ("tgid", jval stat ["gen"; "pid"]);
    ("threads", jval stat ["gen"; "nthr"]);
    ("exit_code", jval stat ["gen"; "excode"]);
    ("start_time", jval stat ["gen"; "btime"]);
    ("cmd", jdecode stat ["gen"; "cmdline"]);
    ("ppid", jval stat ["gen"; "ppid"]);
    ("running_threads", jval stat ["gen"; "nthrrun"]);
    ("sleeping_threads", jval stat ["gen"; "nthrslpi"]);
    ("dead_threads", jval stat ["gen"; "nthrslpu"]);
    ("effective_uid", jval stat ["gen"; "euid"]);
    ("effective_gid", jval stat ["gen"; "egid"]);
    ("saved_uid", jval stat ["gen"; "suid"]);
    ("saved_gid", jval stat ["gen"; "sgid"]);
    ("filesystem_uid", jval stat ["gen"; "fsuid"]);
    ("filesystem_gid", jval stat ["gen"; "fsgid"]);
    ("elapsed_time", jval stat ["gen"; "elaps"])]).

(** parsers/atop_1_26.py:333-356 *)
Definition parse_PRM (h : hobj) (r s : cobj) (ts : list cobj) : rows_out :=
  gen_tasks ts (fun stat => [
    ("timestamp", jval r ["curtime"]);
    ("interval", jval r ["interval"]);
    ("pid", jval stat ["gen"; "pid"]);
    ("name", jdecode stat ["gen"; "name"]);
    ("state", jdecode stat ["gen"; "state"]);
    ("page", jval (h_obj h) ["pagesize"]);
    ("vsize", jkib stat ["mem"; "vmem"]);
    ("rsize", jkib stat ["mem"; "rmem"]);
    ("ssize", jkib stat ["mem"; "shtext"]);
    ("vgrowth", jkib stat ["mem"; "vgrow"]);
    ("rgrowth", jkib stat ["mem"; "rgrow"]);
    ("minor_faults", jval stat ["mem"; "minflt"]);
    ("major_faults", jval stat ["mem"; "majflt"])]).

(** parsers/atop_1_26.py:359-385 *)
Definition parse_PRN (h : hobj) (r s : cobj) (ts : list cobj) : rows_out :=
  gen_tasks ts (fun stat => [
    ("timestamp", jval r ["curtime"]);
    ("interval", jval r ["interval"]);
    ("pid", jval stat ["gen"; "pid"]);
    ("name", jdecode stat ["gen"; "name"]);
    ("state", jdecode stat ["gen"; "state"]);
    ("kernel_patch", jflag h a1_26_PATCHSTAT);
    ("tcp_transmitted", jval stat ["net"; "tcpsnd"]);
    ("tcp_transmitted_size", jval stat ["net"; "tcpssz"]);
    ("tcp_received", jval stat ["net"; "tcprcv"]);
    ("tcp_received_size", jval stat ["net"; "tcprsz"]);
    ("udp_transmitted", jval stat ["net"; "udpsnd"]);
    ("udp_transmitted_size", jval stat ["net"; "udpssz"]);
    ("udp_received", jval stat ["net"; "udprcv"]);
    ("udp_received_size", jval stat ["net"; "udprsz"]);
    ("raw_transmitted", jval stat ["net"; "rawsnd"]);
    ("raw_received", jval stat ["net"; "rawrcv"])]).

(** parsers/atop_1_26.py:388-404 *)
Definition parse_SWP (h : hobj) (r s : cobj) (ts : list cobj) : rows_out :=
  gen_single (row_of [
    ("timestamp", jval r ["curtime"]);
    ("interval", jval r ["interval"]);
    ("page_size", jval (h_obj h) ["pagesize"]);
    ("swap", jval s ["mem"; "totswap"]);
    ("free_swap", jval s ["mem"; "freeswap"]);
    ("committed_space", jval s ["mem"; "committed"]);
    ("committed_limit", jval s ["mem"; "commitlim"])]).
