(** * What the 1.26 "parseable" rows contain

    Written from the atop 1.26 file format: byte offsets into the raw header ([h]), the raw
    record ([r]), the decompressed system statistics ([s], 88368 bytes) and one decompressed
    process entry ([t], 616 bytes).  Nothing here refers to the model's struct tables. *)
From Coq Require Import List ZArith Bool String.
From Coq Require Import Init.Byte.
From Verif Require Import PyBase CTypes Model Spec.
Import ListNotations.
Local Open Scope string_scope.
Local Open Scope Z_scope.

(** The [n] bytes from offset [off]. *)
Definition piece (b : list byte) (off n : Z) : list byte := firstn (Z.to_nat n) (skipn (Z.to_nat off) b).

(** [count] consecutive slots of [size] bytes from offset [base]. *)
Definition slots (b : list byte) (base size count : Z) : list (list byte) :=
  map (fun i => piece b (base + size * Z.of_nat i) size) (seq 0 (Z.to_nat count)).

(** ** Columns *)

Definition n64 (b : list byte) (off : Z) : json := JInt (i64_at b off).
Definition n32 (b : list byte) (off : Z) : json := JInt (i32_at b off).
Definition f32 (b : list byte) (off : Z) : json := JFloat (u32_at b off).
Definition str (s : string) : json := JStr (map (fun c => Z.of_nat (Ascii.nat_of_ascii c)) (list_ascii_of_string s)).

(** Time and interval of the record; clock ticks and page size of the header. *)
Definition time_of (r : list byte) : json := JInt (i64_at r 0).
Definition interval_of (r : list byte) : json := JInt (u32_at r 24).
Definition hertz_of (h : list byte) : json := JInt (u16_at h 14).
Definition pagesize_of (h : list byte) : json := JInt (u32_at h 436).
(** "y" when bit [n] of the support flags is set. *)
Definition flag_of (h : list byte) (n : Z) : json :=
  str (if Z.testbit (i32_at h 440) n then "y" else "n").

(** ** System rows *)

Definition core_row (h r core : list byte) (i : Z) : list (string * json) :=
  [("timestamp", time_of r); ("interval", interval_of r); ("ticks", hertz_of h); ("proc", JInt i);
   ("system", n64 core 8); ("user", n64 core 16); ("niced", n64 core 24); ("idle", n64 core 32);
   ("wait", n64 core 40); ("irq", n64 core 48); ("softirq", n64 core 56); ("steal", n64 core 64);
   ("guest", n64 core 72)].

(** Number of cores in use, and the 64 slots of 112 bytes. *)
Definition cores (s : list byte) : Z := i64_at s 0.
Definition core_slots (s : list byte) : list (list byte) := slots s 192 112 64.

Definition load_row (r s : list byte) : list (string * json) :=
  [("timestamp", time_of r); ("interval", interval_of r); ("procs", n64 s 0);
   ("load_1", f32 s 32); ("load_5", f32 s 36); ("load_15", f32 s 40);
   ("context_switches", n64 s 16); ("interrupts", n64 s 8)].

Definition cpu_row (h r s : list byte) : list (string * json) :=
  [("timestamp", time_of r); ("interval", interval_of r); ("ticks", hertz_of h); ("procs", n64 s 0);
   ("system", n64 s 88); ("user", n64 s 96); ("niced", n64 s 104); ("idle", n64 s 112);
   ("wait", n64 s 120); ("irq", n64 s 128); ("softirq", n64 s 136); ("steal", n64 s 144);
   ("guest", n64 s 152)].

(** Memory statistics start at 7360. *)
Definition mem_row (h r s : list byte) : list (string * json) :=
  [("timestamp", time_of r); ("interval", interval_of r); ("page_size", pagesize_of h);
   ("phys_mem", n64 s 7360); ("free_mem", n64 s 7368); ("page_cache", n64 s 7392);
   ("buffer_cache", n64 s 7376); ("slab", n64 s 7384); ("dirty_pages", n64 s 7400)].

Definition swap_row (h r s : list byte) : list (string * json) :=
  [("timestamp", time_of r); ("interval", interval_of r); ("page_size", pagesize_of h);
   ("swap", n64 s 7408); ("free_swap", n64 s 7416); ("committed_space", n64 s 7464);
   ("committed_limit", n64 s 7456)].

Definition paging_row (h r s : list byte) : list (string * json) :=
  [("timestamp", time_of r); ("interval", interval_of r); ("page_size", pagesize_of h);
   ("page_scans", n64 s 7424); ("alloc_stalls", n64 s 7432); ("swapins", n64 s 7448);
   ("swapouts", n64 s 7440)].

(** Network statistics: ipv4 at 7504, udpv4 at 7864, ipv6 at 7896, udpv6 at 8296, tcp at 8328. *)
Definition n64_sum (s : list byte) (a b : Z) : json := JInt (i64_at s a + i64_at s b).
Definition net_row (r s : list byte) : list (string * json) :=
  [("timestamp", time_of r); ("interval", interval_of r); ("name", str "upper");
   ("tcp_pkt_received", n64 s 8400); ("tcp_pkt_transmitted", n64 s 8408);
   ("udp_pkt_received", n64_sum s 7864 8296); ("udp_pkt_transmitted", n64_sum s 7888 8320);
   ("ip_pkt_received", n64_sum s 7520 7896); ("ip_pkt_transmitted", n64_sum s 7576 7976);
   ("ip_pkt_delivered", n64_sum s 7568 7960); ("ip_pkt_forwarded", n64_sum s 7544 7968)].

(** ** Device rows: the row of a slot whose name is the text [name] *)

Definition disk_spec (r slot : list byte) (name : list Z) : list (string * json) :=
  [("timestamp", time_of r); ("interval", interval_of r); ("name", JStr name);
   ("io_ms", n64 slot 64); ("reads", n64 slot 32); ("read_sectors", n64 slot 40);
   ("writes", n64 slot 48); ("write_sectors", n64 slot 56)].

Definition intf_spec (r slot : list byte) (name : list Z) : list (string * json) :=
  [("timestamp", time_of r); ("interval", interval_of r); ("name", JStr name);
   ("pkt_received", n64 slot 24); ("byte_received", n64 slot 16);
   ("pkt_transmitted", n64 slot 120); ("bytes_transmitted", n64 slot 112);
   ("speed", n64 slot 208); ("duplex", JInt (at8 slot 216))].

Definition disk_slots (s : list byte) : list (list byte) := slots s 16656 112 256.
Definition mdd_slots (s : list byte) : list (list byte) := slots s 45328 112 128.
Definition lvm_slots (s : list byte) : list (list byte) := slots s 59664 112 256.
Definition intf_slots (s : list byte) : list (list byte) := slots s 8448 256 32.

(** ** Process rows: [name], [cmd] are texts, the state is one ASCII character *)

Definition task_row_head (r t : list byte) (name : list Z) : list (string * json) :=
  [("timestamp", time_of r); ("interval", interval_of r); ("pid", n32 t 0); ("name", JStr name);
   ("state", JStr [at8 t 60])].

Definition prc_spec (h r t : list byte) (name : list Z) : list (string * json) :=
  (task_row_head r t name ++
   [("ticks", hertz_of h); ("user_consumption", n64 t 256); ("system_consumption", n64 t 264);
    ("nice", n32 t 272); ("priority", n32 t 276); ("priority_realtime", n32 t 280);
    ("policy", n32 t 284); ("cpu", n32 t 288); ("sleep", n32 t 292)])%list.

Definition prd_spec (h r t : list byte) (name : list Z) : list (string * json) :=
  (task_row_head r t name ++
   [("kernel_patch", flag_of h 1); ("standard_io", flag_of h 2); ("reads", n64 t 344);
    ("read_sectors", n64 t 352); ("writes", n64 t 360); ("written_sectors", n64 t 368);
    ("cancelled_sector_writes", n64 t 376)])%list.

Definition prg_spec (h r t : list byte) (name cmd : list Z) : list (string * json) :=
  (task_row_head r t name ++
   [("real_uid", n32 t 8); ("real_gid", n32 t 24); ("tgid", n32 t 0); ("threads", n32 t 40);
    ("exit_code", n32 t 64); ("start_time", n64 t 72); ("cmd", JStr cmd); ("ppid", n32 t 4);
    ("running_threads", n32 t 248); ("sleeping_threads", n32 t 240); ("dead_threads", n32 t 244);
    ("effective_uid", n32 t 12); ("effective_gid", n32 t 28); ("saved_uid", n32 t 16);
    ("saved_gid", n32 t 32); ("filesystem_uid", n32 t 20); ("filesystem_gid", n32 t 36);
    ("elapsed_time", n64 t 80)])%list.

Definition kib (t : list byte) (off : Z) : json := JInt (i64_at t off * 1024).
Definition prm_spec (h r t : list byte) (name : list Z) : list (string * json) :=
  (task_row_head r t name ++
   [("page", pagesize_of h); ("vsize", kib t 440); ("rsize", kib t 448); ("ssize", kib t 432);
    ("vgrowth", kib t 456); ("rgrowth", kib t 464); ("minor_faults", n64 t 416);
    ("major_faults", n64 t 424)])%list.

Definition prn_spec (h r t : list byte) (name : list Z) : list (string * json) :=
  (task_row_head r t name ++
   [("kernel_patch", flag_of h 1); ("tcp_transmitted", n64 t 504); ("tcp_transmitted_size", n64 t 512);
    ("tcp_received", n64 t 520); ("tcp_received_size", n64 t 528); ("udp_transmitted", n64 t 536);
    ("udp_transmitted_size", n64 t 544); ("udp_received", n64 t 552); ("udp_received_size", n64 t 560);
    ("raw_transmitted", n64 t 568); ("raw_received", n64 t 576)])%list.

(** ** Which rows come out

    Items are visited in order.  [stop]: the visit ends normally.  [ok x v]: [x] gives row [v].
    [bad x]: some text of [x] is not valid UTF-8, and the visit ends with UnicodeDecodeError. *)
Inductive rows_spec {A : Type} (stop : A -> Prop) (ok : A -> list (string * json) -> Prop) (bad : A -> Prop)
  : list A -> list (list (string * json)) * option exn -> Prop :=
| rows_end : rows_spec stop ok bad [] ([], None)
| rows_stop x l : stop x -> rows_spec stop ok bad (x :: l) ([], None)
| rows_bad x l : bad x -> rows_spec stop ok bad (x :: l) ([], Some UnicodeDecodeError)
| rows_row x v l vs e : ok x v -> rows_spec stop ok bad l (vs, e) -> rows_spec stop ok bad (x :: l) (v :: vs, e).

(** A character array that holds no text in UTF-8. *)
Definition no_text (field : list byte) : Prop := forall t, ~ holds_text t field.

(** Devices: a slot whose name array (the first [n] bytes) starts with NUL is unused. *)
Definition unused (slot : list byte) : Prop := at8 slot 0 = 0.
Definition device_ok (n : Z) (spec : list byte -> list Z -> list (string * json)) (slot : list byte)
           (v : list (string * json)) : Prop :=
  ~ unused slot /\ exists name, holds_text name (piece slot 0 n) /\ v = spec slot name.
Definition device_bad (n : Z) (slot : list byte) : Prop := ~ unused slot /\ no_text (piece slot 0 n).

(** Processes: name in 16 bytes at 44, state at 60, command line in 151 bytes at 88. *)
Definition task_ok (spec : list byte -> list Z -> list (string * json)) (t : list byte)
           (v : list (string * json)) : Prop :=
  at8 t 60 < 128 /\ exists name, holds_text name (piece t 44 16) /\ v = spec t name.
Definition task_bad (t : list byte) : Prop := 128 <= at8 t 60 \/ no_text (piece t 44 16).
Definition task_cmd_ok (spec : list byte -> list Z -> list Z -> list (string * json)) (t : list byte)
           (v : list (string * json)) : Prop :=
  at8 t 60 < 128 /\ exists name cmd, holds_text name (piece t 44 16) /\ holds_text cmd (piece t 88 151) /\
                                v = spec t name cmd.
Definition task_cmd_bad (t : list byte) : Prop := task_bad t \/ no_text (piece t 88 151).
Definition never {A} (_ : A) : Prop := False.
