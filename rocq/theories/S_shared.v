(** * Struct tables of atoparser/structs/shared.py

    GENERATED by tools/gen_structs.py from the text of that file; do not edit. *)
From Coq Require Import List ZArith String.
From Verif Require Import PyBase CTypes.
Import ListNotations.
Local Open Scope Z_scope.
Local Open Scope string_scope.

(** structs/shared.py:17 *)
Definition sh_time_t : ctype := (TInt true 8).
(** structs/shared.py:20 *)
Definition sh_count_t : ctype := (TInt true 8).
(** structs/shared.py:23 *)
Definition sh_off_t : ctype := (TInt true 8).
(** structs/shared.py:24 *)
Definition sh_pid_t : ctype := (TInt true 4).
(** structs/shared.py:92-107 class UTSName. *)
Definition sh_UTSName : ctype := TStruct "shared.UTSName" [
    ("sysname", (TArr (TChar) 65));
    ("nodename", (TArr (TChar) 65));
    ("release", (TArr (TChar) 65));
    ("version", (TArr (TChar) 65));
    ("machine", (TArr (TChar) 65));
    ("domain", (TArr (TChar) 65))
  ] [].
(** The attributes of a Header class (shared.py:34-39 and the end of every struct file):
    its own struct and the struct classes used to read the rest of the file.  [hc_cstat = None]
    is [CStat = None] (and then [CGChainer = None] too). *)
Record hclass := mkHClass {
  hc_version : string; hc_header : ctype; hc_record : ctype; hc_sstat : ctype;
  hc_tstat : ctype; hc_cstat : option ctype }.
