(** * Logs written by an Atop newer than the library knows (for C53) *)
From Coq Require Import List ZArith Bool String.
From Coq Require Import Init.Byte.
From Verif Require Import PyBase Spec SpecLog.
Import ListNotations.
Open Scope list_scope.
Open Scope Z_scope.

(** Two headers that differ at most in the version number (bytes 4 and 5 of the file). *)
Definition same_but_version (hb hb' : list byte) : Prop :=
  zlen hb = header_size /\ zlen hb' = header_size /\
  forall i, 0 <= i -> i <> 4 -> i <> 5 -> at8 hb i = at8 hb' i.

(** The version number in the header is [major].[minor]. *)
Definition says_version (hb : list byte) (major minor : Z) : Prop :=
  major_of hb = major /\ minor_of hb = minor.

(** A complete header of a version the library does not know, announcing the struct lengths of
    version 2.12. *)
Definition unknown_with_latest_lengths (hb : list byte) : Prop :=
  zlen hb = header_size /\ magic_of hb = magic_number /\ unsupported hb /\
  u16_at hb 10 = 480 /\ u16_at hb 12 = 96 /\ u32_at hb 28 = 1064016 /\ u32_at hb 32 = 968 /\ i32_at hb 456 = 432.
