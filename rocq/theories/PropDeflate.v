(** * C41: zlib.decompress accepts exactly the zlib streams of RFC 1950 and 1951

    [zlib_stream] (SpecDeflate.v) is the specification; [inflate] and [zdecompress] (Inflate.v)
    are the model of zlib.decompress that the log theorems use. *)
From Coq Require Import List ZArith Lia Bool.
From Coq Require Import Init.Byte.
From Verif Require Import PyBase Inflate SpecDeflate Spec SpecLog InflateProofs DeflateProofs3.
Import ListNotations.
Local Open Scope list_scope.
Local Open Scope Z_scope.

Theorem C41_decompressor_exact s d u : inflate s = Some (d, u) <-> zlib_stream s d u.
Proof. apply inflate_exact. Qed.

(** zlib.decompress returns [d] exactly for the streams of [d], whatever follows them. *)
Theorem C41_decompress_exact s d : zdecompress s = Some d <-> exists u, zlib_stream s d u.
Proof.
  unfold zdecompress. split.
  - destruct (inflate s) as [[d' u]|] eqn:E; [|discriminate]. intros H. injection H as ->. exists u. apply inflate_exact, E.
  - intros (u & H). apply inflate_exact in H. rewrite H. reflexivity.
Qed.

(** zlib.error is raised exactly when the bytes do not start with a stream. *)
Theorem C41_error_exact s : zdecompress s = None <-> ~ exists d u, zlib_stream s d u.
Proof.
  unfold zdecompress. destruct (inflate s) as [[d u]|] eqn:E; split; intros H; try discriminate H; try reflexivity.
  - exfalso. apply H. exists d, u. apply inflate_exact, E.
  - intros (d & u & S). apply inflate_exact in S. rewrite S in E. discriminate E.
Qed.

(** A stream says one thing, and says where it ends. *)
Theorem C41_stream_unambiguous s d u d' u' : zlib_stream s d u -> zlib_stream s d' u' -> d = d' /\ u = u'.
Proof. intros H H'. apply inflate_exact in H, H'. rewrite H in H'. injection H' as -> ->. auto. Qed.

(** Streams of any conforming compressor can be used in a log. *)
Theorem C41_conforming_streams_usable c x : zlib_stream c x [] -> stream zdecompress c x.
Proof. intros H. apply exact_is_stream, inflate_exact, H. Qed.

(** ** Streams of zlib.compress, with fixed and with dynamic Huffman codes *)

Definition fixed_stream : list byte :=
  [x78; x9c; x4b; x4c; x4a; x4e; x44; x42; x00; x2d; xf5; x05; xbf].
Definition fixed_data : list byte :=
  [x61; x62; x63; x61; x62; x63; x61; x62; x63; x61; x62; x63; x61; x62; x63].
Definition dynamic_stream : list byte :=
  [x78; xda; x1d; x88; xb1; x0d; x00; x30; x0c; x83; x6e; x05; xc7; xff; xbf; xd0; x26; x48; x30;
   x80; x01; xd1; x8b; x95; xf6; x46; xc8; x77; x58; x46; x1f; x39; xfc; x0f; x51].
Definition dynamic_data : list byte :=
  [x61; x62; x63; x61; x61; x62; x61; x62; x62; x61; x62; x61; x62; x62; x62; x65; x62; x61; x65;
   x65; x61; x61; x62; x61; x62; x63; x61; x63; x62; x63; x61; x64; x61; x61; x61; x61; x61; x64;
   x62; x62].

Example C41_fixed_example : zlib_stream fixed_stream fixed_data [].
Proof. apply C41_decompressor_exact. vm_compute. reflexivity. Qed.
Example C41_dynamic_example : zlib_stream (dynamic_stream ++ [x00; x01]) dynamic_data [x00; x01].
Proof. apply C41_decompressor_exact. vm_compute. reflexivity. Qed.
Example C41_damaged_example : ~ exists d u, zlib_stream (firstn 30 dynamic_stream ++ [x55] ++ skipn 31 dynamic_stream) d u.
Proof. apply C41_error_exact. vm_compute. reflexivity. Qed.
