(** * The library against any file-like object

    Model.v fixes what the file is: bytes with an end.  generate_statistics and get_header accept
    any object with [read] and [readinto].  Here the same functions are written as programs that
    ask for reads and go on with whatever answer they get; a file object is a state machine that
    answers.  These two methods are the only ones utils.py calls on the object (utils.py:148, 183,
    207, 233, 268, 270). *)
From Coq Require Import List ZArith Bool String.
From Coq Require Import Init.Byte.
From Verif Require Import PyBase CTypes S_shared Model.
Import ListNotations.
Open Scope list_scope.
Open Scope Z_scope.

(** What is asked of the object. *)
Inductive request :=
| AskReadinto (size : Z)   (* raw_file.readinto(struct), a new struct of [size] bytes *)
| AskRead (n : Z).         (* raw_file.read(n) *)

(** An exception, or bytes: those returned by read, or those that readinto put at the start of the
    struct (it cannot put more there than fit). *)
Definition answer := res (list byte).

Inductive prog (A : Type) :=
| Done (a : A)
| Ask (q : request) (k : answer -> prog A).
Arguments Done {A} a.
Arguments Ask {A} q k.

Fixpoint pbind {A B} (p : prog A) (k : A -> prog B) : prog B :=
  match p with
  | Done a => k a
  | Ask q c => Ask q (fun x => pbind (c x) k)
  end.

(** Programs that may raise. *)
Definition P (A : Type) := prog (res A).
Definition pret {A} (a : A) : P A := Done (Ok a).
Definition plift {A} (r : res A) : P A := Done r.
Definition pseq {A B} (m : P A) (k : A -> P B) : P B :=
  pbind m (fun r => match r with Ok a => k a | Raise e => Done (Raise e) end).
Notation "'do' x <- m ; k" := (pseq m (fun x => k)) (at level 200, x pattern, m at level 100, k at level 200).

Definition p_read (n : Z) : P (list byte) := Ask (AskRead n) (fun r => Done r).
(** A new zeroed struct, with what readinto put into it. *)
Definition p_readinto (n : Z) : P (list byte) :=
  Ask (AskReadinto n) (fun r => Done (match r with
                                      | Ok b => let c := ztake n b in Ok (c ++ zeros (n - zlen c))
                                      | Raise e => Raise e
                                      end)).

(** utils.py:132-163 get_header *)
Definition p_get_header (check : bool) : P hobj :=
  do buf <- p_readinto (sizeof (hc_header default_class));
  plift (get_header_of_bytes buf check).

(** utils.py:166-185 get_record *)
Definition p_get_record (h : hobj) : P cobj :=
  let t := hc_record (h_class h) in
  do b <- p_readinto (sizeof t);
  pret (mkObj t b).

Section Decompressor.
Variable dec : list byte -> option (list byte).

(** utils.py:188-210 get_sstat *)
Definition p_get_sstat (h : hobj) (r : cobj) : P cobj :=
  do n <- plift (getint r "scomplen");
  do buffer <- p_read n;
  do d <- plift (zlib_decompress dec buffer);
  plift (from_buffer_copy (hc_sstat (h_class h)) d).

(** utils.py:213-245 get_tstat *)
Definition p_get_tstat (h : hobj) (r : cobj) : P (list cobj) :=
  do n <- plift (getint r "pcomplen");
  do buffer <- p_read n;
  do d <- plift (zlib_decompress dec buffer);
  do record_count <- plift (if is_record_1_26 r then getint r "nlist" else getint r "ndeviat");
  do v23 <- plift (version_at_least_2 h 3);
  do tstatlen <- plift (if v23 : bool then getint (h_obj h) "tstatlen" else getint (h_obj h) "pstatlen");
  plift (tstat_loop (hc_tstat (h_class h)) tstatlen d (Z.to_nat record_count) 0).

(** utils.py:248-293 get_cstat *)
Definition p_get_cstat (h : hobj) (r : cobj) : P (list chainer) :=
  do nc <- plift (getint r "ccomplen");
  do buffer_cstats <- p_read nc;
  do dc <- plift (zlib_decompress dec buffer_cstats);
  do ni <- plift (getint r "icomplen");
  do buffer_pidlist <- p_read ni;
  do dp <- plift (zlib_decompress dec buffer_pidlist);
  do cstatlen <- plift (getint (h_obj h) "cstatlen");
  do ncgroups <- plift (getint r "ncgroups");
  plift (match hc_cstat (h_class h) with
         | Some ct => cstat_loop ct cstatlen dc dp (Z.to_nat ncgroups) 0 0
         | None => if 0 <? ncgroups then Raise (AttributeError "from_buffer_copy") else Ok []
         end).

(** utils.py:114-123 *)
Definition p_read_sample (h : hobj) (gate : bool) : P (option sample) :=
  do record <- p_get_record h;
  do scomplen <- plift (getint record "scomplen");
  if scomplen <=? 0 then pret None else
  do sstat <- p_get_sstat h record;
  do tstats <- p_get_tstat h record;
  do cgroups <- (if gate then p_get_cstat h record else pret []);
  pret (Some (mkSample record sstat tstats cgroups)).

(** utils.py:107-129 *)
Definition p_loop (h : hobj) (gate strict : bool) (todo : Z) : prog (gout * gstate) :=
  if todo <=? 0 then Done (StopIteration, GDone) else
  pbind (p_read_sample h gate) (fun r => Done (match r with
    | Ok (Some s) => (Yield s, GYielded h gate strict (todo - 1))
    | Ok None => (StopIteration, GDone)
    | Raise e => (on_exception strict e, GDone)
    end)).

(** utils.py:103-107 *)
Definition p_start (h : hobj) (strict : bool) (max_samples : Z) : prog (gout * gstate) :=
  match cgroup_gate h with
  | Ok gate => p_loop h gate strict max_samples
  | Raise e => Done (on_exception strict e, GDone)
  end.

(** [next(generator)] (utils.py:99-129) *)
Definition p_next (g : gstate) : prog (gout * gstate) :=
  match g with
  | GInit (Some h) strict ms => p_start h strict ms
  | GInit None strict ms =>
      pbind (p_get_header true) (fun r => match r with
        | Ok h => p_start h strict ms
        | Raise e => Done (Raised e, GDone)
        end)
  | GYielded h gate strict todo => p_loop h gate strict todo
  | GDone => Done (StopIteration, GDone)
  end.

(** A [for] loop, at most [fuel] calls of next. *)
Fixpoint p_drain (fuel : nat) (g : gstate) : prog (list sample * option ending) :=
  match fuel with
  | O => Done ([], None)
  | S k =>
      pbind (p_next g) (fun x => match x with
        | (Yield s, g') => pbind (p_drain k g') (fun r => Done (s :: fst r, snd r))
        | (StopIteration, _) => Done ([], Some None)
        | (Raised e, _) => Done ([], Some (Some e))
        end)
  end.

Definition p_run (hdr : option hobj) (strict : bool) (max_samples : Z) : prog (list sample * option ending) :=
  p_drain (S (Z.to_nat max_samples)) (generate_statistics hdr strict max_samples).

End Decompressor.

(** ** File objects *)

(** An object with state [St]: how it answers, and its state then. *)
Definition fileobj (St : Type) := request -> St -> answer * St.

Section Object.
Context {St : Type} (o : fileobj St).

Fixpoint with_file {A} (p : prog A) (s : St) : A * St :=
  match p with
  | Done a => (a, s)
  | Ask q k => let (x, s') := o q s in with_file (k x) s'
  end.

(** The requests made and the answers given, in order. *)
Fixpoint dialogue {A} (p : prog A) (s : St) : list (request * answer) :=
  match p with
  | Done _ => []
  | Ask q k => let (x, s') := o q s in (q, x) :: dialogue (k x) s'
  end.

End Object.

(** The file of PyBase.v as an object. *)
Definition file_object : fileobj file := fun q f =>
  match q with AskReadinto n => fread n f | AskRead n => fread n f end.

(** [io.BytesIO]: contents and position (possibly past the end). *)
Record bytesio := mkBIO { io_bytes : list byte; io_pos : nat }.
Definition bytesio_object : fileobj bytesio := fun q s =>
  let n := match q with AskReadinto n => n | AskRead n => n end in
  let rest := skipn (io_pos s) (io_bytes s) in
  let b := if n <? 0 then rest else firstn (Z.to_nat n) rest in
  (Ok b, mkBIO (io_bytes s) (io_pos s + List.length b)).

(** An unbuffered file or pipe ([open(..., buffering=0)], a socket file): one system call per
    request, which may give fewer bytes than asked for; [limits] says how many each gives. *)
Record rawio := mkRaw { raw_rem : list byte; raw_limits : list Z }.
Definition raw_object : fileobj rawio := fun q s =>
  let n := match q with AskReadinto n => n | AskRead n => n end in
  let m := match raw_limits s with [] => n | l :: _ => Z.min n l end in
  (Ok (ztake m (raw_rem s)), mkRaw (zdrop m (raw_rem s)) (tl (raw_limits s))).
