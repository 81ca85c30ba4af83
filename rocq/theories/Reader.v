(** * Model of atoparser/reader.py *)
From Coq Require Import List ZArith Lia Bool String.
From Coq Require Import Init.Byte.
From Verif Require Import PyBase Utf8 CTypes S_shared S_1_26 Model Parsers Json Gzip.
Import ListNotations.
Local Open Scope string_scope.
Local Open Scope list_scope.
Local Open Scope Z_scope.

Definition parser := hobj -> cobj -> cobj -> list cobj -> rows_out.

(** reader.py:12 [PARSEABLES] *)
Definition PARSEABLES : list string :=
  ["cpu"; "CPL"; "CPU"; "DSK"; "LVM"; "MDD"; "MEM"; "NETL"; "NETU"; "PAG"; "PRC"; "PRG"; "PRM";
   "PRN"; "SWP"].

(** [getattr(atop_1_26, f"parse_{parseable}")]: the functions of that module. *)
Definition parser_table : list (string * parser) :=
  [("cpu", parse_cpu); ("CPL", parse_CPL); ("CPU", parse_CPU); ("DSK", parse_DSK);
   ("LVM", parse_LVM); ("MDD", parse_MDD); ("MEM", parse_MEM); ("NETL", parse_NETL);
   ("NETU", parse_NETU); ("PAG", parse_PAG); ("PRC", parse_PRC); ("PRD", parse_PRD);
   ("PRG", parse_PRG); ("PRM", parse_PRM); ("PRN", parse_PRN); ("SWP", parse_SWP)].

(** The inner dictionary of reader.py:13-15. *)
Definition parsers_1_26 : list (string * parser) :=
  fold_left (fun d p => match assoc p parser_table with
                        | Some f => dict_set d p f
                        | None => d
                        end) PARSEABLES [].

(** reader.py:13-15 [PARSEABLE_MAP] *)
Definition PARSEABLE_MAP : list (string * list (string * parser)) := [("1.26", parsers_1_26)].

(** Python's [needle in haystack], on code points. *)
Fixpoint starts_with (p l : list Z) : bool :=
  match p, l with
  | [], _ => true
  | a :: p', b :: l' => (a =? b) && starts_with p' l'
  | _ :: _, [] => false
  end.
Fixpoint contains (p l : list Z) : bool :=
  starts_with p l || match l with [] => false | _ :: r => contains p r end.

(** reader.py:79: gzip iff ".gz" occurs in the path (a list of code points). *)
Definition uses_gzip (path : list Z) : bool := contains (text ".gz") path.

Section Reader.
Variable dec : list byte -> option (list byte).
(** The file system: the content of a path, or the exception that opening it raises.  Nobody
    else changes it meanwhile. *)
Variable disk : list Z -> res (list byte).
(** What a damaged gzip file delivers before it fails (see Gzip.v). *)
Variable salvage : list byte -> list byte.
Variable fault : list byte -> exn.
Variable float_repr : Z -> list Z.

(** reader.py:79-80: [open] or [gzip.open], for binary reading. *)
Definition open_file (path : list Z) : res file :=
  let? b := disk path in
  Ok (if uses_gzip path then gzip_file salvage fault b else plain b).

(** reader.py:97-100: the rows of one sample, parseable by parseable. *)
Fixpoint parseable_rows (parsers : list (string * parser)) (ps : list string)
         (h : hobj) (s : sample) : res (list json) :=
  match ps with
  | [] => Ok []
  | p :: r =>
      match assoc p parsers with
      | None => Raise (KeyError p)
      | Some f =>
          match f h (s_record s) (s_sstat s) (s_tstats s) with
          | (rows, None) =>
              let? more := parseable_rows parsers r h s in
              Ok (map (fun w => JDict (dict_set w "parseable" (JStr (text p)))) rows ++ more)
          | (_, Some e) => Raise e
          end
      end
  end.

(** reader.py:101-111: the full conversion of one sample. *)
Definition full_sample (show_tstats show_cstats : bool) (h : hobj) (s : sample) : res json :=
  let? jh := struct_to_dict (h_obj h) in
  let? jr := struct_to_dict (s_record s) in
  let? js := struct_to_dict (s_sstat s) in
  let d := [("header", jh); ("record", jr); ("sstat", js)] in
  let? d := if show_tstats then
              let? l := rmap struct_to_dict (s_tstats s) in Ok (dict_set d "tstat" (JList l))
            else Ok d in
  let? d := if show_cstats then
              let? l := rmap chainer_to_dict (s_cgroups s) in Ok (dict_set d "cgroup" (JList l))
            else Ok d in
  Ok (JDict d).

(** reader.py:96-111: what one sample appends to [samples]. *)
Definition sample_entries (parsers : list (string * parser)) (ps : list string)
           (show_tstats show_cstats : bool) (h : hobj) (s : sample) : res (list json) :=
  match ps with
  | _ :: _ => parseable_rows parsers ps h s
  | [] => let? j := full_sample show_tstats show_cstats h s in Ok [j]
  end.

(** reader.py:91-111: the for loop; [fuel] bounds the calls of next and is always enough
    ([collect_enough] in ReaderProofs.v). *)
Fixpoint collect (entries : sample -> res (list json)) (fuel : nat) (g : gstate) (f : file)
  : res (list json) * file :=
  match fuel with
  | O => (Raise TypeError, f)
  | S k =>
      match gnext dec g f with
      | (Yield s, g', f') =>
          match entries s with
          | Raise e => (Raise e, f')
          | Ok es =>
              match collect entries k g' f' with
              | (Ok l, f'') => (Ok (es ++ l)%list, f'')
              | (Raise e, f'') => (Raise e, f'')
              end
          end
      | (StopIteration, _, f') => (Ok [], f')
      | (Raised e, _, f') => (Raise e, f')
      end
  end.

(** reader.py:78-111 on an opened file: the list [samples].  [parseables] is [[]] for None. *)
Definition samples_of_file (path : list Z) (parseables : list string)
           (show_tstats show_cstats : bool) (f : file) : res (list json) * file :=
  match get_header true f with
  | (Raise e, f') => (Raise e, f')
  | (Ok h, f') =>
      match semantic_version h with
      | Raise e => (Raise e, f')
      | Ok v =>
          match parseables, assoc v PARSEABLE_MAP with
          | _ :: _, None =>
              (Ok [JDict [("error", JStr (text ("Atop version " ++ v ++
                              " does not support parseables, only full raw output.")%string));
                          ("file", JStr path)]], f')
          | _, m =>
              let parsers := match m with Some p => p | None => parsers_1_26 end in
              collect (sample_entries parsers parseables show_tstats show_cstats h)
                      (S (Z.to_nat MAX_SAMPLES_PER_FILE))
                      (generate_statistics (Some h) false MAX_SAMPLES_PER_FILE) f'
          end
      end
  end.

(** reader.py:61-112: the printed text. *)
Definition parse_file (path : list Z) (parseables : list string) (pretty_print : bool)
           (show_tstats show_cstats : bool) : res (list Z) :=
  let? f := open_file path in
  let? samples := fst (samples_of_file path parseables show_tstats show_cstats f) in
  match dumps float_repr pretty_print 0 (JList samples) with
  | Some t => Ok t
  | None => Raise TypeError
  end.

(** What the program does to the outside: opening a path, printing a text (and a newline). *)
Inductive event := Opened (path : list Z) | Printed (t : list Z).

(** reader.py:115-126: the effects of the loop, and the exception that stopped it. *)
Fixpoint main_loop (files : list (list Z)) (parseables : list string) (pretty show_t show_c : bool)
  : list event * option exn :=
  match files with
  | [] => ([], None)
  | p :: r =>
      match parse_file p parseables pretty show_t show_c with
      | Ok t => let '(es, e) := main_loop r parseables pretty show_t show_c in
                (Opened p :: Printed t :: es, e)
      | Raise e => ([Opened p], Some e)
      end
  end.
End Reader.
