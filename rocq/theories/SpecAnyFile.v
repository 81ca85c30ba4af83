(** * What may be expected of a file object (for C56) *)
From Coq Require Import List ZArith.
From Coq Require Import Init.Byte.
From Verif Require Import PyBase CTypes Model Spec AnyFile.
Import ListNotations.
Open Scope list_scope.
Open Scope Z_scope.

(** An object that hands out bytes in order, as many as asked for, fewer only at the end.
    [left s]: the bytes it has not handed out yet. *)
Definition honest {St} (o : fileobj St) (left : St -> list byte) : Prop :=
  forall n s, 0 <= n ->
    (exists s1, o (AskRead n) s = (Ok (firstn (Z.to_nat n) (left s)), s1) /\ left s1 = skipn (Z.to_nat n) (left s)) /\
    (exists s2, o (AskReadinto n) s = (Ok (firstn (Z.to_nat n) (left s)), s2) /\ left s2 = skipn (Z.to_nat n) (left s)).

(** The record a readinto gives: the bytes put into it, zeros after them. *)
Definition filled (size : Z) (b : list byte) : list byte := firstn (Z.to_nat size) b ++ zeros (size - zlen (firstn (Z.to_nat size) b)).

(** What is asked of the object for a sample whose record is [rb]. *)
Definition sample_requests (vs : vspec) (rb : list byte) : list request :=
  [AskReadinto (vs_rec vs); AskRead (u32_at rb 16); AskRead (u32_at rb 20)] ++
  match vs_cstat vs with
  | Some _ => [AskRead (u32_at rb 72); AskRead (u32_at rb 84)]
  | None => []
  end.

Definition is_prefix {A} (l m : list A) : Prop := exists r, m = l ++ r.

(** The exchange with the object that gave the sample [y]: its requests in order, each answered
    with bytes; the record holds the answer to the first and zeros after it, the system statistics
    are the start of the data decompressed from the second. *)
Definition sample_exchange (dec : list byte -> option (list byte)) (vs : vspec) (y : sample) (d : list (request * answer)) : Prop :=
  exists got,
    d = combine (sample_requests vs (o_buf (s_record y))) (map Ok got) /\
    List.length got = List.length (sample_requests vs (o_buf (s_record y))) /\
    o_buf (s_record y) = filled (vs_rec vs) (nth 0 got []) /\
    exists data, dec (nth 1 got []) = Some data /\ vs_sstat vs <= zlen data /\
                 o_buf (s_sstat y) = firstn (Z.to_nat (vs_sstat vs)) data.

(** The exchange [d] after the last sample and the way iteration ended. *)
Definition last_exchange (vs : vspec) (strict : bool) (d : list (request * answer)) (e : ending) : Prop :=
  (* the record was not one of a sample *)
  (exists b, d = [(AskReadinto (vs_rec vs), Ok b)] /\ u32_at (filled (vs_rec vs) b) 16 = 0 /\ e = None) \/
  (* something failed on the way to the sample *)
  (exists rb x, d <> [] /\ is_prefix (map fst d) (sample_requests vs rb) /\
     (* a method of the object raised, and nothing was asked after that *)
     ((exists pre q, d = pre ++ [(q, Raise x)]) \/
      (* or every request was answered and the data was bad *)
      (forall q y, ~ In (q, Raise y) d) /\ (x = ZlibError \/ exists v, x = ValueError v)) /\
     e = (if strict then Some x else match x with ZlibError => None | _ => Some x end)).
