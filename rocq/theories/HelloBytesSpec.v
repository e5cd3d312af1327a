(** What arbitrary bytes say as a hello message, independently of the decoder (OpenFlow
    1.3, section 7.5.1). *)
From Verif Require Import Bytes Encoding WireSpec MatchSpec ActionSpec.

(** The bytes an element of version bitmaps takes: its header and the complete bitmaps
    that its length field, less four and modulo 65536, has room for. *)
Definition elem_size (b : bytes) : nat := 4 + 4 * N.to_nat ((num 2 2 b + 65532) mod 65536 / 4).
Definition whole_elem (seg : bytes) : Prop := 4 <= length seg /\ num 0 2 seg = 1%N /\ length seg = elem_size seg.

(** The report [v] about a hello [b]: complete elements, then less than a type, an unknown
    type, a header that breaks off, or an element that breaks off, which is not reported
    right behind its header. *)
Definition hello_report (b : bytes) (v : option err) : Prop :=
  exists segs t, b = concat segs ++ t /\ Forall whole_elem segs /\
  ((length t < 2 /\ v = None)
   \/ (2 <= length t /\ num 0 2 t <> 1%N /\ v = Some (EUnknown (num 0 2 t)))
   \/ (2 <= length t < 4 /\ num 0 2 t = 1%N /\ v = Some UnexpectedEOF)
   \/ (4 <= length t < elem_size t /\ num 0 2 t = 1%N /\ v = if length t =? 4 then None else Some UnexpectedEOF)).
