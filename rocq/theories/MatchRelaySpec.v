(** Match entries that survive being read and written again, independently of
    the encoders and decoders. *)
From Verif Require Import Bytes WireSpec MatchSpec.

(** An entry of a match on the wire: four bytes of header, then the payload. *)
Definition payload (seg : bytes) : bytes := skipn 4 seg.
(** The lowest bit of the third byte says that the second half of the payload is a mask. *)
Definition masked (seg : bytes) : bool := N.odd (Byte.to_N (nth 2 seg x00)).

(** Value and mask have the same, positive length. *)
Definition regular (seg : bytes) : Prop :=
  masked seg = true -> Nat.even (length (payload seg)) = true /\ payload seg <> [].
