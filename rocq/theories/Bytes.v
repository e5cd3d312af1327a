(** Bytes and big-endian integers. *)
From Coq Require Export List Arith NArith ZArith Lia Bool.
From Coq Require Export Strings.Byte.
Export ListNotations.

Definition bytes := list byte.

(** Go's conversion to [uint8]: keep the low eight bits. *)
Definition byte_of_N (n : N) : byte :=
  match Byte.of_N (n mod 256) with Some b => b | None => x00 end.

(** [binary.BigEndian] encoding of an unsigned integer on [k] bytes
    (encoding/binary, used by internal/encoding/encoding.go:79).  The value is
    taken modulo [256^k], as a Go unsigned integer of that width would be. *)
Fixpoint be_enc (k : nat) (n : N) : bytes :=
  match k with
  | O => []
  | S k' => byte_of_N (n / 256 ^ N.of_nat k')%N :: be_enc k' n
  end.

(** [binary.BigEndian] decoding (internal/encoding/encoding.go:104). *)
Definition be_dec (l : bytes) : N :=
  fold_left (fun acc b => acc * 256 + Byte.to_N b)%N l 0%N.

(** A block of [k] zero bytes: [padN{}] in ofp/pad.go:4-12, [make([]byte, k)]. *)
Definition zeros (k : nat) : bytes := repeat x00 k.

(** [uintK(x)]: Go conversion to an unsigned integer of [k] bytes. *)
Definition uwrap (k : nat) (n : N) : N := (n mod 256 ^ N.of_nat k)%N.

(** Range invariant of a Go unsigned integer of [k] bytes. *)
Definition fits (k : nat) (n : N) : Prop := (n < 256 ^ N.of_nat k)%N.

Definition fitsb (k : nat) (n : N) : bool := (n <? 256 ^ N.of_nat k)%N.

(** Length of a byte string as [N]. *)
Definition lenN (l : bytes) : N := N.of_nat (length l).
