(** What a framed message is, independently of the model of request.go. *)
From Verif Require Import Bytes WireSpec RequestModel.

(** [e] is an OpenFlow message with the given version, type, transaction and
    body: 8-byte header carrying the total length, then the body verbatim. *)
Definition is_frame (e : bytes) (v t x : N) (b : bytes) : Prop :=
  laid_out e (8 + length b)
    [(0, Num 1 v); (1, Num 1 t); (2, Num 2 (8 + lenN b)); (4, Num 4 x); (8, Raw (length b) b)].

(** The length field of a byte stream that starts with a header. *)
Definition declared (d : bytes) : N :=
  (Byte.to_N (nth 2 d x00) * 256 + Byte.to_N (nth 3 d x00))%N.

(** What a body will deliver when read to its end. *)
Definition content (b : body) : bytes * option err :=
  match b with
  | BNil => ([], None)
  | BCopy None _ _ _ => ([], None)
  | BCopy (Some p) _ _ _ => (pbytes p, perr p)
  | BBuf x => (x, None)
  | BReader r => (data r, match fin r with EOF => None | e => Some e end)
  end.

(** The request a receiver obtains from a frame. *)
Definition received (v t x : N) (b : bytes) (q : Request) : Prop :=
  Request_Header q = MkHeader v t (8 + lenN b) x
  /\ Request_Body q = BBuf b
  /\ Request_ContentLength q = Z.of_nat (length b).

(** Range invariant of the Go types of a header's version, type and transaction. *)
Definition ranges (v t x : N) : Prop := fits 1 v /\ fits 1 t /\ fits 4 x.

(** Messages of a stream as (version, type, transaction, body). *)
Definition frame_of (e : bytes) (m : N * N * N * bytes) : Prop :=
  let '(v, t, x, b) := m in is_frame e v t x b.
Definition msg_ok (m : N * N * N * bytes) : Prop :=
  let '(v, t, x, b) := m in ranges v t x /\ (lenN b <= 65527)%N.
Definition received_as (m : N * N * N * bytes) (q : Request) : Prop :=
  let '(v, t, x, b) := m in received v t x b q.
