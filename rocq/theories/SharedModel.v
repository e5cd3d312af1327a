(** Several replies written with one and the same Header value.

    response.Write (server.go:58-90) changes the header it is given.  Each
    writer has a response of its own (server.go:332), so the lock of server.go:68
    does not keep two writers from each other.
    Simplifications: the goroutines' accesses to the header interleave in some
    order (sequential consistency); copying the header (header.go:233-235) is
    one access; the payloads do not fail. *)
From Verif Require Export ConnModel.

(** A handler about to reply: the version of its request and its payload. *)
Record writer := MkWriter { wr_version : N; wr_payload : bytes }.

(** Where it is: before line 64; between test and assignment; before line 78;
    before the copy of line 79; with the message in its buffer; done. *)
Inductive stage := AtStart | Unset | Versioned | Sized | Filled (f : bytes) | Sent.

Record shared := MkShared { sh_header : Header; sh_stages : list stage; sh_out : list (nat * bytes) }.

Definition no_writer : writer := MkWriter 0 [].

Fixpoint set_nth {A} (i : nat) (x : A) (l : list A) : list A :=
  match i, l with
  | _, [] => []
  | O, _ :: l' => x :: l'
  | S i', y :: l' => y :: set_nth i' x l'
  end.

(** One access of writer [i]. *)
Definition turn (ws : list writer) (i : nat) (s : shared) : shared :=
  let w := nth i ws no_writer in
  let h := sh_header s in
  let to h' st := MkShared h' (set_nth i st (sh_stages s)) (sh_out s) in
  match nth i (sh_stages s) Sent with
  | AtStart => to h (if (Header_Version h =? 0)%N then Unset else Versioned)
  | Unset => to (set_Header_Version (wr_version w) h) Versioned
  | Versioned => to (set_Header_Length (uwrap 2 (8 + uwrap 2 (lenN (wr_payload w)))) h) Sized
  | Sized => to h (Filled (enc_Header h ++ wr_payload w))
  | Filled f => MkShared h (set_nth i Sent (sh_stages s)) (sh_out s ++ [(i, f)])
  | Sent => s
  end.

Definition share (h : Header) (ws : list writer) : shared := MkShared h (map (fun _ => AtStart) ws) [].

(** A schedule: whose access is next. *)
Definition turns (ws : list writer) (l : list nat) (s : shared) : shared := fold_left (fun s i => turn ws i s) l s.

(** Replies written one after the other with the same header. *)
Fixpoint in_a_row (h : Header) (ws : list writer) : list bytes :=
  match ws with
  | [] => []
  | w :: ws' =>
      let '(h', r) := response_bytes (wr_version w) h (Some (MkPayload (wr_payload w) None)) in
      match r with inl f => [f] | inr _ => [] end ++ in_a_row h' ws'
  end.
