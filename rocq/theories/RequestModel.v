(** Model of request.go: framing of requests. *)
From Verif Require Export FixedModel.

(** ** Readers

    An [io.Reader] with everything the environment decides made explicit: the
    bytes still to come, how many bytes each of the next [Read] calls may return
    at most (0 allowed; when the list is used up reads are as long as possible),
    the error reported after the last byte, and whether that error already comes
    together with the last bytes (both are allowed by the io.Reader contract). *)
Record reader := MkReader { data : bytes; sched : list nat; fin : err; eager : bool }.

(** One [Read] with a buffer of [k > 0] bytes. *)
Definition read1 (k : nat) (r : reader) : bytes * option err * reader :=
  let c := match sched r with [] => k | c :: _ => c end in
  let m := Nat.min k c in
  let got := firstn m (data r) in
  let left := skipn m (data r) in
  let r' := MkReader left (tl (sched r)) (fin r) (eager r) in
  match data r with
  | [] => ([], Some (fin r), r')
  | _ => (got, match left with [] => if eager r then Some (fin r) else None | _ => None end, r')
  end.

(** Enough fuel for any loop that stops at the first error: every call uses a
    byte or a schedule entry, or reports the final error. *)
Definition fuel_of (r : reader) : nat := S (S (length (data r) + length (sched r))).

(** [io.ReadFull(r, buf)] with [k] bytes wanted (used by binary.Read,
    internal/encoding/encoding.go:104): bytes read so far in [acc]. *)
Fixpoint read_full (fuel k : nat) (acc : bytes) (r : reader) : bytes * option err * reader :=
  if k <=? length acc then (acc, None, r)
  else match fuel with
       | O => (acc, Some EFuel, r)
       | S fuel' =>
           let '(got, e, r') := read1 (k - length acc) r in
           let acc' := acc ++ got in
           match e with
           | None => read_full fuel' k acc' r'
           | Some x =>
               if k <=? length acc' then (acc', None, r')
               else (acc', Some (match x with EOF => match acc' with [] => EOF | _ => UnexpectedEOF end
                                         | _ => x end), r')
           end
       end.

(** [Header.ReadFrom] (header.go:238-240) over such a reader: the four fields are
    read one by one through [encoding.ReadFrom] (internal/encoding/encoding.go:90-113). *)
Definition hdr_field (k : nat) (set : N -> Header -> Header)
    (st : Header * nat * option err * reader) : Header * nat * option err * reader :=
  let '(h, n, e, r) := st in
  match e with
  | Some _ => st
  | None =>
      let '(b, e', r') := read_full (fuel_of r) k [] r in
      match e' with
      | None => (set (be_dec b) h, n + length b, None, r')
      | Some x => (h, n + length b, Some x, r')
      end
  end.

Definition read_header (h : Header) (r : reader) : Header * nat * option err * reader :=
  hdr_field 4 set_Header_Transaction
    (hdr_field 2 set_Header_Length
       (hdr_field 1 set_Header_Type
          (hdr_field 1 set_Header_Version (h, 0, None, r)))).

(** ** Bodies and requests *)

(** A payload ([io.WriterTo]): the bytes it writes, the error it then returns.
    Simplification: its reported count is the number of bytes written. *)
Record payload := MkPayload { pbytes : bytes; perr : option err }.

(** [Request.Body]: nil, the [copyReader] made by [NewRequest]
    (request.go:28-38), a [*bytes.Buffer] (set by [ReadFrom]), or any other reader. *)
Inductive body :=
| BNil
| BCopy (w : option payload) (rbuf : bytes) (rerr : option err) (once : bool)
| BBuf (b : bytes)
| BReader (r : reader).

(** Request, request.go:74-101.  Simplification: [Proto], [Addr] and the
    connection are not modelled. *)
Record Request := MkRequest {
  Request_Header : Header; Request_Body : body;
  Request_ProtoMajor : Z; Request_ProtoMinor : Z; Request_ContentLength : Z }.

(** NewRequest, request.go:105-116. *)
Definition new_request (t : N) (w : option payload) : Request :=
  MkRequest (MkHeader (uwrap 1 (1 + 3)) t 0 0) (BCopy w [] None false) 1 3 0.

(** ProtoAtLeast, request.go:120-123. *)
Definition proto_at_least (r : Request) (major minor : Z) : bool :=
  (Request_ProtoMajor r >? major)%Z
  || ((Request_ProtoMajor r =? major)%Z && (Request_ProtoMinor r >=? minor)%Z).

(** copyReader.WriteTo, request.go:52-58, into a buffer. *)
Definition copy_write (w : option payload) : bytes * option err :=
  match w with None => ([], None) | Some p => (pbytes p, perr p) end.

(** [bytes.Buffer.Read] with a buffer of [k] bytes. *)
Definition buffer_read (k : nat) (b : bytes) : bytes * option err * bytes :=
  match b with
  | [] => ([], if k =? 0 then None else Some EOF, [])
  | _ => (firstn k b, None, skipn k b)
  end.

(** copyReader.Read, request.go:61-68 (with init, 45-47): the stored error is
    looked at before the payload is copied for the first time. *)
Definition copy_read (k : nat) (w : option payload) (rbuf : bytes) (rerr : option err) (once : bool)
  : bytes * option err * body :=
  match rerr with
  | Some e => ([], Some e, BCopy w rbuf rerr once)
  | None =>
      let '(rbuf1, rerr1) := if once then (rbuf, rerr)
                             else let '(b, e) := copy_write w in (rbuf ++ b, e) in
      let '(got, e, rbuf2) := buffer_read k rbuf1 in
      (got, e, BCopy w rbuf2 rerr1 true)
  end.

(** Read until the first error ([io.Copy] from a plain reader; EOF is not an error). *)
Fixpoint drain (fuel : nat) (acc : bytes) (r : reader) : bytes * option err * reader :=
  match fuel with
  | O => (acc, Some EFuel, r)
  | S fuel' =>
      let '(got, e, r') := read1 512 r in
      match e with
      | None => drain fuel' (acc ++ got) r'
      | Some EOF => (acc ++ got, None, r')
      | Some x => (acc ++ got, Some x, r')
      end
  end.

(** [io.Copy(&buf, body)], request.go:146: [copyReader] and [bytes.Buffer] are
    [io.WriterTo]s, so their [WriteTo] is used; anything else is read to the end. *)
Definition copy_body (b : body) : bytes * option err * body :=
  match b with
  | BNil => ([], None, BNil)
  | BCopy w rbuf rerr once => let '(x, e) := copy_write w in (x, e, b)
  | BBuf x => (x, None, BBuf [])
  | BReader r => let '(x, e, r') := drain (fuel_of r) [] r in (x, e, BReader r')
  end.

(** ** Request.WriteTo, request.go:132-174

    The destination is a function from the bytes of one [Write] call to the
    returned count and error.  [wcalls] lists the [Write] calls made.
    [bytes.Buffer.WriteTo] turns a short count without error into
    [io.ErrShortWrite] (here [EShort]). *)
Definition EShort : err := EUser 1.

Record wres := WRes { wreq : Request; wcount : nat; werr : option err; wcalls : list bytes }.

Definition emit (w : bytes -> nat * option err) (r : Request) (out : bytes) : wres :=
  let '(m, e) := w out in
  WRes r m (match e with
            | Some x => Some x
            | None => if m =? length out then None else Some EShort
            end) [out].

Definition set_header (h : Header) (r : Request) : Request :=
  MkRequest h (Request_Body r) (Request_ProtoMajor r) (Request_ProtoMinor r) (Request_ContentLength r).

Definition set_body (b : body) (r : Request) : Request :=
  MkRequest (Request_Header r) b (Request_ProtoMajor r) (Request_ProtoMinor r) (Request_ContentLength r).

Definition write_to (w : bytes -> nat * option err) (r : Request) : wres :=
  let r1 := set_header (set_Header_Length 8 (Request_Header r)) r in
  match Request_Body r with
  | BNil => emit w r1 (enc_Header (Request_Header r1))
  | b =>
      let '(x, e, b') := copy_body b in
      let r2 := set_body b' r1 in
      match e with
      | Some y => WRes r2 (length x) (Some y) []
      | None =>
          if (65535 <? lenN x + 8)%N then WRes r2 0 (Some ETooLong) []
          else
            let h := set_Header_Length (uwrap 2 (8 + uwrap 2 (lenN x))) (Request_Header r2) in
            emit w (set_header h r2) (enc_Header h ++ x)
      end
  end.

(** A destination that takes everything (e.g. a bytes.Buffer). *)
Definition sink (b : bytes) : nat * option err := (length b, None).

(** ** Request.ReadFrom, request.go:178-216 *)
Record rres := RRes { rreq : Request; rcount : nat; rfail : option err; rreader : reader }.

(** The body loop, request.go:206-211: any error ends it, even when the body is
    complete. *)
Fixpoint read_body (fuel k : nat) (acc : bytes) (r : reader) : bytes * option err * reader :=
  if k <=? length acc then (acc, None, r)
  else match fuel with
       | O => (acc, Some EFuel, r)
       | S fuel' =>
           let '(got, e, r') := read1 (k - length acc) r in
           match e with
           | None => read_body fuel' k (acc ++ got) r'
           | Some x => (acc ++ got, Some x, r')
           end
       end.

Definition read_from (req : Request) (r : reader) : rres :=
  let '(h, n, e, r1) := read_header (Request_Header req) r in
  let req1 := set_header h req in
  match e with
  | Some x => RRes req1 n (Some x) r1
  | None =>
      (* int(r.Header.Version - 1): uint8 arithmetic *)
      let minor := Z.of_N (uwrap 1 (Header_Version h + 255)) in
      let req2 := MkRequest h (Request_Body req1) 1 minor (Request_ContentLength req1) in
      let contentlen := (Z.of_N (Header_Length h) - 8)%Z in
      if (contentlen <? 0)%Z then RRes req2 n (Some ECorrupted) r1
      else
        let '(b, e', r2) := read_body (fuel_of r1) (Z.to_nat contentlen) [] r1 in
        match e' with
        | Some x => RRes req2 (length b + 8) (Some x) r2
        | None => RRes (MkRequest h (BBuf b) 1 minor contentlen) (length b + 8) None r2
        end
  end.

(** conn.Receive, net.go:136-148: a fresh request; nothing is returned on error.
    Simplification: deadlines are handled in ConnModel.v. *)
Definition zero_Request : Request := MkRequest zero_Header BNil 0 0 0.

Definition receive (r : reader) : (Request + err) * reader :=
  let x := read_from zero_Request r in
  match rfail x with
  | Some e => (inr e, rreader x)
  | None => (inl (rreq x), rreader x)
  end.

(** Receiving until the first error, as the server does (server.go:284-311). *)
Fixpoint receive_all (fuel : nat) (r : reader) : list Request * option err * reader :=
  match fuel with
  | O => ([], None, r)
  | S fuel' =>
      match receive r with
      | (inr e, r') => ([], Some e, r')
      | (inl q, r') =>
          let '(qs, e, r'') := receive_all fuel' r' in (q :: qs, e, r'')
      end
  end.

(** Sending the same request value [n] times. *)
Fixpoint resend (n : nat) (r : Request) : Request :=
  match n with O => r | S n' => resend n' (wreq (write_to sink r)) end.

(** [Read] on a body, for the bodies [NewRequest] creates (request.go:61-68) and
    for received bodies. *)
Definition body_read (k : nat) (b : body) : bytes * option err * body :=
  match b with
  | BNil => ([], Some EPanic, BNil)
  | BCopy w rbuf rerr once => copy_read k w rbuf rerr once
  | BBuf x => let '(got, e, x') := buffer_read k x in (got, e, BBuf x')
  | BReader r => let '(got, e, r') := read1 k r in (got, e, BReader r')
  end.

(** A sequence of [Read] calls with the given buffer sizes. *)
Fixpoint body_reads (ks : list nat) (b : body) : list (bytes * option err) :=
  match ks with
  | [] => []
  | k :: ks' => let '(got, e, b') := body_read k b in (got, e) :: body_reads ks' b'
  end.
