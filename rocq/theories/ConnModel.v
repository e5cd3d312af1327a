(** Model of the sending side of net.go (conn) and of response.Write (server.go). *)
From Verif Require Export RequestModel.

(** ** Transport and buffer *)

(** Timeout error of a net.Conn whose write deadline has passed. *)
Definition ETimeout : err := EUser 2.

(** The write half of a [net.Conn]: bytes accepted so far, what the environment
    does to the next [Write] calls ([None] accepts everything, [Some (k, e)]
    accepts at most [k] bytes and fails with [e]; the empty list accepts
    everything), the clock and the write deadline.  The io.Writer contract (a
    short count comes with an error) is assumed.  A [Write] that starts after
    the deadline fails without writing; one that is overtaken by it is a
    [Some (k, e)] of the environment. *)
Record transport := MkTr {
  wire : bytes; plan : list (option (nat * err)); clock : Z; deadline : option Z }.

Definition tr_write (t : transport) (p : bytes) : nat * option err * transport :=
  if match deadline t with Some d => (d <=? clock t)%Z | None => false end
  then (0, Some ETimeout, t)
  else match plan t with
       | [] => (length p, None, MkTr (wire t ++ p) [] (clock t) (deadline t))
       | None :: l => (length p, None, MkTr (wire t ++ p) l (clock t) (deadline t))
       | Some (k, e) :: l =>
           (length (firstn k p), Some e, MkTr (wire t ++ firstn k p) l (clock t) (deadline t))
       end.

(** bufio.Writer over it (net.go:122-128, default size). *)
Definition bufsize : nat := N.to_nat 4096.

Record bwriter := MkBw { bbuf : bytes; berr : option err; btr : transport }.

Definition available (b : bwriter) : nat := bufsize - length (bbuf b).

(** bufio.Writer.Flush. *)
Definition bw_flush (b : bwriter) : option err * bwriter :=
  match berr b with
  | Some e => (Some e, b)
  | None =>
      match bbuf b with
      | [] => (None, b)
      | p => let '(n, e, t) := tr_write (btr b) p in
             match e with
             | Some x => (Some x, MkBw (skipn n p) (Some x) t)
             | None => (None, MkBw [] None t)
             end
      end
  end.

(** bufio.Writer.Write: the loop condition, one iteration (at most one call of
    the transport), and what follows the loop. *)
Definition bw_more (p : bytes) (b : bwriter) : bool :=
  (available b <? length p) && match berr b with None => true | Some _ => false end.

Definition bw_iter (p : bytes) (b : bwriter) : bytes * bwriter :=
  match bbuf b with
  | [] => let '(n, e, t) := tr_write (btr b) p in (skipn n p, MkBw [] e t)
  | _ => let n := available b in
         (skipn n p, snd (bw_flush (MkBw (bbuf b ++ firstn n p) (berr b) (btr b))))
  end.

Definition bw_end (p : bytes) (b : bwriter) : option err * bwriter :=
  match berr b with
  | Some e => (Some e, b)
  | None => (None, MkBw (bbuf b ++ p) None (btr b))
  end.

(** The whole call.  Two iterations always suffice (see ConnFacts.v). *)
Fixpoint bw_loop (fuel : nat) (p : bytes) (b : bwriter) : option err * bwriter :=
  match fuel with
  | O => (Some EFuel, b)
  | S f => if bw_more p b then let '(p', b') := bw_iter p b in bw_loop f p' b' else bw_end p b
  end.

Definition bw_write (p : bytes) (b : bwriter) : option err * bwriter := bw_loop 3 p b.

(** ** Operations of a connection, one goroutine *)
Record conn := MkConn { cbw : bwriter; wtimeout : Z }.

(** newConn, net.go:122-128. *)
Definition new_conn (tmo : Z) (t : transport) : conn := MkConn (MkBw [] None t) tmo.

(** The bytes a request hands to its writer, or the error before that
    (request.go:132-174). *)
Definition outgoing (r : Request) : bytes + err :=
  match wcalls (write_to sink r) with
  | [] => inr (match werr (write_to sink r) with Some e => e | None => EPanic end)
  | p :: _ => inl p
  end.

Definition arm (b : bwriter) (d : Z) : bwriter :=
  MkBw (bbuf b) (berr b)
    (MkTr (wire (btr b)) (plan (btr b)) (clock (btr b)) (Some (clock (btr b) + d)%Z)).

(** The deferred SetWriteDeadline of Send, net.go:179-183. *)
Definition arm_after (c : conn) : conn :=
  if (wtimeout c =? 0)%Z then c else MkConn (arm (cbw c) (wtimeout c)) (wtimeout c).

(** conn.Send, net.go:178-187.  A buffered write never reports a short count
    without error, so its error is what [Request.WriteTo] returns. *)
Definition c_send (r : Request) (c : conn) : option err * conn :=
  match outgoing r with
  | inr e => (Some e, arm_after c)
  | inl p => let '(e, b) := bw_write p (cbw c) in (e, arm_after (MkConn b (wtimeout c)))
  end.

(** conn.Flush, net.go:158-162. *)
Definition c_flush (c : conn) : option err * conn :=
  let '(e, b) := bw_flush (cbw c) in (e, MkConn b (wtimeout c)).

(** conn.forceWrite, net.go:165-175. *)
Definition c_force (p : bytes) (c : conn) : option err * conn :=
  let '(e, b) := bw_write p (cbw c) in
  match e with
  | Some x => (Some x, MkConn b (wtimeout c))
  | None => c_flush (MkConn b (wtimeout c))
  end.

(** Package function Send, net.go:225-240. *)
Fixpoint send_all (rs : list Request) (c : conn) : option err * conn :=
  match rs with
  | [] => c_flush c
  | r :: rs' =>
      match c_send r c with
      | (Some e, c') => (Some e, c')
      | (None, c') => send_all rs' c'
      end
  end.

(** Time passing. *)
Definition tick (d : Z) (c : conn) : conn :=
  let b := cbw c in let t := btr b in
  MkConn (MkBw (bbuf b) (berr b) (MkTr (wire t) (plan t) (clock t + d)%Z (deadline t))) (wtimeout c).

(** A sequential history of a connection. *)
Inductive event := Sending (r : Request) | Replying (p : bytes) | Flushing | Passing (d : Z).

Definition perform (v : event) (c : conn) : option err * conn :=
  match v with
  | Sending r => c_send r c
  | Replying p => c_force p c
  | Flushing => c_flush c
  | Passing d => (None, tick (Z.abs d) c)
  end.

Definition history (l : list event) (c : conn) : conn :=
  fold_left (fun c v => snd (perform v c)) l c.

(** ** Goroutines sharing a connection

    One step is one of: taking the lock (with the start of the call), one
    iteration of the write loop, the end of it, a flush, arming the deadline
    (not under the lock).  [owner] is the holder of conn.mu (net.go:107,
    151-175).  [log] is history: the messages in the order in which their calls
    took the lock.  [results] lists the finished calls.
    Simplification: every call has its own request value. *)
Inductive op := OSend (r : Request) | OFlush | OReply (p : bytes).

Inductive pc := Idle | Writing (p : bytes) (o : op) | InFlush (o : op) | Arming (o : op) (e : option err).

Record thread := MkThread { todo : list op; at_ : pc }.

Record sys := MkSys {
  scon : conn; owner : option nat; threads : nat -> thread;
  log : list (nat * bytes); results : list (nat * op * option err) }.

Definition upd {A} (f : nat -> A) (i : nat) (a : A) : nat -> A := fun j => if j =? i then a else f j.

Definition goto (i : nat) (th : thread) (s : sys) : sys :=
  MkSys (scon s) (owner s) (upd (threads s) i th) (log s) (results s).

Definition set_con (c : conn) (s : sys) : sys :=
  MkSys c (owner s) (threads s) (log s) (results s).

Definition set_owner (o : option nat) (s : sys) : sys :=
  MkSys (scon s) o (threads s) (log s) (results s).

Definition logged (i : nat) (p : bytes) (s : sys) : sys :=
  MkSys (scon s) (owner s) (threads s) (log s ++ [(i, p)]) (results s).

(** The call returns (its lock, if held, is released by then). *)
Definition return_ (i : nat) (o : op) (e : option err) (s : sys) : sys :=
  let th := threads s i in
  MkSys (scon s) (owner s) (upd (threads s) i (MkThread (todo th) Idle)) (log s)
    (results s ++ [(i, o, e)]).

(** The end of Send: with a WriteTimeout the deferred function still runs. *)
Definition end_send (i : nat) (o : op) (e : option err) (s : sys) : sys :=
  if (wtimeout (scon s) =? 0)%Z then return_ i o e s
  else goto i (MkThread (todo (threads s i)) (Arming o e)) s.

Definition with_bw (b : bwriter) (s : sys) : sys := set_con (MkConn b (wtimeout (scon s))) s.

(** One step of goroutine [i]; [None]: it has nothing to do or waits for the lock. *)
Definition step_of (i : nat) (s : sys) : option sys :=
  let th := threads s i in
  let b := cbw (scon s) in
  match at_ th with
  | Idle =>
      match todo th with
      | [] => None
      | o :: l =>
          match o with
          | OSend r =>
              match outgoing r with
              | inr e => Some (end_send i o (Some e) (goto i (MkThread l Idle) s))
              | inl p =>
                  match owner s with
                  | Some _ => None
                  | None => Some (set_owner (Some i) (logged i p (goto i (MkThread l (Writing p o)) s)))
                  end
              end
          | OFlush =>
              match owner s with
              | Some _ => None
              | None => Some (set_owner (Some i) (goto i (MkThread l (InFlush o)) s))
              end
          | OReply p =>
              match owner s with
              | Some _ => None
              | None => Some (set_owner (Some i) (logged i p (goto i (MkThread l (Writing p o)) s)))
              end
          end
      end
  | Writing p o =>
      if bw_more p b
      then let '(p', b') := bw_iter p b in
           Some (with_bw b' (goto i (MkThread (todo th) (Writing p' o)) s))
      else let '(e, b') := bw_end p b in
           let s' := with_bw b' s in
           match o, e with
           | OSend _, _ => Some (end_send i o e (set_owner None s'))
           | _, None => Some (goto i (MkThread (todo th) (InFlush o)) s')
           | _, Some _ => Some (return_ i o e (set_owner None s'))
           end
  | InFlush o =>
      let '(e, b') := bw_flush b in
      Some (return_ i o e (set_owner None (with_bw b' s)))
  | Arming o e => Some (return_ i o e (with_bw (arm b (wtimeout (scon s))) s))
  end.

(** A schedule chooses a goroutine or lets time pass; a goroutine that cannot
    move stays where it is. *)
Inductive action := Go (i : nat) | Wait (d : Z).

Definition act (a : action) (s : sys) : sys :=
  match a with
  | Go i => match step_of i s with Some s' => s' | None => s end
  | Wait d => set_con (tick (Z.abs d) (scon s)) s
  end.

Definition run (sch : list action) (s : sys) : sys := fold_left (fun s a => act a s) sch s.

(** A fresh connection and goroutine [i] about to perform [prog i]. *)
Definition start (tmo : Z) (t : transport) (prog : nat -> list op) : sys :=
  MkSys (new_conn tmo t) None (fun i => MkThread (prog i) Idle) [] [].

(** ** response.Write, server.go:58-90

    The header passed by the handler is completed and written with the payload
    by one forceWrite.  Returns the completed header as the caller sees it. *)
Definition response_bytes (reqver : N) (h : Header) (w : option payload) : Header * (bytes + err) :=
  let h1 := if (Header_Version h =? 0)%N then set_Header_Version reqver h else h in
  let '(x, e) := copy_write w in
  match e with
  | Some y => (h1, inr y)
  | None =>
      let h2 := set_Header_Length (uwrap 2 (8 + uwrap 2 (lenN x))) h1 in
      (h2, inl (enc_Header h2 ++ x))
  end.

Definition c_respond (reqver : N) (h : Header) (w : option payload) (c : conn) : option err * conn :=
  match snd (response_bytes reqver h w) with
  | inr e => (Some e, c)
  | inl p => c_force p c
  end.

(** serveReq, server.go:315-343: the response writer given to the handler knows
    the request's version and transaction. *)
Definition reply_to (q : Request) (h : Header) (w : option payload) (c : conn) : option err * conn :=
  c_respond (Header_Version (Request_Header q)) h w c.

(** ** Two goroutines in conn.Receive (net.go:131-148; Receive takes no lock)

    The shared stream is read piece by piece; one step is one Read of the
    connection for the field being read (1, 1, 2, 4 bytes, then the body). *)
Inductive rpc :=
| RField (k : nat) (acc : bytes) (hdr : bytes)     (* reading header field number k *)
| RBody (hdr acc : bytes) (want : nat)
| RDone (out : (bytes * bytes) + err).             (* header and body bytes *)

Definition field_size (k : nat) : nat := nth k [1; 1; 2; 4] 0.

(** After a field is complete. *)
Definition next_field (k : nat) (hdr : bytes) : rpc :=
  if k <? 3 then RField (S k) [] hdr
  else let len := be_dec (firstn 2 (skipn 2 hdr)) in
       if (len <? 8)%N then RDone (inr ECorrupted)
       else if (len =? 8)%N then RDone (inl (hdr, []))
       else RBody hdr [] (N.to_nat (len - 8)).

Definition rstep (p : rpc) (r : reader) : rpc * reader :=
  match p with
  | RField k acc hdr =>
      let want := field_size k in
      let '(got, e, r') := read1 (want - length acc) r in
      let acc' := acc ++ got in
      if want <=? length acc' then (next_field k (hdr ++ acc'), r')
      else match e with
           | None => (RField k acc' hdr, r')
           | Some EOF => (RDone (inr match acc' with [] => EOF | _ => UnexpectedEOF end), r')
           | Some x => (RDone (inr x), r')
           end
  | RBody hdr acc want =>
      let '(got, e, r') := read1 (want - length acc) r in
      let acc' := acc ++ got in
      match e with
      | Some x => (RDone (inr x), r')
      | None => if want <=? length acc' then (RDone (inl (hdr, acc')), r') else (RBody hdr acc' want, r')
      end
  | RDone _ => (p, r)
  end.

Definition rstart : rpc := RField 0 [] [].

(** Two receivers under a schedule ([true]: the first one moves). *)
Fixpoint race (sch : list bool) (a b : rpc) (r : reader) : rpc * rpc * reader :=
  match sch with
  | [] => (a, b, r)
  | true :: l => let '(a', r') := rstep a r in race l a' b r'
  | false :: l => let '(b', r') := rstep b r in race l a b' r'
  end.
