(** Model of the read side of net.go: conn.Receive under a read deadline. *)
From Verif Require Export ConnModel.

(** The read half of a connection: the bytes that have arrived and were not
    consumed ([inbuf], the bufio.Reader of net.go:123-126 together with the
    kernel's buffer), the bytes still to arrive with their arrival times, in
    order, and the time at which the peer closes.
    Simplifications: reading itself takes no time, so that within one Receive
    time passes only while waiting for bytes; a byte arriving exactly at the
    deadline is still read. *)
Record line := MkLine { inbuf : bytes; coming : list (N * bytes); closing : N }.

(** Whether something at time [t] is seen by a reader with this deadline. *)
Definition in_time (D : option N) (t : N) : bool :=
  match D with None => true | Some d => (t <=? d)%N end.

(** The bytes that arrive up to the deadline, and the later arrivals. *)
Fixpoint arrive (D : option N) (l : list (N * bytes)) : bytes * list (N * bytes) :=
  match l with
  | [] => ([], [])
  | (t, b) :: l' =>
      if in_time D t then let '(x, r) := arrive D l' in (b ++ x, r) else ([], l)
  end.

(** conn.Receive, net.go:136-148, called at time [now] on a connection with
    ReadTimeout [rt]: the deadline is set once, before the first byte is read,
    and only if the timeout is not zero (net.go:137-139).  [frag] is how the
    reads are split up.  The net.Conn reports a timeout once the deadline has
    passed, EOF if the peer has closed before; bufio.Reader hands either error
    on and forgets it (bufio.Reader.readErr), so a later Receive reads on. *)
Definition receive_at (rt now : N) (frag : list nat) (s : line) : (Request + err) * line :=
  let D := if (rt =? 0)%N then None else Some (now + rt)%N in
  let '(vis, later) := arrive D (coming s) in
  let final := match later with
               | [] => if in_time D (closing s) then EOF else ETimeout
               | _ => ETimeout
               end in
  let '(res, r) := receive (MkReader (inbuf s ++ vis) frag final false) in
  (res, MkLine (data r) later (closing s)).

(** A user's sequence of Receive calls, each with its time and fragmentation;
    the user goes on after an error. *)
Fixpoint receives_at (rt : N) (calls : list (N * list nat)) (s : line) : list (Request + err) * line :=
  match calls with
  | [] => ([], s)
  | (now, frag) :: l =>
      let '(res, s1) := receive_at rt now frag s in
      let '(out, s2) := receives_at rt l s1 in (res :: out, s2)
  end.
