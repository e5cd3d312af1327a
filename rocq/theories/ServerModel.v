(** The server: accept loops, connection goroutines, handlers. server.go, net.go:14-43. *)
From Verif Require Export RequestModel.

(** Go's int32: values -2^31 .. 2^31-1, wrapping. *)
Definition wrap32 (z : Z) : Z := ((z + 2147483648) mod 4294967296 - 2147483648)%Z.

(** ConnState, net.go:14-43 *)
Inductive cstate := StateNew | StateHandshake | StateActive | StateIdle | StateClosed.

(** The ResponseWriter given to a handler, server.go:325-334: the connection its
    replies are written to and the header fields copied from the request. *)
Record writer := MkWriter { wconn : nat; wversion : N; wtransaction : N }.

(** What can be observed of a connection: state callbacks, handler calls and
    returns, flushes, the close. *)
Inductive event :=
| EState (c : nat) (x : cstate)
| ECall (c : nat) (w : writer) (q : Request)
| EReturn (c : nat) (q : Request)
| EFlush (c : nat)
| EClose (c : nat).

(** serveReq, server.go:315-343, between its visible actions. *)
Inductive stage := HState | HCall | HReturn | HFlush | HIdle.

Definition request_state (q : Request) : cstate :=
  if (Header_Type (Request_Header q) =? 0)%N then StateHandshake else StateActive.

Definition serve_req (c : nat) (q : Request) (st : stage) : event * option stage :=
  match st with
  | HState => (EState c (request_state q), Some HCall)
  | HCall => (ECall c (MkWriter c (Header_Version (Request_Header q)) (Header_Transaction (Request_Header q))) q, Some HReturn)
  | HReturn => (EReturn c q, Some HFlush)
  | HFlush => (EFlush c, Some HIdle)
  | HIdle => (EState c StateIdle, None)
  end.

(** The receive goroutine of a connection, server.go:115-136: it reads the next
    message and offers it on an unbuffered channel; [None] is the error that
    ends it. *)
Inductive receiving := RNot | RReading | ROffer (x : option Request) | REnd.

(** Server.serve, server.go:284-311 *)
Inductive serving :=
| VNot                          (* not started *)
| VWait                         (* in the select *)
| VReq (q : Request) (st : stage)  (* running the handler itself (SequentialRunner) *)
| VDec                          (* before AddInt32(&srv.conns, -1) *)
| VClosing                      (* before setState(c, StateClosed) *)
| VClose                        (* before c.Close() *)
| VGone.

(** A connection: the messages its peer sends before the stream ends, those not
    read yet, its receive goroutine and its serve goroutine. *)
Record cn := MkCn { cmsgs : list Request; cleft : list Request; crcv : receiving; cserve : serving }.

(** Server.accept, server.go:255-282, between its visible actions. *)
Inductive accepting :=
| LIdle                         (* in l.Accept *)
| LNew (c : nat)                (* before setState(c, StateNew) *)
| LLoad (c : nat)               (* before LoadInt32 *)
| LTest (c : nat) (n : Z)       (* after it *)
| LReject (c : nat)             (* before the deferred setState(c, StateClosed) *)
| LRejClose (c : nat)           (* before the deferred c.Close() *)
| LSpawn (c : nat).             (* counted, before cr.Run *)

(** One Server.  [limit] is MaxConns (a 64-bit int, converted to int32 in the
    comparison), [sequential] says that HandlerRunner is SequentialRunner;
    otherwise it is OnDemandRoutineRunner and [hands] holds the handler
    goroutines.  [loops] are the Serve calls on this server.
    Simplifications: ConnRunner is OnDemandRoutineRunner (another runner only
    delays the start of serve or the loop); the unexported stop channel, used
    by the package's own tests only, is left out. *)
Record server := MkServer {
  limit : Z; sequential : bool; counter : Z;
  loops : list accepting; cns : list cn; hands : list (nat * Request * option stage); trace : list event }.

Fixpoint setnth {A} (n : nat) (x : A) (l : list A) : list A :=
  match l, n with
  | [], _ => []
  | _ :: l', O => x :: l'
  | y :: l', S n' => y :: setnth n' x l'
  end.

Definition with_loop (k : nat) (p : accepting) (s : server) : server :=
  MkServer (limit s) (sequential s) (counter s) (setnth k p (loops s)) (cns s) (hands s) (trace s).
Definition with_cn (c : nat) (x : cn) (s : server) : server :=
  MkServer (limit s) (sequential s) (counter s) (loops s) (setnth c x (cns s)) (hands s) (trace s).
Definition with_counter (z : Z) (s : server) : server :=
  MkServer (limit s) (sequential s) (wrap32 z) (loops s) (cns s) (hands s) (trace s).
Definition with_hands (h : list (nat * Request * option stage)) (s : server) : server :=
  MkServer (limit s) (sequential s) (counter s) (loops s) (cns s) h (trace s).
Definition emits (e : event) (s : server) : server :=
  MkServer (limit s) (sequential s) (counter s) (loops s) (cns s) (hands s) (trace s ++ [e]).
Definition with_new (ms : list Request) (s : server) : server :=
  MkServer (limit s) (sequential s) (counter s) (loops s) (cns s ++ [MkCn ms ms RNot VNot]) (hands s) (trace s).

(** Scheduling: accept loop [k] moves (a new connection brings the messages
    [ms]); the receive goroutine, the serve goroutine of connection [c] moves;
    handler goroutine [j] moves. *)
Inductive move := MLoop (k : nat) (ms : list Request) | MRecv (c : nat) | MServe (c : nat) | MHand (j : nat).

Definition loop_step (k : nat) (ms : list Request) (s : server) : option server :=
  match nth_error (loops s) k with
  | None => None
  | Some LIdle => Some (with_loop k (LNew (length (cns s))) (with_new ms s))
  | Some (LNew c) => Some (emits (EState c StateNew) (with_loop k (LLoad c) s))
  | Some (LLoad c) => Some (with_loop k (LTest c (counter s)) s)
  | Some (LTest c n) =>
      if negb (limit s =? 0)%Z && (wrap32 (limit s) <=? n)%Z
      then Some (with_loop k (LReject c) s)
      else Some (with_counter (counter s + 1) (with_loop k (LSpawn c) s))
  | Some (LReject c) => Some (emits (EState c StateClosed) (with_loop k (LRejClose c) s))
  | Some (LRejClose c) => Some (emits (EClose c) (with_loop k LIdle s))
  | Some (LSpawn c) =>
      match nth_error (cns s) c with
      | None => None
      | Some x => Some (with_loop k LIdle (with_cn c (MkCn (cmsgs x) (cleft x) RReading VWait) s))
      end
  end.

Definition recv_step (c : nat) (s : server) : option server :=
  match nth_error (cns s) c with
  | Some (MkCn ms lf RReading v) =>
      match lf with
      | [] => Some (with_cn c (MkCn ms [] (ROffer None) v) s)
      | q :: l => Some (with_cn c (MkCn ms l (ROffer (Some q)) v) s)
      end
  | _ => None
  end.

Definition serve_step (c : nat) (s : server) : option server :=
  match nth_error (cns s) c with
  | None => None
  | Some (MkCn ms lf r v) =>
      match v with
      | VNot | VGone => None
      | VWait =>
          match r with
          | ROffer (Some q) =>
              if sequential s then Some (with_cn c (MkCn ms lf RReading (VReq q HState)) s)
              else Some (with_hands (hands s ++ [(c, q, Some HState)]) (with_cn c (MkCn ms lf RReading VWait) s))
          | ROffer None => Some (with_cn c (MkCn ms lf REnd VDec) s)
          | _ => None
          end
      | VReq q st =>
          let '(e, st') := serve_req c q st in
          Some (emits e (with_cn c (MkCn ms lf r (match st' with Some y => VReq q y | None => VWait end)) s))
      | VDec => Some (with_counter (counter s - 1) (with_cn c (MkCn ms lf r VClosing) s))
      | VClosing => Some (emits (EState c StateClosed) (with_cn c (MkCn ms lf r VClose) s))
      | VClose => Some (emits (EClose c) (with_cn c (MkCn ms lf r VGone) s))
      end
  end.

Definition hand_step (j : nat) (s : server) : option server :=
  match nth_error (hands s) j with
  | Some (c, q, Some st) =>
      let '(e, st') := serve_req c q st in Some (emits e (with_hands (setnth j (c, q, st') (hands s)) s))
  | _ => None
  end.

Definition sstep (m : move) (s : server) : option server :=
  match m with
  | MLoop k ms => loop_step k ms s
  | MRecv c => recv_step c s
  | MServe c => serve_step c s
  | MHand j => hand_step j s
  end.

Definition sact (s : server) (m : move) : server := match sstep m s with Some s' => s' | None => s end.
Definition srun (sch : list move) (s : server) : server := fold_left sact sch s.

(** A server on which Serve was called [n] times. *)
Definition sstart (lim : Z) (seqr : bool) (n : nat) : server :=
  MkServer lim seqr 0 (repeat LIdle n) [] [] [].
