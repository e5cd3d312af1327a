(** A server whose ConnRunner is a worker pool (MultiRoutineRunner), as server.go
    recommends.  server.go:255-311, runner.go:36-76. *)
From Verif Require Export ServerModel.

(** What is put in the pool's queue: a call of Server.serve for a connection
    (server.go:279), and, if HandlerRunner is the same pool, a call of
    Server.serveReq for a request (server.go:302).  Requests are numbers here. *)
Inductive job := JServe (c : nat) | JReq (c q : nat).

(** A worker, runner.go:64-68. *)
Inductive working :=
| KIdle                      (* waiting for a function *)
| KServing (c : nat)         (* in serve, waiting for a request of connection [c] *)
| KSubmit (c q : nat)        (* in serve, in HandlerRunner.Run with request [q] *)
| KReq (c q : nat).          (* in serveReq (same pool only) *)

(** The accept loop, server.go:255-282, between its actions on shared state. *)
Inductive looping :=
| PAccept                    (* in l.Accept *)
| PTest (c : nat) (n : Z)    (* after LoadInt32 *)
| PPut (c : nat).            (* counted, in ConnRunner.Run *)

(** What is seen from outside: a connection is reported as new, is turned away,
    its serve call starts, a request is handled, the connection is closed. *)
Inductive pevent :=
| VNew (c : nat) | VTurned (c : nat) | VStart (c : nat) | VHandled (c q : nat) | VClosed (c : nat).

(** The server.  [size] is the number of workers and the capacity of the queue
    (runner.go:52-55), [lim] is MaxConns, [shared] says that HandlerRunner is
    the same pool; otherwise requests are handled by the serving worker
    (SequentialRunner).
    Simplifications: one Serve call; a request handled by the serving worker and
    the end of a served connection are single steps (their parts are in
    ServerModel.v); a request is a number and may come at any moment. *)
Record pserver := MkPServer {
  size : nat; lim : Z; shared : bool; pcnt : Z; lp : looping; que : list job; wrk : list working;
  nextc : nat; plog : list pevent }.

Definition with_lp (x : looping) (s : pserver) : pserver :=
  MkPServer (size s) (lim s) (shared s) (pcnt s) x (que s) (wrk s) (nextc s) (plog s).
Definition with_cnt (z : Z) (s : pserver) : pserver :=
  MkPServer (size s) (lim s) (shared s) (wrap32 z) (lp s) (que s) (wrk s) (nextc s) (plog s).
Definition with_que (l : list job) (s : pserver) : pserver :=
  MkPServer (size s) (lim s) (shared s) (pcnt s) (lp s) l (wrk s) (nextc s) (plog s).
Definition with_wrk (w : nat) (x : working) (s : pserver) : pserver :=
  MkPServer (size s) (lim s) (shared s) (pcnt s) (lp s) (que s) (setnth w x (wrk s)) (nextc s) (plog s).
Definition logs (e : pevent) (s : pserver) : pserver :=
  MkPServer (size s) (lim s) (shared s) (pcnt s) (lp s) (que s) (wrk s) (nextc s) (plog s ++ [e]).
Definition with_next (s : pserver) : pserver :=
  MkPServer (size s) (lim s) (shared s) (pcnt s) (lp s) (que s) (wrk s) (S (nextc s)) (plog s).

(** Scheduling. *)
Inductive pmove :=
| QLoop                      (* the accept loop moves *)
| QTake (w : nat)            (* worker [w] takes a function from the queue *)
| QMsg (w q : nat)           (* the connection served by [w] receives request [q] *)
| QSubmit (w : nat)          (* worker [w]'s HandlerRunner.Run gets its place *)
| QDone (w : nat)            (* worker [w] has handled its request *)
| QEnd (w : nat).            (* the connection served by [w] fails or ends *)

Definition qstep (m : pmove) (s : pserver) : option pserver :=
  match m with
  | QLoop =>
      match lp s with
      | PAccept => Some (logs (VNew (nextc s)) (with_lp (PTest (nextc s) (pcnt s)) (with_next s)))
      | PTest c n =>
          if negb (lim s =? 0)%Z && (wrap32 (lim s) <=? n)%Z
          then Some (logs (VTurned c) (with_lp PAccept s))
          else Some (with_cnt (pcnt s + 1) (with_lp (PPut c) s))
      | PPut c =>
          if length (que s) <? size s
          then Some (with_lp PAccept (with_que (que s ++ [JServe c]) s)) else None
      end
  | QTake w =>
      match nth_error (wrk s) w, que s with
      | Some KIdle, JServe c :: l => Some (logs (VStart c) (with_que l (with_wrk w (KServing c) s)))
      | Some KIdle, JReq c q :: l => Some (with_que l (with_wrk w (KReq c q) s))
      | _, _ => None
      end
  | QMsg w q =>
      match nth_error (wrk s) w with
      | Some (KServing c) =>
          if shared s then Some (with_wrk w (KSubmit c q) s) else Some (logs (VHandled c q) s)
      | _ => None
      end
  | QSubmit w =>
      match nth_error (wrk s) w with
      | Some (KSubmit c q) =>
          if length (que s) <? size s
          then Some (with_que (que s ++ [JReq c q]) (with_wrk w (KServing c) s)) else None
      | _ => None
      end
  | QDone w =>
      match nth_error (wrk s) w with
      | Some (KReq c q) => Some (logs (VHandled c q) (with_wrk w KIdle s))
      | _ => None
      end
  | QEnd w =>
      match nth_error (wrk s) w with
      | Some (KServing c) => Some (logs (VClosed c) (with_cnt (pcnt s - 1) (with_wrk w KIdle s)))
      | _ => None
      end
  end.

Definition qact (s : pserver) (m : pmove) : pserver := match qstep m s with Some s' => s' | None => s end.
Definition qrun (sch : list pmove) (s : pserver) : pserver := fold_left qact sch s.

(** NewMultiRoutineRunner(n) (runner.go:45-56) as ConnRunner of a new server. *)
Definition pstart (n : nat) (mx : Z) (sh : bool) : pserver :=
  MkPServer n mx sh 0 PAccept [] (repeat KIdle n) 0 [].
