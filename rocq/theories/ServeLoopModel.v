(** The Serve calls of a server with either simple ConnRunner, and accepts that
    fail.  server.go:218-282, runner.go:18-34. *)
From Verif Require Export ServerModel.

(** [sv] is the server of ServerModel.  [serial] says that ConnRunner is
    SequentialRunner (runner.go:28-34): Run returns when serve has returned, so
    Serve call number [k] itself is busy with connection [busy k]; otherwise it
    is OnDemandRoutineRunner (runner.go:17-23).  [ended k] is the error with
    which Serve call [k] has returned (server.go:244-249); the deferred l.Close
    (server.go:219) has then been called on its listener.
    Simplification: the return and the close are one step. *)
Record frame := MkFrame { sv : server; serial : bool; busy : list (option nat); ended : list (option err) }.

(** The moves of ServerModel, and an Accept that fails with [e] in Serve call [k]. *)
Inductive fmove := FMove (m : move) | FFail (k : nat) (e : err).

Definition with_sv (t : server) (s : frame) : frame := MkFrame t (serial s) (busy s) (ended s).
Definition with_busy (k : nat) (b : option nat) (s : frame) : frame := MkFrame (sv s) (serial s) (setnth k b (busy s)) (ended s).
Definition with_ended (k : nat) (e : err) (s : frame) : frame := MkFrame (sv s) (serial s) (busy s) (setnth k (Some e) (ended s)).

(** The loop of Serve, server.go:244-249, around accept, server.go:255-282: with
    SequentialRunner cr.Run (line 279) returns when serve has closed the
    connection (server.go:284-287). *)
Definition frame_loop (k : nat) (ms : list Request) (s : frame) : option frame :=
  match nth_error (ended s) k, nth_error (busy s) k with
  | Some None, Some None =>
      match loop_step k ms (sv s) with
      | None => None
      | Some t =>
          match serial s, nth_error (loops (sv s)) k with
          | true, Some (LSpawn c) => Some (with_busy k (Some c) (with_sv t s))
          | _, _ => Some (with_sv t s)
          end
      end
  | Some None, Some (Some c) =>
      match nth_error (cns (sv s)) c with
      | Some (MkCn _ _ _ VGone) => Some (with_busy k None s)
      | _ => None
      end
  | _, _ => None
  end.

(** accept returning the error of l.Accept, server.go:256-259. *)
Definition frame_fail (k : nat) (e : err) (s : frame) : option frame :=
  match nth_error (ended s) k, nth_error (busy s) k, nth_error (loops (sv s)) k with
  | Some None, Some None, Some LIdle => Some (with_ended k e s)
  | _, _, _ => None
  end.

Definition fstep (m : fmove) (s : frame) : option frame :=
  match m with
  | FMove (MLoop k ms) => frame_loop k ms s
  | FMove m => option_map (fun t => with_sv t s) (sstep m (sv s))
  | FFail k e => frame_fail k e s
  end.

Definition fdo (s : frame) (m : fmove) : frame := match fstep m s with Some s' => s' | None => s end.
Definition frun (sch : list fmove) (s : frame) : frame := fold_left fdo sch s.

(** A server with [n] Serve calls. *)
Definition fstart (lim : Z) (one : bool) (q : bool) (n : nat) : frame :=
  MkFrame (sstart lim q n) one (repeat None n) (repeat None n).
