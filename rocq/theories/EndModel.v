(** The end of a served connection: replies that are still to be written when
    the peer has stopped sending.

    One connection is looked at.  The receiver goroutine delivers the messages of
    the peer and then an error (the end of the stream, a corrupted header or a
    timeout); the channel makes the loop of the connection see them in order
    (server.go:112-129).
    Simplifications: a handler writes one reply, or none (an empty list of
    bytes); what was written before the close reaches the peer. *)
From Coq Require Export List Arith Bool.
Export ListNotations.

(** [in_turn]: SequentialRunner (runner.go:28-34), else OnDemandRoutineRunner
    (runner.go:17-23).  [answers]: the reply to each message, as written by
    response.Write (server.go:58-90). *)
Record dialogue (A : Type) := MkDialogue { in_turn : bool; answers : list (list A) }.
Arguments MkDialogue {A}. Arguments in_turn {A}. Arguments answers {A}.

Definition total {A} (d : dialogue A) : nat := length (answers d).
Definition answer {A} (d : dialogue A) (i : nat) : list A := nth i (answers d) [].

(** [arrived]: messages handed to the runner; [waiting]: handlers that have not
    got the lock of the connection yet (net.go:166-168); [writing]: the one that
    has it and the bytes it has still to write; [out]: bytes written;
    [over]: the connection is closed; [returned]: handlers that have returned,
    in order, with what Write reported ([true]: no error). *)
Record state (A : Type) := MkState {
  arrived : nat; waiting : list nat; writing : option (nat * list A);
  out : list A; over : bool; returned : list (nat * bool) }.
Arguments MkState {A}. Arguments arrived {A}. Arguments waiting {A}. Arguments writing {A}.
Arguments out {A}. Arguments over {A}. Arguments returned {A}.

Definition opened {A} : state A := MkState 0 [] None [] false [].

Inductive move := Next | Stop | Lock (i : nat) | Byte | Break | Done.

(** No handler is running. *)
Definition calm {A} (s : state A) : bool :=
  match waiting s, writing s with [], None => true | _, _ => false end.

Definition without (i : nat) (l : list nat) : list nat := filter (fun j => negb (i =? j)) l.

(** [Next]: the loop takes a message and hands it to the runner
    (server.go:296-302), which returns at once or after the handler.
    [Stop]: it sees the error and returns, which closes the connection
    (server.go:286, 297-300, net.go:191-193).
    [Lock], [Byte], [Break], [Done]: forceWrite (net.go:165-175); writing to a
    closed connection fails. *)
Definition move_on {A} (d : dialogue A) (s : state A) (m : move) : option (state A) :=
  match m with
  | Next =>
      if (arrived s <? total d) && negb (over s) && (negb (in_turn d) || calm s)
      then Some (MkState (S (arrived s)) (waiting s ++ [arrived s]) (writing s) (out s) (over s) (returned s))
      else None
  | Stop =>
      if (arrived s =? total d) && negb (over s) && (negb (in_turn d) || calm s)
      then Some (MkState (arrived s) (waiting s) (writing s) (out s) true (returned s))
      else None
  | Lock i =>
      match writing s with
      | None =>
          if existsb (Nat.eqb i) (waiting s)
          then Some (MkState (arrived s) (without i (waiting s)) (Some (i, answer d i)) (out s) (over s) (returned s))
          else None
      | Some _ => None
      end
  | Byte =>
      match writing s with
      | Some (i, b :: r) =>
          if over s then None
          else Some (MkState (arrived s) (waiting s) (Some (i, r)) (out s ++ [b]) (over s) (returned s))
      | _ => None
      end
  | Break =>
      match writing s with
      | Some (i, b :: r) =>
          if over s then Some (MkState (arrived s) (waiting s) None (out s) (over s) (returned s ++ [(i, false)]))
          else None
      | _ => None
      end
  | Done =>
      match writing s with
      | Some (i, []) => Some (MkState (arrived s) (waiting s) None (out s) (over s) (returned s ++ [(i, true)]))
      | _ => None
      end
  end.

(** A schedule; what cannot happen is skipped. *)
Fixpoint course {A} (d : dialogue A) (l : list move) (s : state A) : state A :=
  match l with
  | [] => s
  | m :: l' => course d l' (match move_on d s m with Some s' => s' | None => s end)
  end.

(** How many of its steps really happen. *)
Fixpoint moves {A} (d : dialogue A) (l : list move) (s : state A) : nat :=
  match l with
  | [] => 0
  | m :: l' => match move_on d s m with Some s' => S (moves d l' s') | None => moves d l' s end
  end.
