(** ReadTimeout of a server and the time handlers take.

    One connection with a peer that sends a request, waits for the reply, takes
    its time and sends the next.  Time is counted in ticks; bytes take no time,
    and whatever can happen does so before the next tick.  Things that can happen
    at the same tick happen in any order. *)
From Coq Require Export List Arith Bool.
Export ListNotations.

(** [single]: SequentialRunner (runner.go:28-34), else OnDemandRoutineRunner
    (runner.go:17-23).  [limit]: Server.ReadTimeout (server.go:168-169), 0: none.
    [rounds]: for each request the time the peer takes before it sends it, and
    the time its handler takes before it writes the reply. *)
Record talk := MkTalk { single : bool; limit : nat; rounds : list (nat * nat) }.

Definition think (c : talk) (i : nat) : nat := fst (nth i (rounds c) (0, 0)).
Definition work (c : talk) (i : nat) : nat := snd (nth i (rounds c) (0, 0)).

(** The receiver goroutine (server.go:112-122): in Receive, with the time left
    until the deadline; with a request for the loop of the connection; with the
    error; or gone. *)
Inductive receiving := Reading (left : option nat) | Holding (i : nat) | Failing | Gone.

(** The deadline set when Receive is called (net.go:136-139). *)
Definition fresh (c : talk) : receiving := Reading (if limit c =? 0 then None else Some (limit c)).

(** [asked]: requests the peer has sent; [pause]: time until it sends the next,
    [None] if it is waiting or done; [pipe]: its last request has not been read
    yet; [busy]: handlers and the time each still takes; [shut]: the connection is
    closed; [answered]: replies that reached the peer. *)
Record moment := MkMoment {
  asked : nat; pause : option nat; pipe : bool; rcv : receiving;
  busy : list (nat * nat); shut : bool; answered : list nat }.

Definition pause_before (c : talk) (i : nat) : option nat :=
  if i <? length (rounds c) then Some (think c i) else None.

Definition accepted (c : talk) : moment := MkMoment 0 (pause_before c 0) false (fresh c) [] false [].

Inductive event := Ask | Read | Expire | Hand | Close | Reply | Tick.

(** The loop of the connection waits for the receiver (server.go:290-302): always,
    or when no handler is running. *)
Definition ready (c : talk) (s : moment) : bool :=
  negb (single c) || match busy s with [] => true | _ => false end.

Definition less (o : option nat) : option nat := match o with Some k => Some (pred k) | None => None end.

(** Everything but the passing of time.
    [Ask]: the peer sends.  [Read]: Receive returns the request (net.go:141-147).
    [Expire]: it returns the timeout.  [Hand]: the loop hands the request to the
    runner and the receiver calls Receive again (server.go:114-115, 302).
    [Close]: the loop gets the error and closes the connection (server.go:286,
    297-300).  [Reply]: a handler writes its reply and returns; on a closed
    connection the reply is lost. *)
Definition instant (c : talk) (s : moment) (e : event) : option moment :=
  match e with
  | Ask =>
      match pause s with
      | Some 0 => Some (MkMoment (S (asked s)) None (negb (shut s)) (rcv s) (busy s) (shut s) (answered s))
      | _ => None
      end
  | Read =>
      match rcv s, pipe s with
      | Reading _, true => Some (MkMoment (asked s) (pause s) false (Holding (pred (asked s))) (busy s) (shut s) (answered s))
      | _, _ => None
      end
  | Expire =>
      match rcv s with
      | Reading (Some 0) => Some (MkMoment (asked s) (pause s) (pipe s) Failing (busy s) (shut s) (answered s))
      | _ => None
      end
  | Hand =>
      match rcv s, ready c s with
      | Holding i, true => Some (MkMoment (asked s) (pause s) (pipe s) (fresh c) (busy s ++ [(i, work c i)]) (shut s) (answered s))
      | _, _ => None
      end
  | Close =>
      match rcv s, ready c s with
      | Failing, true => Some (MkMoment (asked s) (pause s) (pipe s) Gone (busy s) true (answered s))
      | _, _ => None
      end
  | Reply =>
      match busy s with
      | (i, 0) :: r =>
          if shut s then Some (MkMoment (asked s) (pause s) (pipe s) (rcv s) r (shut s) (answered s))
          else Some (MkMoment (asked s) (pause_before c (asked s)) (pipe s) (rcv s) r (shut s) (answered s ++ [i]))
      | _ => None
      end
  | Tick => None
  end.

Definition nothing_urgent (c : talk) (s : moment) : bool :=
  forallb (fun e => match instant c s e with Some _ => false | None => true end) [Ask; Read; Expire; Hand; Close; Reply].

Definition pass (s : moment) : moment :=
  MkMoment (asked s) (less (pause s)) (pipe s) (match rcv s with Reading l => Reading (less l) | r => r end)
    (map (fun h => (fst h, pred (snd h))) (busy s)) (shut s) (answered s).

Definition happen (c : talk) (s : moment) (e : event) : option moment :=
  match e with
  | Tick => if nothing_urgent c s then Some (pass s) else None
  | _ => instant c s e
  end.

(** A schedule; what cannot happen is skipped.
    Simplification: of several handlers only the oldest replies; a peer that
    waits for replies never causes more than one. *)
Fixpoint history (c : talk) (l : list event) (s : moment) : moment :=
  match l with
  | [] => s
  | e :: l' => history c l' (match happen c s e with Some s' => s' | None => s end)
  end.
