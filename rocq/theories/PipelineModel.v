(** A peer that sends many requests over one served connection, with buffers of
    limited size in both directions.

    Requests and replies count by their sizes in bytes.  [lim_in] is the number
    of bytes that can be under way from the peer to the server without having
    been received (socket buffers, network, the reader of the connection),
    [lim_out] the same for the other direction; both are constant here, which
    simplifies the read-ahead of bufio (it only moves bytes between buffers). *)
From Coq Require Export List Arith Bool.
Export ListNotations.

(** One request: its size and the size of the reply the handler writes (0: none). *)
Definition exchange := (nat * nat)%type.

(** When the peer reads replies: after its last request, all the time, or never. *)
Inductive reading := Afterwards | Always | Never.

Record setting := MkSetting {
  one_by_one : bool;       (** SequentialRunner (runner.go:28-34), else OnDemandRoutineRunner (runner.go:17-23) *)
  habit : reading;
  lim_in : nat; lim_out : nat;
  exchanges : list exchange }.

Definition sum (l : list nat) : nat := fold_right Nat.add 0 l.
(** The sizes of the first [k] requests, and of the first [k] replies, together. *)
Definition requests (c : setting) (k : nat) : nat := sum (map fst (firstn k (exchanges c))).
Definition reply (c : setting) (i : nat) : nat := snd (nth i (exchanges c) (0, 0)).
Definition count (c : setting) : nat := length (exchanges c).

(** [sent]: bytes the peer has written; [taken]: bytes received by the server
    (Receive, net.go:136-148); [handed]: requests the receiver goroutine has
    passed on (server.go:109-120); [order]: the replies in the order in which
    their handlers got the lock of the connection (forceWrite, net.go:166-176),
    the last of them perhaps not complete; [written]: bytes of replies written;
    [got]: bytes of replies the peer has read. *)
Record line := MkLine { sent : nat; taken : nat; handed : nat; order : list nat; written : nat; got : nat }.

Definition idle_line : line := MkLine 0 0 0 [] 0 0.

Definition ordered (c : setting) (s : line) : nat := sum (map (reply c) (order s)).

Inductive act := Send | Take | Hand | Begin (i : nat) | Put | Get.

Definition listens (c : setting) (s : line) : bool :=
  match habit c with Afterwards => sent s =? requests c (count c) | Always => true | Never => false end.

(** What can happen.  The receiver reads on only after it has passed on the last
    request (the channel has no buffer, server.go:123-126).  The loop of the
    connection takes the next one (server.go:290-302) when the runner has
    returned: at once, or when the handler is done.  A handler writes its reply
    under the lock of the connection. *)
Definition can (c : setting) (s : line) (a : act) : bool :=
  match a with
  | Send => (sent s <? requests c (count c)) && (sent s - taken s <? lim_in c)
  | Take => (handed s <? count c) && (taken s <? requests c (S (handed s))) && (taken s <? sent s)
  | Hand => (handed s <? count c) && (taken s =? requests c (S (handed s)))
            && (negb (one_by_one c) || (length (order s) =? handed s) && (written s =? ordered c s))
  | Begin i => (i <? handed s) && negb (existsb (Nat.eqb i) (order s)) && (written s =? ordered c s)
  | Put => (written s <? ordered c s) && (written s - got s <? lim_out c)
  | Get => listens c s && (got s <? written s)
  end.

Definition act_on (s : line) (a : act) : line :=
  match a with
  | Send => MkLine (S (sent s)) (taken s) (handed s) (order s) (written s) (got s)
  | Take => MkLine (sent s) (S (taken s)) (handed s) (order s) (written s) (got s)
  | Hand => MkLine (sent s) (taken s) (S (handed s)) (order s) (written s) (got s)
  | Begin i => MkLine (sent s) (taken s) (handed s) (order s ++ [i]) (written s) (got s)
  | Put => MkLine (sent s) (taken s) (handed s) (order s) (S (written s)) (got s)
  | Get => MkLine (sent s) (taken s) (handed s) (order s) (written s) (S (got s))
  end.

(** A schedule; what cannot happen is skipped. *)
Fixpoint flow (c : setting) (l : list act) (s : line) : line :=
  match l with
  | [] => s
  | a :: l' => flow c l' (if can c s a then act_on s a else s)
  end.

(** How many of the steps of a schedule really happen. *)
Fixpoint steps (c : setting) (l : list act) (s : line) : nat :=
  match l with
  | [] => 0
  | a :: l' => if can c s a then S (steps c l' (act_on s a)) else steps c l' s
  end.
