(** The worker pool, MultiRoutineRunner: runner.go:36-76. *)
From Coq Require Export List Arith Bool.
Export ListNotations.

(** What a worker goroutine is doing, runner.go:66-70: waiting in the range
    loop, or running function [f] which still has to hand the functions [todo]
    to Run of the same pool before it returns. *)
Inductive worker := Waiting | Running (f : nat) (todo : list nat).

(** A pool of [num] workers (NewMultiRoutineRunner, runner.go:49-57, requires
    num > 0).  [on] is the state of the sync.Once: the workers start with the
    first Run.  [queue] is the buffered channel of capacity [num].  [callers]
    are goroutines outside the pool, each with the functions it passes to Run,
    one after the other.  The last three fields are history: the functions in
    the order in which Run returned for them, were started, and ended. *)
Record pool := MkPool {
  num : nat; on : bool; queue : list nat; workers : list worker; callers : list (list nat);
  submitted : list nat; begun : list nat; finished : list nat }.

Fixpoint put {A} (n : nat) (x : A) (l : list A) : list A :=
  match l, n with
  | [], _ => []
  | _ :: l', O => x :: l'
  | y :: l', S n' => y :: put n' x l'
  end.

Inductive pmove := PCaller (i : nat) | PWorker (w : nat).

(** Sending on the channel, runner.go:75: possible while there is room.  (Go
    hands the value directly to a waiting receiver; that is the same as putting
    it into the empty buffer and receiving it next.) *)
Definition send (f : nat) (p : pool) : option pool :=
  if length (queue p) <? num p
  then Some (MkPool (num p) (on p) (queue p ++ [f]) (workers p) (callers p) (submitted p ++ [f]) (begun p) (finished p))
  else None.

Definition with_worker (w : nat) (x : worker) (p : pool) : pool :=
  MkPool (num p) (on p) (queue p) (put w x (workers p)) (callers p) (submitted p) (begun p) (finished p).
Definition with_caller (i : nat) (l : list nat) (p : pool) : pool :=
  MkPool (num p) (on p) (queue p) (workers p) (put i l (callers p)) (submitted p) (begun p) (finished p).

(** Run, runner.go:73-76, called from outside: the first call starts the workers
    (init, runner.go:60-64; other callers wait for it in sync.Once), then the
    function is sent. *)
Definition caller_step (i : nat) (p : pool) : option pool :=
  match nth_error (callers p) i with
  | Some (f :: l) =>
      if on p then option_map (with_caller i l) (send f p)
      else Some (MkPool (num p) true (queue p) (repeat Waiting (num p)) (callers p) (submitted p) (begun p) (finished p))
  | _ => None
  end.

(** A worker; [body f] are the functions that function [f] itself passes to Run. *)
Definition worker_step (body : nat -> list nat) (w : nat) (p : pool) : option pool :=
  match nth_error (workers p) w with
  | None => None
  | Some Waiting =>
      match queue p with
      | [] => None
      | f :: q => Some (MkPool (num p) (on p) q (put w (Running f (body f)) (workers p)) (callers p) (submitted p) (begun p ++ [f]) (finished p))
      end
  | Some (Running f []) =>
      Some (MkPool (num p) (on p) (queue p) (put w Waiting (workers p)) (callers p) (submitted p) (begun p) (finished p ++ [f]))
  | Some (Running f (g :: l)) => option_map (with_worker w (Running f l)) (send g p)
  end.

Definition pstep (body : nat -> list nat) (m : pmove) (p : pool) : option pool :=
  match m with PCaller i => caller_step i p | PWorker w => worker_step body w p end.
Definition pact (body : nat -> list nat) (p : pool) (m : pmove) : pool := match pstep body m p with Some p' => p' | None => p end.
Definition prun (body : nat -> list nat) (sch : list pmove) (p : pool) : pool := fold_left (pact body) sch p.

(** A new pool of [n] workers with its future callers. *)
Definition pstart (n : nat) (cs : list (list nat)) : pool := MkPool n false [] [] cs [] [] [].
