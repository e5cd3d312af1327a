(** What nested use of multiplexers means: calls are made depth first, and every
    multiplexer sees a sequence of operations of its own. *)
From Verif Require Import NestModel MuxSpec.

(** The multiplexer an operation names, and what it asks of it. *)
Definition target (o : nop) : nat :=
  match o with NHandle m _ _ _ => m | NServe m _ => m | NHandler m _ => m end.
Definition asks (o : nop) : mop :=
  match o with NHandle _ k h once => OHandle k h once | NServe _ r => OServe r | NHandler _ r => OServe r end.

(** What the caller's handler does next: only Serve runs what was chosen. *)
Definition follows (body : nat -> Request -> list nop) (o : nop) (x : outcome) : list nop :=
  match o with
  | NServe _ _ => match x with Served _ _ (Chosen e) r => body (ehandler e) r | _ => [] end
  | NHandle _ _ _ _ | NHandler _ _ => []
  end.

(** The outcomes of performing [l]: each operation, then everything the handler it
    called does, before the next one. *)
Inductive performs (body : nat -> Request -> list nop) : list nop -> list (nop * outcome) -> Prop :=
| performs_nil : performs body [] []
| performs_cons o x l lg1 lg2 :
    performs body (follows body o x) lg1 -> performs body l lg2 -> performs body (o :: l) ((o, x) :: lg1 ++ lg2).

(** The log of one goroutine, and of one multiplexer. *)
Definition of_goroutine (i : nat) (lg : list (nat * nop * outcome)) : list (nop * outcome) :=
  map (fun y => (snd (fst y), snd y)) (filter (fun y => fst (fst y) =? i) lg).
Definition of_mux (m : nat) (lg : list (nat * nop * outcome)) : list (nat * outcome) :=
  map (fun y => (fst (fst y), snd y)) (filter (fun y => target (snd (fst y)) =? m) lg).

Definition nbusy (s : nest) (i : nat) : Prop := ntodo s i <> [] \/ nin s i <> None.

(** Operations of goroutine [i] on [m], finished and begun. *)
Definition used (m i : nat) (s : nest) : list mop :=
  map (fun y => asks (snd (fst y))) (filter (fun y => (target (snd (fst y)) =? m) && (fst (fst y) =? i)) (nlog s))
  ++ match nin s i with Some o => if target o =? m then [asks o] else [] | None => [] end.

(** No registration with [m]. *)
Definition no_registration (m : nat) (l : list nop) : Prop := forall k h once, ~ In (NHandle m k h once) l.

(** Handlers that these operations register with a multiplexer are among those
    that may be there. *)
Definition registers (can : nat -> nat -> Prop) (l : list nop) : Prop :=
  forall m k h once, In (NHandle m k (Some h) once) l -> can m h.

(** Multiplexers come in layers: a handler that may be in one dispatches only to
    lower ones.  No handler does more than [b] things. *)
Definition layered (body : nat -> Request -> list nop) (can : nat -> nat -> Prop) (level : nat -> nat) (b : nat) : Prop :=
  (forall h r, registers can (body h r) /\ length (body h r) <= b)
  /\ forall m h r m' q, can m h -> In (NServe m' q) (body h r) -> level m' < level m.

(** The most operations an operation leads to, itself included, and what the first
    [g] goroutines lead to. *)
Fixpoint most (b k : nat) : nat := match k with 0 => 1 | S k' => 1 + b * most b k' end.
Definition rank (level : nat -> nat) (o : nop) : nat := match o with NServe m _ => S (level m) | _ => 0 end.
Definition at_most (level : nat -> nat) (b : nat) (l : list nop) : nat := list_sum (map (fun o => most b (rank level o)) l).
Definition budget (level : nat -> nat) (b g : nat) (prog : nat -> list nop) : nat :=
  list_sum (map (fun i => at_most level b (prog i)) (seq 0 g)).

(** How often a schedule lets a goroutine do something. *)
Fixpoint moves (fs : nat -> Request -> verdict) (body : nat -> Request -> list nop) (sch : list (nat * nat)) (s : nest) : nat :=
  match sch with
  | [] => 0
  | (i, n) :: sch' =>
      match nstep fs body i n s with Some s' => S (moves fs body sch' s') | None => moves fs body sch' s end
  end.
