(** What a worker pool promises. *)
From Verif Require Import RunnerModel.

(** The functions being run. *)
Definition running (p : pool) : list nat :=
  flat_map (fun w => match w with Running f _ => [f] | Waiting => [] end) (workers p).

(** The functions that callers, inside or outside the pool, have not passed yet. *)
Definition waiting_calls (p : pool) : list nat :=
  concat (callers p) ++ flat_map (fun w => match w with Running _ l => l | Waiting => [] end) (workers p).

(** No goroutine can move. *)
Definition stuck (body : nat -> list nat) (p : pool) : Prop := forall m, pstep body m p = None.

(** Every move of the schedule does something. *)
Fixpoint busy (body : nat -> list nat) (sch : list pmove) (p : pool) : Prop :=
  match sch with
  | [] => True
  | m :: l => exists p', pstep body m p = Some p' /\ busy body l p'
  end.
