(** Moves of the goroutines that work for one connection. *)
From Verif Require Import ServerModel.

(** Move [m] in state [s] is one of connection [c]'s own: of its receive or serve
    goroutine or of a handler goroutine for one of its messages. *)
Definition own_move (c : nat) (s : server) (m : move) : bool :=
  match m with
  | MLoop _ _ => false
  | MRecv d => d =? c
  | MServe d => d =? c
  | MHand j => match nth_error (hands s) j with Some (d, _, _) => d =? c | None => false end
  end.

(** During [sch], from [s], no goroutine of connection [c] moves. *)
Fixpoint stuck (c : nat) (sch : list move) (s : server) : Prop :=
  match sch with
  | [] => True
  | m :: l => own_move c s m = false /\ stuck c l (sact s m)
  end.
