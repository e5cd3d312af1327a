(** What is expected of Serve calls. *)
From Verif Require Import ServeLoopModel ServerSpec.

(** The arrival and the end of a connection. *)
Definition coming_or_going (e : event) : bool :=
  match e with EState _ StateNew | EState _ StateClosed | EClose _ => true | _ => false end.
Definition visit (c : nat) : list event := [EState c StateNew; EState c StateClosed; EClose c].

(** Connections number [c], [c + 1], ... are served completely, one after the other. *)
Fixpoint played (c : nat) (mss : list (list Request)) : list event :=
  match mss with
  | [] => []
  | ms :: r => served_story c ms ++ played (S c) r
  end.

(** The peer of [c] sends nothing. *)
Definition silent (c : nat) (m : fmove) : Prop := m <> FMove (MRecv c).

(** Nothing is being done: no Serve call is busy, nothing is left to do but to
    wait for new connections. *)
Definition at_leisure (s : frame) : Prop := settled (sv s) /\ Forall (fun b => b = None) (busy s).
