(** What users expect of ReadTimeout. *)
From Verif Require Import WaitModel.

(** The time the peer takes before a request, the time its handler takes, and the
    time between the request before and this one. *)
Definition delay (c : talk) (i : nat) : nat := fst (nth i (rounds c) (0, 0)).
Definition effort (c : talk) (i : nat) : nat := snd (nth i (rounds c) (0, 0)).
Definition gap (c : talk) (i : nat) : nat := match i with 0 => 0 | S j => effort c j end + delay c i.

(** Nothing is going to happen on this connection, however long one waits, except
    that the server may close it. *)
Definition settled (s : moment) : Prop :=
  pause s = None /\ busy s = [] /\ match rcv s with Reading _ => pipe s = false | Holding _ => False | _ => True end.
