(** What users expect at the end of a connection. *)
From Verif Require Import EndModel.

(** Nothing can happen any more. *)
Definition finished {A} (d : dialogue A) (s : state A) : Prop := forall m, move_on d s m = None.

(** The handlers whose Write reported no error, in the order of their returns. *)
Definition successes (l : list (nat * bool)) : list nat := map fst (filter snd l).

(** What those handlers wrote. *)
Definition frames {A} (d : dialogue A) (l : list nat) : list A := concat (map (answer d) l).
