(** What the handlers of a connection have written. *)
From Verif Require Import HandsModel ServerSpec.

(** The replies of call number [j], in the order of the writes. *)
Definition written (j : nat) (lg : list (nat * (Header * option payload))) : list (Header * option payload) :=
  map snd (filter (fun x => fst x =? j) lg).

(** The requests whose handlers have returned. *)
Definition returns (l : list event) : list Request := flat_map (fun e => match e with EReturn _ q => [q] | _ => [] end) l.

(** Every handler that was called has returned. *)
Definition all_returned (l : list event) : Prop := length (returns l) = length (calls l).
