(** What users expect of a peer that sends ahead. *)
From Verif Require Import PipelineModel.

(** The sizes of the first [k] requests together, and that of reply [i]. *)
Definition total (l : list nat) : nat := fold_right Nat.add 0 l.
Definition asked_for (c : setting) (k : nat) : nat := total (map fst (firstn k (exchanges c))).
Definition answer (c : setting) (i : nat) : nat := snd (nth i (exchanges c) (0, 0)).

(** Nothing can happen any more. *)
Definition at_rest (c : setting) (s : line) : Prop := forall a, can c s a = false.

(** The sizes of all replies together. *)
Definition replies (c : setting) : nat := total (map snd (exchanges c)).

(** Every request was sent and handled, every reply has reached the peer. *)
Definition complete (c : setting) (s : line) : Prop :=
  sent s = asked_for c (length (exchanges c)) /\ handed s = length (exchanges c) /\ (forall i, i < length (exchanges c) -> In i (order s)) /\
  got s = replies c.

(** The size of the first [k] replies. *)
Definition replies_to (c : setting) (k : nat) : nat := total (map snd (firstn k (exchanges c))).

(** Whenever the first replies no longer fit into the buffers of their
    direction, the requests behind the one after them fit into those of the
    other direction. *)
Definition fits (c : setting) : Prop := forall j,
  lim_out c < replies_to c j -> asked_for c (length (exchanges c)) <= asked_for c (S j) + lim_in c.

(** The buffers are not empty. *)
Definition buffered (c : setting) : Prop := 0 < lim_in c /\ 0 < lim_out c.

(** The handlers that were started and have not returned: those that did not
    begin to write and the one that has not finished writing. *)
Definition unfinished (c : setting) (s : line) : nat :=
  handed s - length (order s) + (if written s <? total (map (answer c) (order s)) then 1 else 0).
