(** How many bytes of sent messages wait for a Flush. *)
From Coq Require Import NArith List.
Import ListNotations.
Local Open Scope N_scope.

(** [k] bytes wait, a message of [n] bytes is sent: it is added if 4096 bytes are not
    exceeded; otherwise the wait is filled up to 4096 and sent, unless there is none,
    and what is left of the message waits if it is at most 4096 bytes, and else is sent. *)
Definition hold (k n : N) : N :=
  if k + n <=? 4096 then k + n
  else if k =? 0 then 0
  else if k + n - 4096 <=? 4096 then k + n - 4096
  else 0.

Definition held (k : N) (sizes : list N) : N := fold_left hold sizes k.

(** Number of messages of the given sizes that lie wholly in the first [n] bytes,
    and the bytes of the next. *)
Fixpoint whole (n : nat) (sizes : list nat) : nat * nat :=
  match sizes with
  | [] => (0, 0)%nat
  | l :: ls => if Nat.leb l n then let '(j, c) := whole (n - l) ls in (S j, c) else (0%nat, n)
  end.
