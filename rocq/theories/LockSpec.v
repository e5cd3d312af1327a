(** What it means to hang on the lock of a multiplexer. *)
From Verif Require Import LockModel.

(** A goroutine is inside a matcher that it asks; it has not finished. *)
Definition in_matcher (st : list frame) : Prop := exists e rest r, In (Asking e rest r) st.
Definition unfinished (s : lmux) (i : nat) : Prop := stacks s i <> [Todo []].

(** Its next action is to call RLock, to call Lock, or it is in Lock. *)
Definition to_read (st : list frame) : Prop := exists r l st', st = Todo (LServe r :: l) :: st'.
Definition to_write (st : list frame) : Prop :=
  (exists p once l st', st = Todo (LRegister p once :: l) :: st') \/ exists w st', st = Wants w :: st'.
Definition in_lock (st : list frame) : Prop := exists w st', st = Announced w :: st'.

(** Matchers that leave the multiplexer alone. *)
Definition quiet (ms : matchers) : Prop := forall p r, inner ms p r = [].
(** Nothing is ever registered. *)
Definition no_registrations (l : list lop) : Prop := forall p once, ~ In (LRegister p once) l.

(** How many entries the goroutines that hold the lock have still to look at. *)
Definition to_look (st : list frame) : nat :=
  match st with Looking rest _ :: _ => S (2 * length rest) | Todo _ :: Asking _ rest _ :: _ => S (S (2 * length rest)) | _ => 0 end.

(** How often a schedule lets a goroutine do something. *)
Fixpoint moved (ms : matchers) (sch : list (nat * nat)) (s : lmux) : nat :=
  match sch with
  | [] => 0
  | (i, n) :: sch' =>
      match lstep ms i n s with Some s' => S (moved ms sch' s') | None => moved ms sch' s end
  end.
