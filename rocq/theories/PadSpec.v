(** When reading a message is over, and what it gave, in the words of [PadModel]. *)
From Verif Require Import FixedModel PadModel.

(** How often goroutine [i] moves in a schedule. *)
Definition turns (i : nat) (sch : list nat) : nat := count_occ Nat.eq_dec sch i.

(** Moves enough to read elements to the end: one to fetch an element, and for
    padding one to store each byte and one to go on. *)
Definition enough (ops : list rop) : nat :=
  list_sum (map (fun o => match o with RKeep _ => 1 | RDrop k => k + 2 end) ops).

(** The value with the kept bytes assigned to its members in order. *)
Fixpoint assigned {S} (fs : list (fld S)) (kept : list bytes) (s : S) : S :=
  match fs, kept with
  | FPad _ :: fs', _ => assigned fs' kept s
  | FNum _ set :: fs', b :: kept' => assigned fs' kept' (set (be_dec b) s)
  | _, _ => s
  end.

(** The goroutine is through with reading, and has what reading alone gives. *)
Definition read_as {S} (fs : list (fld S)) (old : S) (r : res S) (t : routine) : Prop :=
  match t with
  | Reading ops unread kept => ops = [] /\ fail r = None /\ val r = assigned fs kept old /\ rest r = unread
  | Stopped e unread kept => fail r = Some e /\ val r = assigned fs kept old /\ rest r = unread
  | _ => False
  end.

(** The bytes of elements of a WriteTo call with padding of its own. *)
Definition own_bytes (o : wop) : bytes := match o with WVal b => b | WZero k => zeros k | WShared _ => [] end.
