(** What reading the beginning of encoded actions and instructions leaves: elements
    that came whole, and of the one that was cut the members that came whole, the
    others being zero. *)
From Verif Require Import InstructionModel ActionSpec InstructionSpec MatchSpec.

(** A number whose last byte is at offset [off - 1] when [n] bytes came. *)
Definition upto (off n : nat) (v : N) : N := if off <=? n then v else 0%N.

(** A match entry.  Behind its header the payload counts as zeros, value and mask
    alike, and there is no mask; a cut before the length leaves the field number
    and the mask flag in one. *)
Definition xm_seen (x : XM) (n : nat) : XM :=
  if xm_size x <=? n then x
  else if 4 <=? n then MkXM (XM_Class x) (XM_Type x) (zeros (length (XM_Value x) + length (XM_Mask x))) []
  else MkXM (upto 2 n (XM_Class x)) (upto 3 n (2 * XM_Type x + has_mask x)) [] [].

Definition action_seen (a : Action) (n : nat) : Action :=
  match a with
  | AOutput p m => AOutput (upto 8 n p) (upto 10 n m)
  | ASetMPLSTTL x => ASetMPLSTTL (upto 5 n x)
  | ASetNetworkTTL x => ASetNetworkTTL (upto 5 n x)
  | APushVLAN x => APushVLAN (upto 6 n x)
  | APushMPLS x => APushMPLS (upto 6 n x)
  | APopMPLS x => APopMPLS (upto 6 n x)
  | APushPBB x => APushPBB (upto 6 n x)
  | ASetQueue x => ASetQueue (upto 8 n x)
  | AGroup x => AGroup (upto 8 n x)
  | AExperimenter x => AExperimenter (upto 8 n x)
  | ASetField x => ASetField (if n <? 4 then zero_XM else xm_seen x (n - 4))
  | ACopyTTLOut | ACopyTTLIn | ADecMPLSTTL | APopVLAN | ADecNetworkTTL => a
  end.

(** A list whose elements have these sizes: the type of an element takes two bytes. *)
Fixpoint list_seen {A} (size : A -> nat) (seen : A -> nat -> A) (l : list A) (n : nat) : list A :=
  match l with
  | [] => []
  | a :: l' => if size a <=? n then a :: list_seen size seen l' (n - size a)
               else if n <? 2 then [] else [seen a n]
  end.

Definition actions_seen : list Action -> nat -> list Action := list_seen action_size action_seen.

Definition instruction_seen (i : Instruction) (n : nat) : Instruction :=
  match i with
  | IGotoTable x => IGotoTable (upto 5 n x)
  | IWriteMetadata a b => IWriteMetadata (upto 16 n a) (upto 24 n b)
  | IApplyActions l => IApplyActions (actions_seen l (n - 8))
  | IWriteActions l => IWriteActions (actions_seen l (n - 8))
  | IClearActions => IClearActions
  | IMeter x => IMeter (upto 8 n x)
  end.

Definition instructions_seen : list Instruction -> nat -> list Instruction :=
  list_seen instruction_size instruction_seen.
