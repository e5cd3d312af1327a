(** What OpenFlow 1.3 (section 7.2.4) says about instructions, independently of
    the encoders and decoders. *)
From Verif Require Import Bytes WireSpec MatchSpec InstructionModel ActionSpec.

(** The layouts of the elements of a list, one after another from [off] on. *)
Fixpoint one_after_another {A} (size : A -> nat) (lay : A -> list (nat * item)) (off : nat) (l : list A)
  : list (nat * item) :=
  match l with
  | [] => []
  | a :: l' => shift off (lay a) ++ one_after_another size lay (off + size a) l'
  end.

(** Parameter ranges; an action list must be shorter than 65536 bytes. *)
Definition wf_Instruction (i : Instruction) : Prop :=
  match i with
  | IGotoTable x => (x < 256)%N
  | IWriteMetadata a b => (a < 18446744073709551616 /\ b < 18446744073709551616)%N
  | IApplyActions l | IWriteActions l => Forall wf_Action l /\ (N.of_nat (actions_size l) < 65536)%N
  | IClearActions => True
  | IMeter x => (x < 4294967296)%N
  end.

Definition instruction_size (i : Instruction) : nat :=
  match i with
  | IWriteMetadata _ _ => 24
  | IApplyActions l | IWriteActions l => 8 + actions_size l
  | _ => 8
  end.
Definition instructions_size (l : list Instruction) : nat := list_sum (map instruction_size l).

(** enum ofp_instruction_type. *)
Definition ofpit (i : Instruction) : N :=
  match i with
  | IGotoTable _ => 1 | IWriteMetadata _ _ => 2 | IWriteActions _ => 3
  | IApplyActions _ => 4 | IClearActions => 5 | IMeter _ => 6
  end%N.

(** struct ofp_instruction_*. *)
Definition instruction_layout (i : Instruction) : list (nat * item) :=
  (0, Num 2 (ofpit i)) :: (2, Num 2 (N.of_nat (instruction_size i))) ::
  match i with
  | IGotoTable x => [(4, Num 1 x); (5, Zero 3)]
  | IWriteMetadata a b => [(4, Zero 4); (8, Num 8 a); (16, Num 8 b)]
  | IApplyActions l | IWriteActions l => (4, Zero 4) :: one_after_another action_size action_layout 8 l
  | IClearActions => [(4, Zero 4)]
  | IMeter x => [(4, Num 4 x)]
  end.

(** The instruction types the library knows (all of OpenFlow 1.3 but
    experimenter). *)
Definition known_instructions : list N := [1; 2; 3; 4; 5; 6]%N.
