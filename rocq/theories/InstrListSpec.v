(** What lists of actions and instructions in arbitrary bytes say, independently of
    the decoders. *)
From Verif Require Import Bytes Encoding WireSpec MatchSpec InstructionModel ActionSpec InstructionSpec.

(** The actions [l] that the bytes [reg] hold, and the report [v] about them: complete
    actions, then too little for a type, an unknown type, pop PBB, or an action that
    breaks off. *)
Definition actions_end (reg : bytes) (l : list Action) (v : option err) : Prop :=
  exists l0 segs b, reg = concat segs ++ b /\ Forall2 denotes l0 segs /\
  ((length b < 2 /\ l = l0 /\ v = None)
   \/ (2 <= length b /\ ~ In (num 0 2 b) known_types /\ num 0 2 b <> 27%N /\ l = l0 /\ v = Some (EUnknown (num 0 2 b)))
   \/ (2 <= length b /\ num 0 2 b = 27%N /\ l = l0 /\ v = Some EPanic)
   \/ (2 <= length b /\ In (num 0 2 b) known_types /\ ~ (exists a seg tl, b = seg ++ tl /\ denotes a seg)
       /\ (exists a, ofpat a = num 0 2 b /\ l = l0 ++ [a]) /\ v = if accepted_cut b then None else Some UnexpectedEOF)).

(** The bytes an instruction with actions reserves for them: its length field less 8,
    modulo 65536. *)
Definition room (b : bytes) : nat := N.to_nat ((num 2 2 b + 65528) mod 65536).

(** [seg] is one complete instruction saying [i].  Length fields of fixed-size
    instructions and padding are not looked at. *)
Definition instructs (i : Instruction) (seg : bytes) : Prop :=
  num 0 2 seg = ofpit i /\
  match i with
  | IGotoTable x => length seg = 8 /\ x = num 4 1 seg
  | IWriteMetadata a m => length seg = 24 /\ a = num 8 8 seg /\ m = num 16 8 seg
  | IClearActions => length seg = 8
  | IMeter x => length seg = 8 /\ x = num 4 4 seg
  | IApplyActions l | IWriteActions l => length seg = 8 + room seg /\ actions_end (skipn 8 seg) l None
  end.

(** The report about bytes that end before a member does: none if they end where a
    member begins. *)
Definition cut_at (starts : list nat) (b : bytes) : option err :=
  if existsb (Nat.eqb (length b)) starts then None else Some UnexpectedEOF.

(** [b] begins with an instruction that is not complete or has wrong actions; [i] is
    what is there of it and [v] the report. *)
Definition cut_instruction (b : bytes) (i : Instruction) (v : option err) : Prop :=
  2 <= length b /\ num 0 2 b = ofpit i /\
  match i with
  | IGotoTable x => length b < 8 /\ v = cut_at [2; 4; 5] b /\ x = if 5 <=? length b then num 4 1 b else 0%N
  | IWriteMetadata a m => length b < 24 /\ v = cut_at [2; 4; 8; 16] b
      /\ a = (if 16 <=? length b then num 8 8 b else 0%N) /\ m = 0%N
  | IClearActions => length b < 8 /\ v = Some UnexpectedEOF
  | IMeter x => length b < 8 /\ v = cut_at [2; 4] b /\ x = 0%N
  | IApplyActions l | IWriteActions l =>
      (length b < 8 /\ l = [] /\ v = cut_at [2; 4] b)
      \/ (8 <= length b /\ actions_end (firstn (room b) (skipn 8 b)) l v /\ (v <> None \/ length b < 8 + room b))
  end.

(** The instructions [l] in [inp] and the report [v] about them. *)
Definition instructions_end (inp : bytes) (l : list Instruction) (v : option err) : Prop :=
  exists l0 segs b, inp = concat segs ++ b /\ Forall2 instructs l0 segs /\
  ((length b < 2 /\ l = l0 /\ v = None)
   \/ (2 <= length b /\ ~ In (num 0 2 b) known_instructions /\ l = l0 /\ v = Some (EUnknown (num 0 2 b)))
   \/ (exists i, cut_instruction b i v /\ l = l0 ++ [i])).
