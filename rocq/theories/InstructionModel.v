(** Model of ofp/instruction.go: instructions and instruction lists. *)
From Verif Require Export ActionModel.

(** The Go types implementing the Instruction interface, ofp/instruction.go:142-341. *)
Inductive Instruction :=
| IGotoTable (table : N)
| IWriteMetadata (metadata mask : N)
| IApplyActions (actions : list Action)
| IWriteActions (actions : list Action)
| IClearActions
| IMeter (meter : N).

(** The Type methods with the constants of ofp/instruction.go:12-37. *)
Definition instruction_type (i : Instruction) : N :=
  match i with
  | IGotoTable _ => 1
  | IWriteMetadata _ _ => 2
  | IWriteActions _ => 3
  | IApplyActions _ => 4
  | IClearActions => 5
  | IMeter _ => 6
  end%N.

(** instructionMap, ofp/instruction.go:61-68. *)
Definition make_instruction (t : N) : made Instruction :=
  (if t =? 1 then MkOk (IGotoTable 0)
   else if t =? 2 then MkOk (IWriteMetadata 0 0)
   else if t =? 3 then MkOk (IWriteActions [])
   else if t =? 4 then MkOk (IApplyActions [])
   else if t =? 5 then MkOk IClearActions
   else if t =? 6 then MkOk (IMeter 0)
   else MkUnknown)%N.

(** writeInstructionActions, ofp/instruction.go:205-220: 16-bit length arithmetic. *)
Definition enc_instruction_actions (t : N) (l : list Action) : bytes :=
  let buf := enc_Actions l in
  concat [u16 t; u16 (uwrap 2 (uwrap 2 (N.of_nat (length buf)) + 8)); pad 4; buf].

(** The WriteTo methods, ofp/instruction.go:157-159, 191-194, 261-263, 286-288,
    308-310, 333-335. *)
Definition enc_Instruction (i : Instruction) : bytes :=
  let t := instruction_type i in
  match i with
  | IGotoTable x => concat [u16 t; u16 8; u8 x; pad 3]
  | IWriteMetadata a b => concat [u16 t; u16 24; pad 4; u64 a; u64 b]
  | IApplyActions l | IWriteActions l => enc_instruction_actions t l
  | IClearActions => enc_instruction_actions t []
  | IMeter x => concat [u16 t; u16 8; u32 x]
  end.

(** Parameters of an instruction. *)
Definition set_iarg (v : N) (i : Instruction) : Instruction :=
  match i with IGotoTable _ => IGotoTable v | IMeter _ => IMeter v | _ => i end.
Definition set_metadata (v : N) (i : Instruction) : Instruction :=
  match i with IWriteMetadata _ m => IWriteMetadata v m | _ => i end.
Definition set_metadata_mask (v : N) (i : Instruction) : Instruction :=
  match i with IWriteMetadata m _ => IWriteMetadata m v | _ => i end.
Definition get_actions (i : Instruction) : list Action :=
  match i with IApplyActions l | IWriteActions l => l | _ => [] end.
Definition set_actions (l : list Action) (i : Instruction) : Instruction :=
  match i with IApplyActions _ => IApplyActions l | IWriteActions _ => IWriteActions l | _ => i end.

(** readInstructionActions, ofp/instruction.go:224-244; the local [header.Len]
    is the first component of the state, the limit is 16-bit arithmetic. *)
Definition dec_instruction_actions : step Instruction :=
  with_local 0%N
    (andthen (seqr [fpad 2; fu 2 (fun v s => (v, snd s)); fpad 4])
       (fun _ h =>
          limited (Z.of_N (uwrap 2 (fst h + 65528)))
            (sub snd (fun x s => (fst s, x)) (sub get_actions set_actions dec_Actions)))).

(** The ReadFrom methods, ofp/instruction.go:164-166, 198-201, 267-269, 292-294,
    314-316, 339-341; the header struct is read as two fields (83-85). *)
Definition dec_Instruction : step Instruction := fun i =>
  match i with
  | IGotoTable _ => seqr [fpad 2; fpad 2; fu 1 set_iarg; fpad 3]
  | IWriteMetadata _ _ => seqr [fpad 2; fpad 2; fpad 4; fu 8 set_metadata; fu 8 set_metadata_mask]
  | IApplyActions _ | IWriteActions _ => dec_instruction_actions
  | IClearActions => seqr [fpad 8]
  | IMeter _ => seqr [fpad 2; fpad 2; fu 4 set_iarg]
  end i.

(** Instructions.WriteTo, ofp/instruction.go:108-119. *)
Definition enc_Instructions (l : list Instruction) : bytes := concat (map enc_Instruction l).

(** Instructions.ReadFrom, ofp/instruction.go:123-138: new instructions are
    appended to those the receiver already holds. *)
Definition dec_Instructions : step (list Instruction) := scan make_instruction dec_Instruction.
