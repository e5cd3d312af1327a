(** Model of what the buffer of [ScanFrom] takes from the reader below it.

    [ScanFrom] (internal/encoding/encoding.go:204-245) wraps the reader in a new
    [bufio.Reader] of 4096 bytes and drops it when it returns.  [scan] of
    Encoding.v lets it have taken everything; here a list that is given up
    leaves all but [k] of the bytes behind the place where it was given up.
    How many bytes the buffer holds at that moment depends on the sizes of the
    reads so far; everything is proved for all [k].  When the list is read to
    the end nothing is left: [Peek] has met the end of the reader. *)
From Verif Require Import ActionModel InstructionModel FlowModel.

(** [ScanFrom] as above; element number [i] is read by [rd i]. *)
Fixpoint scan_ahead_loop {A} (k fuel : nat) (mk : N -> made A) (rd : nat -> step A)
    (acc : list A) (inp : bytes) : res (list A) :=
  match fuel with
  | O => Res acc 0 (Some EFuel) []
  | S fuel' =>
      if length inp <? 2 then Res acc 0 None []
      else
        match mk (be_dec (firstn 2 inp)) with
        | MkUnknown => Res acc 0 (Some (EUnknown (be_dec (firstn 2 inp)))) (skipn k inp)
        | MkPanic => Res acc 0 (Some EPanic) (skipn k inp)
        | MkOk a =>
            let r := rd (length acc) a inp in
            match fail r with
            | Some e => Res (acc ++ [val r]) (cnt r) (skip_eof (Some e)) (skipn k (rest r))
            | None =>
                let r' := scan_ahead_loop k fuel' mk rd (acc ++ [val r]) (rest r) in
                Res (val r') (cnt r + cnt r') (fail r') (rest r')
            end
        end
  end.

Definition scan_ahead {A} (k : nat) (mk : N -> made A) (rd : nat -> step A) : step (list A) := fun old inp =>
  scan_ahead_loop k (S (length inp)) mk rd old inp.

(** Actions.ReadFrom, ofp/action.go:197-214. *)
Definition dec_Actions_ahead (k : nat) : step (list Action) :=
  pre (fun _ => []) (scan_ahead k make_action (fun _ => dec_Action)).

(** PacketOut.ReadFrom, ofp/packet.go:171-191: the actions through a limited
    reader, the packet from the reader below it. *)
Definition dec_PacketOut_ahead (k : nat) : step PacketOut :=
  with_local 0%N
    (andthen
      (seqr [sub snd (fun m s => (fst s, m)) (fu 4 set_PacketOut_Buffer);
             sub snd (fun m s => (fst s, m)) (fu 4 set_PacketOut_InPort);
             fu 2 (fun v s => (v, snd s)); fpad 6])
      (fun _ h =>
         andthen
           (limited (Z.of_N (fst h))
              (pre (fun s => (fst s, set_PacketOut_Actions [] (snd s)))
                (sub snd (fun m s => (fst s, m))
                  (sub PacketOut_Actions set_PacketOut_Actions (dec_Actions_ahead k)))))
           (fun _ _ => sub snd (fun m s => (fst s, m)) (readall set_PacketOut_Data)))).

(** readInstructionActions, ofp/instruction.go:224-244. *)
Definition dec_instruction_actions_ahead (k : nat) : step Instruction :=
  with_local 0%N
    (andthen (seqr [fpad 2; fu 2 (fun v s => (v, snd s)); fpad 4])
       (fun _ h =>
          limited (Z.of_N (uwrap 2 (fst h + 65528)))
            (sub snd (fun x s => (fst s, x)) (sub get_actions set_actions (dec_Actions_ahead k))))).

(** The ReadFrom methods, as [dec_Instruction]. *)
Definition dec_Instruction_ahead (k : nat) : step Instruction := fun i =>
  match i with
  | IApplyActions _ | IWriteActions _ => dec_instruction_actions_ahead k
  | _ => dec_Instruction
  end i.

(** Instructions.ReadFrom, ofp/instruction.go:123-138: the buffer of the list
    [number] of actions holds [ks number] bytes when it is given up, that of
    the list of instructions [k]. *)
Definition dec_Instructions_ahead (k : nat) (ks : nat -> nat) : step (list Instruction) :=
  scan_ahead k make_instruction (fun i => dec_Instruction_ahead (ks i)).
