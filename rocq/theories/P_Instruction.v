(** C46, C67: instruction lists. *)
From Verif Require Import InstructionFacts.

(** C46: every list of instructions survives the wire; the receiver keeps what
    it held and the decoded instructions follow. *)
Theorem C46_instructions_roundtrip : forall l old, Forall wf_Instruction l ->
  dec_Instructions old (enc_Instructions l) = Res (old ++ l) (instructions_size l) None [].
Proof.
  intros l old W. rewrite (whole_Instructions l W old), instructions_length by exact W. reflexivity.
Qed.
Print Assumptions C46_instructions_roundtrip.

Example C46_instructions_roundtrip_ex :
  let l := [IApplyActions [APopVLAN; ASetField (MkXM 32768 6 [x10; x05] [])]; IWriteMetadata 255 65535;
            IClearActions; IGotoTable 4] in
  Forall wf_Instruction l
  /\ dec_Instructions [IMeter 9] (enc_Instructions l) = Res (IMeter 9 :: l) 72 None [].
Proof. split; [|vm_compute; reflexivity]. repeat constructor; cbn; auto; lia. Qed.

(** C46: type, true length, parameters or nested actions in order; a multiple of
    eight.  (A size above 65535 leaves a length field modulo 65536.) *)
Theorem C46_instruction_layout : forall i, wf_Instruction i ->
  laid_out (enc_Instruction i) (instruction_size i) (instruction_layout i)
  /\ instruction_size i mod 8 = 0 /\ 8 <= instruction_size i.
Proof. intros i W. split; [apply lays_laid_out, instruction_lays, W|apply instruction_size_8]. Qed.
Print Assumptions C46_instruction_layout.

Example C46_instruction_layout_ex :
  enc_Instruction (IApplyActions [APopVLAN])
  = [x00; x04; x00; x10; x00; x00; x00; x00; x00; x12; x00; x08; x00; x00; x00; x00].
Proof. vm_compute. reflexivity. Qed.

(** Decoding into a value that already holds instructions gives more than was
    sent. *)
Theorem C46_replaces_refuted : exists l old, Forall wf_Instruction l
  /\ fail (dec_Instructions old (enc_Instructions l)) = None
  /\ val (dec_Instructions old (enc_Instructions l)) <> l.
Proof.
  exists [IGotoTable 1], [IGotoTable 2]. split; [repeat constructor; cbn; lia|].
  split; [vm_compute; reflexivity|vm_compute; discriminate].
Qed.
Print Assumptions C46_replaces_refuted.

(** C67: an unknown instruction type after any instructions is reported. *)
Theorem C67_unknown_reported : forall l old b, Forall wf_Instruction l -> 2 <= length b ->
  ~ In (num 0 2 b) known_instructions ->
  fail (dec_Instructions old (enc_Instructions l ++ b)) = Some (EUnknown (num 0 2 b))
  /\ val (dec_Instructions old (enc_Instructions l ++ b)) = old ++ l.
Proof. intros l old b W L U. rewrite instruction_unknown by assumption. split; reflexivity. Qed.
Print Assumptions C67_unknown_reported.

Example C67_unknown_reported_ex :
  fail (dec_Instructions [] (enc_Instructions [IGotoTable 1] ++ [xff; xff; x00; x08])) = Some (EUnknown 65535).
Proof. vm_compute. reflexivity. Qed.

(** C67: decoding ends on every input. *)
Theorem C67_terminates : forall old inp, fail (dec_Instructions old inp) <> Some EFuel.
Proof. exact nofuel_Instructions. Qed.
Print Assumptions C67_terminates.

Example C67_terminates_ex :
  fail (dec_Instructions [] [x00; x04; x00; x00; x00; x00; x00; x00; x00; x12]) = Some UnexpectedEOF.
Proof. vm_compute. reflexivity. Qed.

(** C67: a pop PBB action at an action boundary inside an apply or write
    instruction makes the decoder panic, whatever precedes and follows. *)
Theorem C67_nested_panic : forall l old acts b tl t,
  Forall wf_Instruction l -> Forall wf_Action acts -> 2 <= length b -> num 0 2 b = 27%N ->
  (t = 3 \/ t = 4)%N -> (N.of_nat (actions_size acts + length b) < 65536)%N ->
  fail (dec_Instructions old (enc_Instructions l
          ++ be_enc 2 t ++ be_enc 2 (N.of_nat (8 + (actions_size acts + length b))) ++ zeros 4
          ++ (enc_Actions acts ++ b) ++ tl)) = Some EPanic.
Proof. exact nested_panic. Qed.
Print Assumptions C67_nested_panic.

Example C67_nested_panic_ex :
  fail (dec_Instructions [] [x00; x04; x00; x10; x00; x00; x00; x00; x00; x1b; x00; x08; x00; x00; x00; x00])
  = Some EPanic.
Proof. vm_compute. reflexivity. Qed.
