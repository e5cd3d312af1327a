(** C90: what becomes of the bytes behind an action list that is given up. *)
From Verif Require Import ReadAheadFacts.
Ltac Zify.zify_post_hook ::= Z.div_mod_to_equations.

(** What the buffer has read ahead changes neither the actions, nor the count,
    nor the error. *)
Theorem C90_same_actions : forall k old inp,
  let r := dec_Actions_ahead k old inp in let q := dec_Actions old inp in
  val r = val q /\ cnt r = cnt q /\ fail r = fail q.
Proof. intros k old inp. apply (ahead_same k make_action dec_Action). Qed.
Print Assumptions C90_same_actions.

(** With a buffer as large as the input it is the decoder of the other files. *)
Theorem C90_small_inputs : forall k old inp, length inp <= k ->
  dec_Actions_ahead k old inp = dec_Actions old inp.
Proof. intros k old inp L. exact (ahead_all k make_action dec_Action suffixing_one_Action _ _ _ L). Qed.
Print Assumptions C90_small_inputs.

(** A packet-out with complete actions: the packet is what stands behind the
    declared length, whatever was read ahead. *)
Theorem C90_packet_out : forall k old buffer port l segs stray packet,
  (buffer < 4294967296)%N -> (port < 4294967296)%N ->
  Forall2 denotes l segs -> length stray < 2 ->
  let region := concat segs ++ stray in
  (N.of_nat (length region) < 65536)%N ->
  let r := dec_PacketOut_ahead k old
     (be_enc 4 buffer ++ be_enc 4 port ++ be_enc 2 (N.of_nat (length region)) ++ zeros 6 ++ region ++ packet) in
  val r = MkPacketOut buffer port l packet /\ fail r = None /\ rest r = [].
Proof.
  intros k old b p l segs stray packet Hb Hp F S region L. cbv zeta.
  destruct (ahead_packet_out k old b p region packet _ _ _ Hb Hp L (ahead_actions_end k l segs stray [] F S)) as (V & E & R & _).
  unfold packet_out_header in *. rewrite <- !app_assoc in *. auto.
Qed.
Print Assumptions C90_packet_out.

(** With a set field action without room for a field among the actions there is
    no error, and the packet begins with the part of the action list that was
    not read ahead. *)
Theorem C90_packet_out_leak : forall k old buffer port l segs more packet,
  (buffer < 4294967296)%N -> (port < 4294967296)%N ->
  Forall2 denotes l segs ->
  let region := concat segs ++ [x00; x19; x00; x04] ++ more in
  (N.of_nat (length region) < 65536)%N ->
  let r := dec_PacketOut_ahead k old
     (be_enc 4 buffer ++ be_enc 4 port ++ be_enc 2 (N.of_nat (length region)) ++ zeros 6 ++ region ++ packet) in
  val r = MkPacketOut buffer port (l ++ [ASetField zero_XM]) (skipn k more ++ packet) /\ fail r = None /\ rest r = [].
Proof.
  intros k old b p l segs more packet Hb Hp F region L. cbv zeta.
  destruct (ahead_packet_out k old b p region packet _ _ _ Hb Hp L (ahead_actions_cut k l segs more [] F)) as (V & E & R & _).
  unfold packet_out_header in *. rewrite <- !app_assoc in *. auto.
Qed.
Print Assumptions C90_packet_out_leak.

(** Instructions that can be encoded are read back whatever was read ahead. *)
Theorem C90_instructions : forall k ks old l, Forall wf_Instruction l ->
  dec_Instructions_ahead k ks old (enc_Instructions l) = Res (old ++ l) (length (enc_Instructions l)) None [].
Proof. intros k ks old l W. apply ahead_instructions_end; [exact W|apply Nat.lt_succ_diag_r]. Qed.
Print Assumptions C90_instructions.

(** A set field action without room for a field in an instruction: there is no
    error, and the part of the instruction that was not read ahead is read as
    further instructions. *)
Theorem C90_instruction_leak : forall k ks old before acts more z after hidden,
  Forall wf_Instruction before -> Forall wf_Action acts -> (z = IApplyActions [] \/ z = IWriteActions []) ->
  let region := enc_Actions acts ++ [x00; x19; x00; x04] ++ more in
  (N.of_nat (length region) < 65528)%N ->
  skipn (ks (length (old ++ before))) more ++ after = enc_Instructions hidden -> Forall wf_Instruction hidden ->
  let r := dec_Instructions_ahead k ks old (enc_Instructions before
     ++ be_enc 2 (instruction_type z) ++ be_enc 2 (N.of_nat (8 + length region)) ++ zeros 4 ++ region ++ after) in
  val r = old ++ before ++ [set_actions (acts ++ [ASetField zero_XM]) z] ++ hidden /\ fail r = None /\ rest r = [].
Proof.
  intros k ks old before acts more z after hidden WB WA Hz region L HH WH.
  apply (ahead_instructions_cut k ks old before acts more z after hidden WB WA Hz); [fold region; lia|exact HH|exact WH].
Qed.
Print Assumptions C90_instruction_leak.

(** Nothing of an instruction is read as another one, nothing of the actions of
    a packet-out is sent as its packet: false with the buffer of 4096 bytes.
    Read from memory, it holds 4092 bytes behind the four of the action in the
    packet-out, and 4084 in the instruction, whose header has been taken from
    the buffer below. *)
Theorem C90_hidden_refuted :
  (exists region, length region = N.to_nat 4104
     /\ val (dec_PacketOut_ahead (N.to_nat 4092) zero_PacketOut
               (be_enc 4 4294967295 ++ be_enc 4 1 ++ be_enc 2 4104 ++ zeros 6 ++ region))
        = MkPacketOut 4294967295 1 [ASetField zero_XM] [xde; xad; xbe; xef; xde; xad; xbe; xef])
  /\ exists body, length body = N.to_nat 4104 - 4
     /\ dec_Instructions_ahead (N.to_nat 4096) (fun _ => N.to_nat 4084) [] (be_enc 2 4 ++ be_enc 2 4104 ++ body)
        = Res [IApplyActions [ASetField zero_XM]; IGotoTable 7] 20 None [].
Proof.
  split.
  - exists ([x00; x19; x00; x04] ++ zeros (N.to_nat 4092) ++ [xde; xad; xbe; xef; xde; xad; xbe; xef]).
    split; vm_compute; reflexivity.
  - exists (zeros 4 ++ [x00; x19; x00; x04] ++ zeros (N.to_nat 4084) ++ enc_Instruction (IGotoTable 7)).
    split; vm_compute; reflexivity.
Qed.
Print Assumptions C90_hidden_refuted.

Example C90_ex :
  dec_PacketOut_ahead 3 zero_PacketOut
    (be_enc 4 9 ++ be_enc 4 1 ++ be_enc 2 16 ++ zeros 6 ++ enc_Action (AOutput 7 65535) ++ [x2a; x2b])
  = Res (MkPacketOut 9 1 [AOutput 7 65535] [x2a; x2b]) 34 None []
  /\ Forall2 denotes [AOutput 7 65535] [enc_Action (AOutput 7 65535)]
  /\ val (dec_Instructions_ahead 0 (fun _ => 2) [] (enc_Instructions [IGotoTable 1]
       ++ be_enc 2 3 ++ be_enc 2 22 ++ zeros 4 ++ [x00; x19; x00; x04; xff; xff] ++ enc_Instruction (IMeter 3) ++ enc_Instruction IClearActions))
     = [IGotoTable 1; IWriteActions [ASetField zero_XM]; IMeter 3; IClearActions].
Proof.
  split; [vm_compute; reflexivity|]. split; [|vm_compute; reflexivity].
  apply (denotes_enc_all [AOutput 7 65535]). constructor; [cbn; lia|constructor].
Qed.
