(** Ranges, sizes and layouts of the messages of [VaryingModel], gathered from
    the specifications of the parts, and what a receiver holds afterwards. *)
From Verif Require Import Bytes WireSpec MatchSpec ActionSpec InstructionSpec FlowSpec ListSpec VaryingModel.

Definition vwf (k : vkind) : vmsg k -> Prop :=
  match k with
  | VMatch => wf_Match | VActions => Forall wf_Action | VInstructions => Forall wf_Instruction
  | VBucket => wf_Bucket | VFlowMod => wf_FlowMod | VFlowRemoved => wf_FlowRemoved
  | VFlowStatsRequest => wf_FlowStatsRequest | VAggregateStatsRequest => wf_AggregateStatsRequest
  | VFlowStats => wf_FlowStats | VPacketIn => wf_PacketIn | VPacketOut => wf_PacketOut
  end.

Definition vsize (k : vkind) : vmsg k -> nat :=
  match k with
  | VMatch => match_size
  | VActions => actions_size
  | VInstructions => instructions_size
  | VBucket => bucket_size
  | VFlowMod => fun m => 40 + match_size (FlowMod_Match m) + instructions_size (FlowMod_Instructions m)
  | VFlowRemoved => fun m => 40 + match_size (FlowRemoved_Match m)
  | VFlowStatsRequest => fun m => 32 + match_size (FlowStatsRequest_Match m)
  | VAggregateStatsRequest => fun m => 32 + match_size (AggregateStatsRequest_Match m)
  | VFlowStats => flowstats_size
  | VPacketIn => fun m => 16 + match_size (PacketIn_Match m) + 2 + length (PacketIn_Data m)
  | VPacketOut => fun m => 16 + actions_size (PacketOut_Actions m) + length (PacketOut_Data m)
  end.

Definition vlayout (k : vkind) : vmsg k -> list (nat * item) :=
  match k with
  | VMatch => match_layout
  | VActions => actions_layout
  | VInstructions => instructions_layout
  | VBucket => bucket_layout
  | VFlowMod => layout_FlowMod
  | VFlowRemoved => layout_FlowRemoved
  | VFlowStatsRequest => layout_FlowStatsRequest
  | VAggregateStatsRequest => layout_AggregateStatsRequest
  | VFlowStats => layout_FlowStats
  | VPacketIn => layout_PacketIn
  | VPacketOut => layout_PacketOut
  end.

(** What a receiver holding [old] holds after a message that says [m]: [m], but
    a list of instructions grows. *)
Definition vafter (k : vkind) : vmsg k -> vmsg k -> vmsg k :=
  match k with
  | VInstructions => fun old m => old ++ m
  | _ => fun _ m => m
  end.
