(** The messages and parts of messages of varying size that hold matches,
    actions, instructions or frames, behind one interface.  Nothing new is
    modelled here: each case names the model of the Go methods. *)
From Verif Require Export FlowModel GroupModel.

Inductive vkind :=
| VMatch | VActions | VInstructions | VBucket | VFlowMod | VFlowRemoved | VFlowStatsRequest
| VAggregateStatsRequest | VFlowStats | VPacketIn | VPacketOut.

(** The Go types: ofp/match.go:441, ofp/action.go:168, ofp/instruction.go:104,
    ofp/group.go:127, ofp/flow.go:119, 274, 357, 409, ofp/aggregate.go:28,
    ofp/packet.go:68, 131. *)
Definition vmsg (k : vkind) : Type :=
  match k with
  | VMatch => Match | VActions => list Action | VInstructions => list Instruction | VBucket => Bucket
  | VFlowMod => FlowMod | VFlowRemoved => FlowRemoved | VFlowStatsRequest => FlowStatsRequest
  | VAggregateStatsRequest => AggregateStatsRequest | VFlowStats => FlowStats
  | VPacketIn => PacketIn | VPacketOut => PacketOut
  end.

(** Their ReadFrom methods. *)
Definition vdec (k : vkind) : step (vmsg k) :=
  match k with
  | VMatch => dec_Match | VActions => dec_Actions | VInstructions => dec_Instructions | VBucket => dec_Bucket
  | VFlowMod => dec_FlowMod | VFlowRemoved => dec_FlowRemoved | VFlowStatsRequest => dec_FlowStatsRequest
  | VAggregateStatsRequest => dec_AggregateStatsRequest | VFlowStats => dec_FlowStats
  | VPacketIn => dec_PacketIn | VPacketOut => dec_PacketOut
  end.

(** Their WriteTo methods. *)
Definition venc (k : vkind) : vmsg k -> bytes :=
  match k with
  | VMatch => enc_Match | VActions => enc_Actions | VInstructions => enc_Instructions | VBucket => enc_Bucket
  | VFlowMod => enc_FlowMod | VFlowRemoved => enc_FlowRemoved | VFlowStatsRequest => enc_FlowStatsRequest
  | VAggregateStatsRequest => enc_AggregateStatsRequest | VFlowStats => enc_FlowStats
  | VPacketIn => enc_PacketIn | VPacketOut => enc_PacketOut
  end.

(** Their zero values. *)
Definition vzero (k : vkind) : vmsg k :=
  match k with
  | VMatch => zero_Match | VActions => [] | VInstructions => [] | VBucket => zero_Bucket
  | VFlowMod => zero_FlowMod | VFlowRemoved => zero_FlowRemoved | VFlowStatsRequest => zero_FlowStatsRequest
  | VAggregateStatsRequest => zero_AggregateStatsRequest | VFlowStats => zero_FlowStats
  | VPacketIn => zero_PacketIn | VPacketOut => zero_PacketOut
  end.
