(** Models of ofp/flow.go, ofp/packet.go and ofp/aggregate.go: messages with a
    match and instructions, actions or data.  Records, assignments and zero values as in
    [FixedModel]. *)
From Verif Require Export FixedModel InstructionModel.

(** FlowMod, ofp/flow.go:83-170. *)
Record FlowMod := MkFlowMod { FlowMod_Cookie : N; FlowMod_CookieMask : N; FlowMod_Table : N; FlowMod_Command : N; FlowMod_IdleTimeout : N; FlowMod_HardTimeout : N; FlowMod_Priority : N; FlowMod_Buffer : N; FlowMod_OutPort : N; FlowMod_OutGroup : N; FlowMod_Flags : N; FlowMod_Match : Match; FlowMod_Instructions : (list Instruction) }.
(** Assignments to the fields of FlowMod and its zero value (ofp/flow.go:83-170). *)
Definition set_FlowMod_Cookie (v : N) (s : FlowMod) : FlowMod := MkFlowMod v (FlowMod_CookieMask s) (FlowMod_Table s) (FlowMod_Command s) (FlowMod_IdleTimeout s) (FlowMod_HardTimeout s) (FlowMod_Priority s) (FlowMod_Buffer s) (FlowMod_OutPort s) (FlowMod_OutGroup s) (FlowMod_Flags s) (FlowMod_Match s) (FlowMod_Instructions s).
Definition set_FlowMod_CookieMask (v : N) (s : FlowMod) : FlowMod := MkFlowMod (FlowMod_Cookie s) v (FlowMod_Table s) (FlowMod_Command s) (FlowMod_IdleTimeout s) (FlowMod_HardTimeout s) (FlowMod_Priority s) (FlowMod_Buffer s) (FlowMod_OutPort s) (FlowMod_OutGroup s) (FlowMod_Flags s) (FlowMod_Match s) (FlowMod_Instructions s).
Definition set_FlowMod_Table (v : N) (s : FlowMod) : FlowMod := MkFlowMod (FlowMod_Cookie s) (FlowMod_CookieMask s) v (FlowMod_Command s) (FlowMod_IdleTimeout s) (FlowMod_HardTimeout s) (FlowMod_Priority s) (FlowMod_Buffer s) (FlowMod_OutPort s) (FlowMod_OutGroup s) (FlowMod_Flags s) (FlowMod_Match s) (FlowMod_Instructions s).
Definition set_FlowMod_Command (v : N) (s : FlowMod) : FlowMod := MkFlowMod (FlowMod_Cookie s) (FlowMod_CookieMask s) (FlowMod_Table s) v (FlowMod_IdleTimeout s) (FlowMod_HardTimeout s) (FlowMod_Priority s) (FlowMod_Buffer s) (FlowMod_OutPort s) (FlowMod_OutGroup s) (FlowMod_Flags s) (FlowMod_Match s) (FlowMod_Instructions s).
Definition set_FlowMod_IdleTimeout (v : N) (s : FlowMod) : FlowMod := MkFlowMod (FlowMod_Cookie s) (FlowMod_CookieMask s) (FlowMod_Table s) (FlowMod_Command s) v (FlowMod_HardTimeout s) (FlowMod_Priority s) (FlowMod_Buffer s) (FlowMod_OutPort s) (FlowMod_OutGroup s) (FlowMod_Flags s) (FlowMod_Match s) (FlowMod_Instructions s).
Definition set_FlowMod_HardTimeout (v : N) (s : FlowMod) : FlowMod := MkFlowMod (FlowMod_Cookie s) (FlowMod_CookieMask s) (FlowMod_Table s) (FlowMod_Command s) (FlowMod_IdleTimeout s) v (FlowMod_Priority s) (FlowMod_Buffer s) (FlowMod_OutPort s) (FlowMod_OutGroup s) (FlowMod_Flags s) (FlowMod_Match s) (FlowMod_Instructions s).
Definition set_FlowMod_Priority (v : N) (s : FlowMod) : FlowMod := MkFlowMod (FlowMod_Cookie s) (FlowMod_CookieMask s) (FlowMod_Table s) (FlowMod_Command s) (FlowMod_IdleTimeout s) (FlowMod_HardTimeout s) v (FlowMod_Buffer s) (FlowMod_OutPort s) (FlowMod_OutGroup s) (FlowMod_Flags s) (FlowMod_Match s) (FlowMod_Instructions s).
Definition set_FlowMod_Buffer (v : N) (s : FlowMod) : FlowMod := MkFlowMod (FlowMod_Cookie s) (FlowMod_CookieMask s) (FlowMod_Table s) (FlowMod_Command s) (FlowMod_IdleTimeout s) (FlowMod_HardTimeout s) (FlowMod_Priority s) v (FlowMod_OutPort s) (FlowMod_OutGroup s) (FlowMod_Flags s) (FlowMod_Match s) (FlowMod_Instructions s).
Definition set_FlowMod_OutPort (v : N) (s : FlowMod) : FlowMod := MkFlowMod (FlowMod_Cookie s) (FlowMod_CookieMask s) (FlowMod_Table s) (FlowMod_Command s) (FlowMod_IdleTimeout s) (FlowMod_HardTimeout s) (FlowMod_Priority s) (FlowMod_Buffer s) v (FlowMod_OutGroup s) (FlowMod_Flags s) (FlowMod_Match s) (FlowMod_Instructions s).
Definition set_FlowMod_OutGroup (v : N) (s : FlowMod) : FlowMod := MkFlowMod (FlowMod_Cookie s) (FlowMod_CookieMask s) (FlowMod_Table s) (FlowMod_Command s) (FlowMod_IdleTimeout s) (FlowMod_HardTimeout s) (FlowMod_Priority s) (FlowMod_Buffer s) (FlowMod_OutPort s) v (FlowMod_Flags s) (FlowMod_Match s) (FlowMod_Instructions s).
Definition set_FlowMod_Flags (v : N) (s : FlowMod) : FlowMod := MkFlowMod (FlowMod_Cookie s) (FlowMod_CookieMask s) (FlowMod_Table s) (FlowMod_Command s) (FlowMod_IdleTimeout s) (FlowMod_HardTimeout s) (FlowMod_Priority s) (FlowMod_Buffer s) (FlowMod_OutPort s) (FlowMod_OutGroup s) v (FlowMod_Match s) (FlowMod_Instructions s).
Definition set_FlowMod_Match (v : Match) (s : FlowMod) : FlowMod := MkFlowMod (FlowMod_Cookie s) (FlowMod_CookieMask s) (FlowMod_Table s) (FlowMod_Command s) (FlowMod_IdleTimeout s) (FlowMod_HardTimeout s) (FlowMod_Priority s) (FlowMod_Buffer s) (FlowMod_OutPort s) (FlowMod_OutGroup s) (FlowMod_Flags s) v (FlowMod_Instructions s).
Definition set_FlowMod_Instructions (v : (list Instruction)) (s : FlowMod) : FlowMod := MkFlowMod (FlowMod_Cookie s) (FlowMod_CookieMask s) (FlowMod_Table s) (FlowMod_Command s) (FlowMod_IdleTimeout s) (FlowMod_HardTimeout s) (FlowMod_Priority s) (FlowMod_Buffer s) (FlowMod_OutPort s) (FlowMod_OutGroup s) (FlowMod_Flags s) (FlowMod_Match s) v.
Definition zero_FlowMod : FlowMod := MkFlowMod 0%N 0%N 0%N 0%N 0%N 0%N 0%N 0%N 0%N 0%N 0%N zero_Match [].
(** FlowMod.WriteTo, ofp/flow.go:225-231. *)
Definition enc_FlowMod (m : FlowMod) : bytes :=
  concat [u64 (FlowMod_Cookie m); u64 (FlowMod_CookieMask m); u8 (FlowMod_Table m); u8 (FlowMod_Command m); u16 (FlowMod_IdleTimeout m); u16 (FlowMod_HardTimeout m); u16 (FlowMod_Priority m); u32 (FlowMod_Buffer m); u32 (FlowMod_OutPort m); u32 (FlowMod_OutGroup m); u16 (FlowMod_Flags m); pad 2; enc_Match (FlowMod_Match m); enc_Instructions (FlowMod_Instructions m)].
(** FlowMod.ReadFrom, ofp/flow.go:235-245: the list of instructions is emptied first. *)
Definition dec_FlowMod : step FlowMod :=
  pre (set_FlowMod_Instructions [])
    (seqr [fu 8 set_FlowMod_Cookie; fu 8 set_FlowMod_CookieMask; fu 1 set_FlowMod_Table; fu 1 set_FlowMod_Command; fu 2 set_FlowMod_IdleTimeout; fu 2 set_FlowMod_HardTimeout; fu 2 set_FlowMod_Priority; fu 4 set_FlowMod_Buffer; fu 4 set_FlowMod_OutPort; fu 4 set_FlowMod_OutGroup; fu 2 set_FlowMod_Flags; fpad 2; sub FlowMod_Match set_FlowMod_Match dec_Match; sub FlowMod_Instructions set_FlowMod_Instructions dec_Instructions]).

(** FlowRemoved, ofp/flow.go:269-307. *)
Record FlowRemoved := MkFlowRemoved { FlowRemoved_Cookie : N; FlowRemoved_Priority : N; FlowRemoved_Reason : N; FlowRemoved_Table : N; FlowRemoved_DurationSec : N; FlowRemoved_DurationNSec : N; FlowRemoved_IdleTimeout : N; FlowRemoved_HardTimeout : N; FlowRemoved_PacketCount : N; FlowRemoved_ByteCount : N; FlowRemoved_Match : Match }.
(** Assignments to the fields of FlowRemoved and its zero value (ofp/flow.go:269-307). *)
Definition set_FlowRemoved_Cookie (v : N) (s : FlowRemoved) : FlowRemoved := MkFlowRemoved v (FlowRemoved_Priority s) (FlowRemoved_Reason s) (FlowRemoved_Table s) (FlowRemoved_DurationSec s) (FlowRemoved_DurationNSec s) (FlowRemoved_IdleTimeout s) (FlowRemoved_HardTimeout s) (FlowRemoved_PacketCount s) (FlowRemoved_ByteCount s) (FlowRemoved_Match s).
Definition set_FlowRemoved_Priority (v : N) (s : FlowRemoved) : FlowRemoved := MkFlowRemoved (FlowRemoved_Cookie s) v (FlowRemoved_Reason s) (FlowRemoved_Table s) (FlowRemoved_DurationSec s) (FlowRemoved_DurationNSec s) (FlowRemoved_IdleTimeout s) (FlowRemoved_HardTimeout s) (FlowRemoved_PacketCount s) (FlowRemoved_ByteCount s) (FlowRemoved_Match s).
Definition set_FlowRemoved_Reason (v : N) (s : FlowRemoved) : FlowRemoved := MkFlowRemoved (FlowRemoved_Cookie s) (FlowRemoved_Priority s) v (FlowRemoved_Table s) (FlowRemoved_DurationSec s) (FlowRemoved_DurationNSec s) (FlowRemoved_IdleTimeout s) (FlowRemoved_HardTimeout s) (FlowRemoved_PacketCount s) (FlowRemoved_ByteCount s) (FlowRemoved_Match s).
Definition set_FlowRemoved_Table (v : N) (s : FlowRemoved) : FlowRemoved := MkFlowRemoved (FlowRemoved_Cookie s) (FlowRemoved_Priority s) (FlowRemoved_Reason s) v (FlowRemoved_DurationSec s) (FlowRemoved_DurationNSec s) (FlowRemoved_IdleTimeout s) (FlowRemoved_HardTimeout s) (FlowRemoved_PacketCount s) (FlowRemoved_ByteCount s) (FlowRemoved_Match s).
Definition set_FlowRemoved_DurationSec (v : N) (s : FlowRemoved) : FlowRemoved := MkFlowRemoved (FlowRemoved_Cookie s) (FlowRemoved_Priority s) (FlowRemoved_Reason s) (FlowRemoved_Table s) v (FlowRemoved_DurationNSec s) (FlowRemoved_IdleTimeout s) (FlowRemoved_HardTimeout s) (FlowRemoved_PacketCount s) (FlowRemoved_ByteCount s) (FlowRemoved_Match s).
Definition set_FlowRemoved_DurationNSec (v : N) (s : FlowRemoved) : FlowRemoved := MkFlowRemoved (FlowRemoved_Cookie s) (FlowRemoved_Priority s) (FlowRemoved_Reason s) (FlowRemoved_Table s) (FlowRemoved_DurationSec s) v (FlowRemoved_IdleTimeout s) (FlowRemoved_HardTimeout s) (FlowRemoved_PacketCount s) (FlowRemoved_ByteCount s) (FlowRemoved_Match s).
Definition set_FlowRemoved_IdleTimeout (v : N) (s : FlowRemoved) : FlowRemoved := MkFlowRemoved (FlowRemoved_Cookie s) (FlowRemoved_Priority s) (FlowRemoved_Reason s) (FlowRemoved_Table s) (FlowRemoved_DurationSec s) (FlowRemoved_DurationNSec s) v (FlowRemoved_HardTimeout s) (FlowRemoved_PacketCount s) (FlowRemoved_ByteCount s) (FlowRemoved_Match s).
Definition set_FlowRemoved_HardTimeout (v : N) (s : FlowRemoved) : FlowRemoved := MkFlowRemoved (FlowRemoved_Cookie s) (FlowRemoved_Priority s) (FlowRemoved_Reason s) (FlowRemoved_Table s) (FlowRemoved_DurationSec s) (FlowRemoved_DurationNSec s) (FlowRemoved_IdleTimeout s) v (FlowRemoved_PacketCount s) (FlowRemoved_ByteCount s) (FlowRemoved_Match s).
Definition set_FlowRemoved_PacketCount (v : N) (s : FlowRemoved) : FlowRemoved := MkFlowRemoved (FlowRemoved_Cookie s) (FlowRemoved_Priority s) (FlowRemoved_Reason s) (FlowRemoved_Table s) (FlowRemoved_DurationSec s) (FlowRemoved_DurationNSec s) (FlowRemoved_IdleTimeout s) (FlowRemoved_HardTimeout s) v (FlowRemoved_ByteCount s) (FlowRemoved_Match s).
Definition set_FlowRemoved_ByteCount (v : N) (s : FlowRemoved) : FlowRemoved := MkFlowRemoved (FlowRemoved_Cookie s) (FlowRemoved_Priority s) (FlowRemoved_Reason s) (FlowRemoved_Table s) (FlowRemoved_DurationSec s) (FlowRemoved_DurationNSec s) (FlowRemoved_IdleTimeout s) (FlowRemoved_HardTimeout s) (FlowRemoved_PacketCount s) v (FlowRemoved_Match s).
Definition set_FlowRemoved_Match (v : Match) (s : FlowRemoved) : FlowRemoved := MkFlowRemoved (FlowRemoved_Cookie s) (FlowRemoved_Priority s) (FlowRemoved_Reason s) (FlowRemoved_Table s) (FlowRemoved_DurationSec s) (FlowRemoved_DurationNSec s) (FlowRemoved_IdleTimeout s) (FlowRemoved_HardTimeout s) (FlowRemoved_PacketCount s) (FlowRemoved_ByteCount s) v.
Definition zero_FlowRemoved : FlowRemoved := MkFlowRemoved 0%N 0%N 0%N 0%N 0%N 0%N 0%N 0%N 0%N 0%N zero_Match.
(** FlowRemoved.WriteTo, ofp/flow.go:321-326. *)
Definition enc_FlowRemoved (m : FlowRemoved) : bytes :=
  concat [u64 (FlowRemoved_Cookie m); u16 (FlowRemoved_Priority m); u8 (FlowRemoved_Reason m); u8 (FlowRemoved_Table m); u32 (FlowRemoved_DurationSec m); u32 (FlowRemoved_DurationNSec m); u16 (FlowRemoved_IdleTimeout m); u16 (FlowRemoved_HardTimeout m); u64 (FlowRemoved_PacketCount m); u64 (FlowRemoved_ByteCount m); enc_Match (FlowRemoved_Match m)].
(** FlowRemoved.ReadFrom, ofp/flow.go:330-335. *)
Definition dec_FlowRemoved : step FlowRemoved :=
  seqr [fu 8 set_FlowRemoved_Cookie; fu 2 set_FlowRemoved_Priority; fu 1 set_FlowRemoved_Reason; fu 1 set_FlowRemoved_Table; fu 4 set_FlowRemoved_DurationSec; fu 4 set_FlowRemoved_DurationNSec; fu 2 set_FlowRemoved_IdleTimeout; fu 2 set_FlowRemoved_HardTimeout; fu 8 set_FlowRemoved_PacketCount; fu 8 set_FlowRemoved_ByteCount; sub FlowRemoved_Match set_FlowRemoved_Match dec_Match].

(** FlowStatsRequest, ofp/flow.go:355-377. *)
Record FlowStatsRequest := MkFlowStatsRequest { FlowStatsRequest_Table : N; FlowStatsRequest_OutPort : N; FlowStatsRequest_OutGroup : N; FlowStatsRequest_Cookie : N; FlowStatsRequest_CookieMask : N; FlowStatsRequest_Match : Match }.
(** Assignments to the fields of FlowStatsRequest and its zero value (ofp/flow.go:355-377). *)
Definition set_FlowStatsRequest_Table (v : N) (s : FlowStatsRequest) : FlowStatsRequest := MkFlowStatsRequest v (FlowStatsRequest_OutPort s) (FlowStatsRequest_OutGroup s) (FlowStatsRequest_Cookie s) (FlowStatsRequest_CookieMask s) (FlowStatsRequest_Match s).
Definition set_FlowStatsRequest_OutPort (v : N) (s : FlowStatsRequest) : FlowStatsRequest := MkFlowStatsRequest (FlowStatsRequest_Table s) v (FlowStatsRequest_OutGroup s) (FlowStatsRequest_Cookie s) (FlowStatsRequest_CookieMask s) (FlowStatsRequest_Match s).
Definition set_FlowStatsRequest_OutGroup (v : N) (s : FlowStatsRequest) : FlowStatsRequest := MkFlowStatsRequest (FlowStatsRequest_Table s) (FlowStatsRequest_OutPort s) v (FlowStatsRequest_Cookie s) (FlowStatsRequest_CookieMask s) (FlowStatsRequest_Match s).
Definition set_FlowStatsRequest_Cookie (v : N) (s : FlowStatsRequest) : FlowStatsRequest := MkFlowStatsRequest (FlowStatsRequest_Table s) (FlowStatsRequest_OutPort s) (FlowStatsRequest_OutGroup s) v (FlowStatsRequest_CookieMask s) (FlowStatsRequest_Match s).
Definition set_FlowStatsRequest_CookieMask (v : N) (s : FlowStatsRequest) : FlowStatsRequest := MkFlowStatsRequest (FlowStatsRequest_Table s) (FlowStatsRequest_OutPort s) (FlowStatsRequest_OutGroup s) (FlowStatsRequest_Cookie s) v (FlowStatsRequest_Match s).
Definition set_FlowStatsRequest_Match (v : Match) (s : FlowStatsRequest) : FlowStatsRequest := MkFlowStatsRequest (FlowStatsRequest_Table s) (FlowStatsRequest_OutPort s) (FlowStatsRequest_OutGroup s) (FlowStatsRequest_Cookie s) (FlowStatsRequest_CookieMask s) v.
Definition zero_FlowStatsRequest : FlowStatsRequest := MkFlowStatsRequest 0%N 0%N 0%N 0%N 0%N zero_Match.
(** FlowStatsRequest.WriteTo, ofp/flow.go:393-397. *)
Definition enc_FlowStatsRequest (m : FlowStatsRequest) : bytes :=
  concat [u8 (FlowStatsRequest_Table m); pad 3; u32 (FlowStatsRequest_OutPort m); u32 (FlowStatsRequest_OutGroup m); pad 4; u64 (FlowStatsRequest_Cookie m); u64 (FlowStatsRequest_CookieMask m); enc_Match (FlowStatsRequest_Match m)].
(** FlowStatsRequest.ReadFrom, ofp/flow.go:401-405. *)
Definition dec_FlowStatsRequest : step FlowStatsRequest :=
  seqr [fu 1 set_FlowStatsRequest_Table; fpad 3; fu 4 set_FlowStatsRequest_OutPort; fu 4 set_FlowStatsRequest_OutGroup; fpad 4; fu 8 set_FlowStatsRequest_Cookie; fu 8 set_FlowStatsRequest_CookieMask; sub FlowStatsRequest_Match set_FlowStatsRequest_Match dec_Match].

(** AggregateStatsRequest, ofp/aggregate.go:28-50. *)
Record AggregateStatsRequest := MkAggregateStatsRequest { AggregateStatsRequest_Table : N; AggregateStatsRequest_OutPort : N; AggregateStatsRequest_OutGroup : N; AggregateStatsRequest_Cookie : N; AggregateStatsRequest_CookieMask : N; AggregateStatsRequest_Match : Match }.
(** Assignments to the fields of AggregateStatsRequest and its zero value (ofp/aggregate.go:28-50). *)
Definition set_AggregateStatsRequest_Table (v : N) (s : AggregateStatsRequest) : AggregateStatsRequest := MkAggregateStatsRequest v (AggregateStatsRequest_OutPort s) (AggregateStatsRequest_OutGroup s) (AggregateStatsRequest_Cookie s) (AggregateStatsRequest_CookieMask s) (AggregateStatsRequest_Match s).
Definition set_AggregateStatsRequest_OutPort (v : N) (s : AggregateStatsRequest) : AggregateStatsRequest := MkAggregateStatsRequest (AggregateStatsRequest_Table s) v (AggregateStatsRequest_OutGroup s) (AggregateStatsRequest_Cookie s) (AggregateStatsRequest_CookieMask s) (AggregateStatsRequest_Match s).
Definition set_AggregateStatsRequest_OutGroup (v : N) (s : AggregateStatsRequest) : AggregateStatsRequest := MkAggregateStatsRequest (AggregateStatsRequest_Table s) (AggregateStatsRequest_OutPort s) v (AggregateStatsRequest_Cookie s) (AggregateStatsRequest_CookieMask s) (AggregateStatsRequest_Match s).
Definition set_AggregateStatsRequest_Cookie (v : N) (s : AggregateStatsRequest) : AggregateStatsRequest := MkAggregateStatsRequest (AggregateStatsRequest_Table s) (AggregateStatsRequest_OutPort s) (AggregateStatsRequest_OutGroup s) v (AggregateStatsRequest_CookieMask s) (AggregateStatsRequest_Match s).
Definition set_AggregateStatsRequest_CookieMask (v : N) (s : AggregateStatsRequest) : AggregateStatsRequest := MkAggregateStatsRequest (AggregateStatsRequest_Table s) (AggregateStatsRequest_OutPort s) (AggregateStatsRequest_OutGroup s) (AggregateStatsRequest_Cookie s) v (AggregateStatsRequest_Match s).
Definition set_AggregateStatsRequest_Match (v : Match) (s : AggregateStatsRequest) : AggregateStatsRequest := MkAggregateStatsRequest (AggregateStatsRequest_Table s) (AggregateStatsRequest_OutPort s) (AggregateStatsRequest_OutGroup s) (AggregateStatsRequest_Cookie s) (AggregateStatsRequest_CookieMask s) v.
Definition zero_AggregateStatsRequest : AggregateStatsRequest := MkAggregateStatsRequest 0%N 0%N 0%N 0%N 0%N zero_Match.
(** AggregateStatsRequest.WriteTo, ofp/aggregate.go:67-71. *)
Definition enc_AggregateStatsRequest (m : AggregateStatsRequest) : bytes :=
  concat [u8 (AggregateStatsRequest_Table m); pad 3; u32 (AggregateStatsRequest_OutPort m); u32 (AggregateStatsRequest_OutGroup m); pad 4; u64 (AggregateStatsRequest_Cookie m); u64 (AggregateStatsRequest_CookieMask m); enc_Match (AggregateStatsRequest_Match m)].
(** AggregateStatsRequest.ReadFrom, ofp/aggregate.go:75-79. *)
Definition dec_AggregateStatsRequest : step AggregateStatsRequest :=
  seqr [fu 1 set_AggregateStatsRequest_Table; fpad 3; fu 4 set_AggregateStatsRequest_OutPort; fu 4 set_AggregateStatsRequest_OutGroup; fpad 4; fu 8 set_AggregateStatsRequest_Cookie; fu 8 set_AggregateStatsRequest_CookieMask; sub AggregateStatsRequest_Match set_AggregateStatsRequest_Match dec_Match].

(** FlowStats, ofp/flow.go:409-446. *)
Record FlowStats := MkFlowStats { FlowStats_Table : N; FlowStats_DurationSec : N; FlowStats_DurationNSec : N; FlowStats_Priority : N; FlowStats_IdleTimeout : N; FlowStats_HardTimeout : N; FlowStats_Flags : N; FlowStats_Cookie : N; FlowStats_PacketCount : N; FlowStats_ByteCount : N; FlowStats_Match : Match; FlowStats_Instructions : (list Instruction) }.
(** Assignments to the fields of FlowStats and its zero value (ofp/flow.go:409-446). *)
Definition set_FlowStats_Table (v : N) (s : FlowStats) : FlowStats := MkFlowStats v (FlowStats_DurationSec s) (FlowStats_DurationNSec s) (FlowStats_Priority s) (FlowStats_IdleTimeout s) (FlowStats_HardTimeout s) (FlowStats_Flags s) (FlowStats_Cookie s) (FlowStats_PacketCount s) (FlowStats_ByteCount s) (FlowStats_Match s) (FlowStats_Instructions s).
Definition set_FlowStats_DurationSec (v : N) (s : FlowStats) : FlowStats := MkFlowStats (FlowStats_Table s) v (FlowStats_DurationNSec s) (FlowStats_Priority s) (FlowStats_IdleTimeout s) (FlowStats_HardTimeout s) (FlowStats_Flags s) (FlowStats_Cookie s) (FlowStats_PacketCount s) (FlowStats_ByteCount s) (FlowStats_Match s) (FlowStats_Instructions s).
Definition set_FlowStats_DurationNSec (v : N) (s : FlowStats) : FlowStats := MkFlowStats (FlowStats_Table s) (FlowStats_DurationSec s) v (FlowStats_Priority s) (FlowStats_IdleTimeout s) (FlowStats_HardTimeout s) (FlowStats_Flags s) (FlowStats_Cookie s) (FlowStats_PacketCount s) (FlowStats_ByteCount s) (FlowStats_Match s) (FlowStats_Instructions s).
Definition set_FlowStats_Priority (v : N) (s : FlowStats) : FlowStats := MkFlowStats (FlowStats_Table s) (FlowStats_DurationSec s) (FlowStats_DurationNSec s) v (FlowStats_IdleTimeout s) (FlowStats_HardTimeout s) (FlowStats_Flags s) (FlowStats_Cookie s) (FlowStats_PacketCount s) (FlowStats_ByteCount s) (FlowStats_Match s) (FlowStats_Instructions s).
Definition set_FlowStats_IdleTimeout (v : N) (s : FlowStats) : FlowStats := MkFlowStats (FlowStats_Table s) (FlowStats_DurationSec s) (FlowStats_DurationNSec s) (FlowStats_Priority s) v (FlowStats_HardTimeout s) (FlowStats_Flags s) (FlowStats_Cookie s) (FlowStats_PacketCount s) (FlowStats_ByteCount s) (FlowStats_Match s) (FlowStats_Instructions s).
Definition set_FlowStats_HardTimeout (v : N) (s : FlowStats) : FlowStats := MkFlowStats (FlowStats_Table s) (FlowStats_DurationSec s) (FlowStats_DurationNSec s) (FlowStats_Priority s) (FlowStats_IdleTimeout s) v (FlowStats_Flags s) (FlowStats_Cookie s) (FlowStats_PacketCount s) (FlowStats_ByteCount s) (FlowStats_Match s) (FlowStats_Instructions s).
Definition set_FlowStats_Flags (v : N) (s : FlowStats) : FlowStats := MkFlowStats (FlowStats_Table s) (FlowStats_DurationSec s) (FlowStats_DurationNSec s) (FlowStats_Priority s) (FlowStats_IdleTimeout s) (FlowStats_HardTimeout s) v (FlowStats_Cookie s) (FlowStats_PacketCount s) (FlowStats_ByteCount s) (FlowStats_Match s) (FlowStats_Instructions s).
Definition set_FlowStats_Cookie (v : N) (s : FlowStats) : FlowStats := MkFlowStats (FlowStats_Table s) (FlowStats_DurationSec s) (FlowStats_DurationNSec s) (FlowStats_Priority s) (FlowStats_IdleTimeout s) (FlowStats_HardTimeout s) (FlowStats_Flags s) v (FlowStats_PacketCount s) (FlowStats_ByteCount s) (FlowStats_Match s) (FlowStats_Instructions s).
Definition set_FlowStats_PacketCount (v : N) (s : FlowStats) : FlowStats := MkFlowStats (FlowStats_Table s) (FlowStats_DurationSec s) (FlowStats_DurationNSec s) (FlowStats_Priority s) (FlowStats_IdleTimeout s) (FlowStats_HardTimeout s) (FlowStats_Flags s) (FlowStats_Cookie s) v (FlowStats_ByteCount s) (FlowStats_Match s) (FlowStats_Instructions s).
Definition set_FlowStats_ByteCount (v : N) (s : FlowStats) : FlowStats := MkFlowStats (FlowStats_Table s) (FlowStats_DurationSec s) (FlowStats_DurationNSec s) (FlowStats_Priority s) (FlowStats_IdleTimeout s) (FlowStats_HardTimeout s) (FlowStats_Flags s) (FlowStats_Cookie s) (FlowStats_PacketCount s) v (FlowStats_Match s) (FlowStats_Instructions s).
Definition set_FlowStats_Match (v : Match) (s : FlowStats) : FlowStats := MkFlowStats (FlowStats_Table s) (FlowStats_DurationSec s) (FlowStats_DurationNSec s) (FlowStats_Priority s) (FlowStats_IdleTimeout s) (FlowStats_HardTimeout s) (FlowStats_Flags s) (FlowStats_Cookie s) (FlowStats_PacketCount s) (FlowStats_ByteCount s) v (FlowStats_Instructions s).
Definition set_FlowStats_Instructions (v : (list Instruction)) (s : FlowStats) : FlowStats := MkFlowStats (FlowStats_Table s) (FlowStats_DurationSec s) (FlowStats_DurationNSec s) (FlowStats_Priority s) (FlowStats_IdleTimeout s) (FlowStats_HardTimeout s) (FlowStats_Flags s) (FlowStats_Cookie s) (FlowStats_PacketCount s) (FlowStats_ByteCount s) (FlowStats_Match s) v.
Definition zero_FlowStats : FlowStats := MkFlowStats 0%N 0%N 0%N 0%N 0%N 0%N 0%N 0%N 0%N 0%N zero_Match [].
(** FlowStats.WriteTo, ofp/flow.go:462-476: the length field is a 16-bit conversion. *)
Definition enc_FlowStats (m : FlowStats) : bytes :=
  let buf := concat [u8 (FlowStats_Table m); pad 1; u32 (FlowStats_DurationSec m); u32 (FlowStats_DurationNSec m); u16 (FlowStats_Priority m); u16 (FlowStats_IdleTimeout m); u16 (FlowStats_HardTimeout m); u16 (FlowStats_Flags m); pad 4; u64 (FlowStats_Cookie m); u64 (FlowStats_PacketCount m); u64 (FlowStats_ByteCount m); enc_Match (FlowStats_Match m); enc_Instructions (FlowStats_Instructions m)] in
  concat [u16 (uwrap 2 (N.of_nat (length buf + 2))); buf].
(** FlowStats.ReadFrom, ofp/flow.go:480-497; the local [len] is the first
    component of the state, the limit is 64-bit signed arithmetic. *)
Definition dec_FlowStats : step FlowStats :=
  with_local 0%N
    (andthen
      (seqr [fu 2 (fun v s => (v, snd s)); sub snd (fun m s => (fst s, m)) (fu 1 set_FlowStats_Table); fpad 1; sub snd (fun m s => (fst s, m)) (fu 4 set_FlowStats_DurationSec); sub snd (fun m s => (fst s, m)) (fu 4 set_FlowStats_DurationNSec); sub snd (fun m s => (fst s, m)) (fu 2 set_FlowStats_Priority); sub snd (fun m s => (fst s, m)) (fu 2 set_FlowStats_IdleTimeout); sub snd (fun m s => (fst s, m)) (fu 2 set_FlowStats_HardTimeout); sub snd (fun m s => (fst s, m)) (fu 2 set_FlowStats_Flags); fpad 4; sub snd (fun m s => (fst s, m)) (fu 8 set_FlowStats_Cookie); sub snd (fun m s => (fst s, m)) (fu 8 set_FlowStats_PacketCount); sub snd (fun m s => (fst s, m)) (fu 8 set_FlowStats_ByteCount); sub snd (fun m s => (fst s, m)) (sub FlowStats_Match set_FlowStats_Match dec_Match)])
      (fun n h =>
         limited (Z.of_N (fst h) - Z.of_nat n)
           (pre (fun s => (fst s, set_FlowStats_Instructions [] (snd s)))
             (sub snd (fun m s => (fst s, m))
               (sub FlowStats_Instructions set_FlowStats_Instructions dec_Instructions))))).

(** PacketIn, ofp/packet.go:68-90. *)
Record PacketIn := MkPacketIn { PacketIn_Buffer : N; PacketIn_Length : N; PacketIn_Reason : N; PacketIn_Table : N; PacketIn_Cookie : N; PacketIn_Match : Match; PacketIn_Data : bytes }.
(** Assignments to the fields of PacketIn and its zero value (ofp/packet.go:68-90). *)
Definition set_PacketIn_Buffer (v : N) (s : PacketIn) : PacketIn := MkPacketIn v (PacketIn_Length s) (PacketIn_Reason s) (PacketIn_Table s) (PacketIn_Cookie s) (PacketIn_Match s) (PacketIn_Data s).
Definition set_PacketIn_Length (v : N) (s : PacketIn) : PacketIn := MkPacketIn (PacketIn_Buffer s) v (PacketIn_Reason s) (PacketIn_Table s) (PacketIn_Cookie s) (PacketIn_Match s) (PacketIn_Data s).
Definition set_PacketIn_Reason (v : N) (s : PacketIn) : PacketIn := MkPacketIn (PacketIn_Buffer s) (PacketIn_Length s) v (PacketIn_Table s) (PacketIn_Cookie s) (PacketIn_Match s) (PacketIn_Data s).
Definition set_PacketIn_Table (v : N) (s : PacketIn) : PacketIn := MkPacketIn (PacketIn_Buffer s) (PacketIn_Length s) (PacketIn_Reason s) v (PacketIn_Cookie s) (PacketIn_Match s) (PacketIn_Data s).
Definition set_PacketIn_Cookie (v : N) (s : PacketIn) : PacketIn := MkPacketIn (PacketIn_Buffer s) (PacketIn_Length s) (PacketIn_Reason s) (PacketIn_Table s) v (PacketIn_Match s) (PacketIn_Data s).
Definition set_PacketIn_Match (v : Match) (s : PacketIn) : PacketIn := MkPacketIn (PacketIn_Buffer s) (PacketIn_Length s) (PacketIn_Reason s) (PacketIn_Table s) (PacketIn_Cookie s) v (PacketIn_Data s).
Definition set_PacketIn_Data (v : bytes) (s : PacketIn) : PacketIn := MkPacketIn (PacketIn_Buffer s) (PacketIn_Length s) (PacketIn_Reason s) (PacketIn_Table s) (PacketIn_Cookie s) (PacketIn_Match s) v.
Definition zero_PacketIn : PacketIn := MkPacketIn 0%N 0%N 0%N 0%N 0%N zero_Match [].
(** PacketIn.WriteTo, ofp/packet.go:105-108. *)
Definition enc_PacketIn (m : PacketIn) : bytes :=
  concat [u32 (PacketIn_Buffer m); u16 (PacketIn_Length m); u8 (PacketIn_Reason m); u8 (PacketIn_Table m); u64 (PacketIn_Cookie m); enc_Match (PacketIn_Match m); pad 2; PacketIn_Data m].
(** PacketIn.ReadFrom, ofp/packet.go:112-127. *)
Definition dec_PacketIn : step PacketIn :=
  andthen (seqr [fu 4 set_PacketIn_Buffer; fu 2 set_PacketIn_Length; fu 1 set_PacketIn_Reason; fu 1 set_PacketIn_Table; fu 8 set_PacketIn_Cookie; sub PacketIn_Match set_PacketIn_Match dec_Match; fpad 2])
    (fun _ _ => readall set_PacketIn_Data).

(** PacketOut, ofp/packet.go:131-151. *)
Record PacketOut := MkPacketOut { PacketOut_Buffer : N; PacketOut_InPort : N; PacketOut_Actions : (list Action); PacketOut_Data : bytes }.
(** Assignments to the fields of PacketOut and its zero value (ofp/packet.go:131-151). *)
Definition set_PacketOut_Buffer (v : N) (s : PacketOut) : PacketOut := MkPacketOut v (PacketOut_InPort s) (PacketOut_Actions s) (PacketOut_Data s).
Definition set_PacketOut_InPort (v : N) (s : PacketOut) : PacketOut := MkPacketOut (PacketOut_Buffer s) v (PacketOut_Actions s) (PacketOut_Data s).
Definition set_PacketOut_Actions (v : (list Action)) (s : PacketOut) : PacketOut := MkPacketOut (PacketOut_Buffer s) (PacketOut_InPort s) v (PacketOut_Data s).
Definition set_PacketOut_Data (v : bytes) (s : PacketOut) : PacketOut := MkPacketOut (PacketOut_Buffer s) (PacketOut_InPort s) (PacketOut_Actions s) v.
Definition zero_PacketOut : PacketOut := MkPacketOut 0%N 0%N [] [].
(** PacketOut.WriteTo, ofp/packet.go:155-167: the length is a 16-bit conversion. *)
Definition enc_PacketOut (m : PacketOut) : bytes :=
  let buf := enc_Actions (PacketOut_Actions m) in
  concat [u32 (PacketOut_Buffer m); u32 (PacketOut_InPort m); u16 (uwrap 2 (N.of_nat (length buf))); pad 6;
          buf; PacketOut_Data m].
(** PacketOut.ReadFrom, ofp/packet.go:171-191; the local [plen] is the first
    component of the state. *)
Definition dec_PacketOut : step PacketOut :=
  with_local 0%N
    (andthen
      (seqr [sub snd (fun m s => (fst s, m)) (fu 4 set_PacketOut_Buffer);
             sub snd (fun m s => (fst s, m)) (fu 4 set_PacketOut_InPort);
             fu 2 (fun v s => (v, snd s)); fpad 6])
      (fun _ h =>
         andthen
           (limited (Z.of_N (fst h))
              (pre (fun s => (fst s, set_PacketOut_Actions [] (snd s)))
                (sub snd (fun m s => (fst s, m))
                  (sub PacketOut_Actions set_PacketOut_Actions dec_Actions))))
           (fun _ _ => sub snd (fun m s => (fst s, m)) (readall set_PacketOut_Data)))).

(** NewFlowMod, ofp/flow.go:177-210 ([None] is a nil packet-in). *)
Definition new_FlowMod (c : N) (p : option PacketIn) : FlowMod :=
  let flags := if (c =? 3)%N || (c =? 4)%N then 0%N else 1%N in
  let '(buffer, m) := match p with
                      | None => (4294967295%N, zero_Match)
                      | Some p => (PacketIn_Buffer p, PacketIn_Match p)
                      end in
  MkFlowMod 0 0 0 c 0 0 0 buffer 4294967295 4294967295 flags m [].

(** The Cookies methods: ofp/flow.go:214-216, 310-312, 381-383, 450-452,
    ofp/packet.go:94-96, ofp/aggregate.go:54-56 are the [Cookie] projections. *)
