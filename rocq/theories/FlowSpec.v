(** Ranges and wire layouts (OpenFlow 1.3, sections 7.3 and 7.4) of the messages of
    [FlowModel]. *)
From Verif Require Import Bytes WireSpec MatchSpec InstructionModel FlowModel ActionSpec InstructionSpec.

(** struct ofp_match: type, length of header and entries, entries, zero padding. *)
Definition match_layout (m : Match) : list (nat * item) :=
  let n := 4 + fields_size (Match_Fields m) in
  [(0, Num 2 (Match_Type m)); (2, Num 2 (N.of_nat n))]
  ++ one_after_another xm_size xm_layout 4 (Match_Fields m) ++ [(n, Zero (up8 n - n))].

(** The layouts of instruction and action lists. *)
Definition instructions_layout := one_after_another instruction_size instruction_layout 0.
Definition actions_layout := one_after_another action_size action_layout 0.


(** Field ranges. *)

Definition wf_FlowMod (m : FlowMod) : Prop :=
  fits 8 (FlowMod_Cookie m)
  /\ fits 8 (FlowMod_CookieMask m)
  /\ fits 1 (FlowMod_Table m)
  /\ fits 1 (FlowMod_Command m)
  /\ fits 2 (FlowMod_IdleTimeout m)
  /\ fits 2 (FlowMod_HardTimeout m)
  /\ fits 2 (FlowMod_Priority m)
  /\ fits 4 (FlowMod_Buffer m)
  /\ fits 4 (FlowMod_OutPort m)
  /\ fits 4 (FlowMod_OutGroup m)
  /\ fits 2 (FlowMod_Flags m)
  /\ wf_Match (FlowMod_Match m)
  /\ Forall wf_Instruction (FlowMod_Instructions m).

Definition wf_FlowRemoved (m : FlowRemoved) : Prop :=
  fits 8 (FlowRemoved_Cookie m)
  /\ fits 2 (FlowRemoved_Priority m)
  /\ fits 1 (FlowRemoved_Reason m)
  /\ fits 1 (FlowRemoved_Table m)
  /\ fits 4 (FlowRemoved_DurationSec m)
  /\ fits 4 (FlowRemoved_DurationNSec m)
  /\ fits 2 (FlowRemoved_IdleTimeout m)
  /\ fits 2 (FlowRemoved_HardTimeout m)
  /\ fits 8 (FlowRemoved_PacketCount m)
  /\ fits 8 (FlowRemoved_ByteCount m)
  /\ wf_Match (FlowRemoved_Match m).

Definition wf_FlowStatsRequest (m : FlowStatsRequest) : Prop :=
  fits 1 (FlowStatsRequest_Table m)
  /\ fits 4 (FlowStatsRequest_OutPort m)
  /\ fits 4 (FlowStatsRequest_OutGroup m)
  /\ fits 8 (FlowStatsRequest_Cookie m)
  /\ fits 8 (FlowStatsRequest_CookieMask m)
  /\ wf_Match (FlowStatsRequest_Match m).

Definition wf_AggregateStatsRequest (m : AggregateStatsRequest) : Prop :=
  fits 1 (AggregateStatsRequest_Table m)
  /\ fits 4 (AggregateStatsRequest_OutPort m)
  /\ fits 4 (AggregateStatsRequest_OutGroup m)
  /\ fits 8 (AggregateStatsRequest_Cookie m)
  /\ fits 8 (AggregateStatsRequest_CookieMask m)
  /\ wf_Match (AggregateStatsRequest_Match m).

Definition wf_PacketIn (m : PacketIn) : Prop :=
  fits 4 (PacketIn_Buffer m)
  /\ fits 2 (PacketIn_Length m)
  /\ fits 1 (PacketIn_Reason m)
  /\ fits 1 (PacketIn_Table m)
  /\ fits 8 (PacketIn_Cookie m)
  /\ wf_Match (PacketIn_Match m).

Definition wf_PacketOut (m : PacketOut) : Prop :=
  fits 4 (PacketOut_Buffer m) /\ fits 4 (PacketOut_InPort m)
  /\ Forall wf_Action (PacketOut_Actions m) /\ (N.of_nat (actions_size (PacketOut_Actions m)) < 65536)%N.

(** A flow statistics entry says its size in 16 bits. *)
Definition flowstats_size (m : FlowStats) : nat :=
  48 + match_size (FlowStats_Match m) + instructions_size (FlowStats_Instructions m).

Definition wf_FlowStats (m : FlowStats) : Prop :=
  fits 1 (FlowStats_Table m)
  /\ fits 4 (FlowStats_DurationSec m)
  /\ fits 4 (FlowStats_DurationNSec m)
  /\ fits 2 (FlowStats_Priority m)
  /\ fits 2 (FlowStats_IdleTimeout m)
  /\ fits 2 (FlowStats_HardTimeout m)
  /\ fits 2 (FlowStats_Flags m)
  /\ fits 8 (FlowStats_Cookie m)
  /\ fits 8 (FlowStats_PacketCount m)
  /\ fits 8 (FlowStats_ByteCount m)
  /\ wf_Match (FlowStats_Match m)
  /\ Forall wf_Instruction (FlowStats_Instructions m)
  /\ (N.of_nat (flowstats_size m) < 65536)%N.

(** Layout of FlowMod: a fixed part of 40 bytes, then the match, then the instructions. *)
Definition layout_FlowMod (m : FlowMod) : list (nat * item) :=
  [(0, Num 8 (FlowMod_Cookie m)); (8, Num 8 (FlowMod_CookieMask m)); (16, Num 1 (FlowMod_Table m)); (17, Num 1 (FlowMod_Command m)); (18, Num 2 (FlowMod_IdleTimeout m)); (20, Num 2 (FlowMod_HardTimeout m)); (22, Num 2 (FlowMod_Priority m)); (24, Num 4 (FlowMod_Buffer m)); (28, Num 4 (FlowMod_OutPort m)); (32, Num 4 (FlowMod_OutGroup m)); (36, Num 2 (FlowMod_Flags m)); (38, Zero 2)]
  ++ shift 40 (match_layout (FlowMod_Match m)) ++ shift (40 + match_size (FlowMod_Match m)) (instructions_layout (FlowMod_Instructions m)).

(** Layout of FlowRemoved: a fixed part of 40 bytes, then the match. *)
Definition layout_FlowRemoved (m : FlowRemoved) : list (nat * item) :=
  [(0, Num 8 (FlowRemoved_Cookie m)); (8, Num 2 (FlowRemoved_Priority m)); (10, Num 1 (FlowRemoved_Reason m)); (11, Num 1 (FlowRemoved_Table m)); (12, Num 4 (FlowRemoved_DurationSec m)); (16, Num 4 (FlowRemoved_DurationNSec m)); (20, Num 2 (FlowRemoved_IdleTimeout m)); (22, Num 2 (FlowRemoved_HardTimeout m)); (24, Num 8 (FlowRemoved_PacketCount m)); (32, Num 8 (FlowRemoved_ByteCount m))]
  ++ shift 40 (match_layout (FlowRemoved_Match m)).

(** Layout of FlowStatsRequest: a fixed part of 32 bytes, then the match. *)
Definition layout_FlowStatsRequest (m : FlowStatsRequest) : list (nat * item) :=
  [(0, Num 1 (FlowStatsRequest_Table m)); (1, Zero 3); (4, Num 4 (FlowStatsRequest_OutPort m)); (8, Num 4 (FlowStatsRequest_OutGroup m)); (12, Zero 4); (16, Num 8 (FlowStatsRequest_Cookie m)); (24, Num 8 (FlowStatsRequest_CookieMask m))]
  ++ shift 32 (match_layout (FlowStatsRequest_Match m)).

(** Layout of AggregateStatsRequest: a fixed part of 32 bytes, then the match. *)
Definition layout_AggregateStatsRequest (m : AggregateStatsRequest) : list (nat * item) :=
  [(0, Num 1 (AggregateStatsRequest_Table m)); (1, Zero 3); (4, Num 4 (AggregateStatsRequest_OutPort m)); (8, Num 4 (AggregateStatsRequest_OutGroup m)); (12, Zero 4); (16, Num 8 (AggregateStatsRequest_Cookie m)); (24, Num 8 (AggregateStatsRequest_CookieMask m))]
  ++ shift 32 (match_layout (AggregateStatsRequest_Match m)).

(** Layout of FlowStats: length, fixed part, match, instructions. *)
Definition layout_FlowStats (m : FlowStats) : list (nat * item) :=
  [(0, Num 2 (N.of_nat (flowstats_size m))); (2, Num 1 (FlowStats_Table m)); (3, Zero 1); (4, Num 4 (FlowStats_DurationSec m)); (8, Num 4 (FlowStats_DurationNSec m)); (12, Num 2 (FlowStats_Priority m)); (14, Num 2 (FlowStats_IdleTimeout m)); (16, Num 2 (FlowStats_HardTimeout m)); (18, Num 2 (FlowStats_Flags m)); (20, Zero 4); (24, Num 8 (FlowStats_Cookie m)); (32, Num 8 (FlowStats_PacketCount m)); (40, Num 8 (FlowStats_ByteCount m))]
  ++ shift 48 (match_layout (FlowStats_Match m))
  ++ shift (48 + match_size (FlowStats_Match m)) (instructions_layout (FlowStats_Instructions m)).

(** Layout of PacketIn: fixed part, match, two zero bytes, the frame. *)
Definition layout_PacketIn (m : PacketIn) : list (nat * item) :=
  [(0, Num 4 (PacketIn_Buffer m)); (4, Num 2 (PacketIn_Length m)); (6, Num 1 (PacketIn_Reason m)); (7, Num 1 (PacketIn_Table m)); (8, Num 8 (PacketIn_Cookie m))]
  ++ shift 16 (match_layout (PacketIn_Match m))
  ++ shift (16 + match_size (PacketIn_Match m)) [(0, Zero 2); (2, Raw (length (PacketIn_Data m)) (PacketIn_Data m))].

(** Layout of PacketOut: fixed part with the size of the actions, actions, the frame. *)
Definition layout_PacketOut (m : PacketOut) : list (nat * item) :=
  let n := actions_size (PacketOut_Actions m) in
  [(0, Num 4 (PacketOut_Buffer m)); (4, Num 4 (PacketOut_InPort m)); (8, Num 2 (N.of_nat n)); (10, Zero 6)]
  ++ shift 16 (actions_layout (PacketOut_Actions m))
  ++ shift (16 + n) [(0, Raw (length (PacketOut_Data m)) (PacketOut_Data m))].

(** [l] is what a reader gets that decodes one entry after another from [inp],
    leaving [tl], whatever its receivers held before. *)
Inductive reads {A} (dec : A -> bytes -> res A) : bytes -> list A -> bytes -> Prop :=
| ReadsNone tl : reads dec tl [] tl
| ReadsOne inp a mid l tl :
    (forall old, val (dec old inp) = a /\ fail (dec old inp) = None /\ rest (dec old inp) = mid) ->
    reads dec mid l tl -> reads dec inp (a :: l) tl.
