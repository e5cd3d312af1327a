(** What arbitrary bytes say as a flow modification, a flow-removed message, a packet-in
    or a packet-out, independently of the decoders (OpenFlow 1.3, sections 7.3.4.1,
    7.3.7, 7.4.1 and 7.4.2). *)
From Verif Require Import Bytes Encoding WireSpec MatchSpec ActionSpec InstructionSpec FlowModel InstrListSpec.

(** The bytes of the match at the beginning of [b]: its header, its entries as far as
    they are there, its padding. *)
Definition match_bytes (b : bytes) : nat := 4 + length (region b) + (up8 (declared b) - declared b).

(** [b] begins with a complete match saying [m]. *)
Definition match_says (b : bytes) (m : Match) : Prop :=
  4 <= length b /\ match_bytes b <= length b /\ Match_Type m = num 0 2 b /\ parses (Match_Fields m) (region b).

(** [inp] is a complete flow modification [x], but for its instructions, about which
    the report is [v]. *)
Definition flow_mod_says (inp : bytes) (x : FlowMod) (v : option err) : Prop :=
  40 <= length inp /\ match_says (skipn 40 inp) (FlowMod_Match x)
  /\ instructions_end (skipn (40 + match_bytes (skipn 40 inp)) inp) (FlowMod_Instructions x) v
  /\ [FlowMod_Cookie x; FlowMod_CookieMask x; FlowMod_Table x; FlowMod_Command x; FlowMod_IdleTimeout x; FlowMod_HardTimeout x;
      FlowMod_Priority x; FlowMod_Buffer x; FlowMod_OutPort x; FlowMod_OutGroup x; FlowMod_Flags x]
     = map (fun p => num (fst p) (snd p) inp)
         [(0, 8); (8, 8); (16, 1); (17, 1); (18, 2); (20, 2); (22, 2); (24, 4); (28, 4); (32, 4); (36, 2)].

(** A complete flow-removed message. *)
Definition flow_removed_says (inp : bytes) (x : FlowRemoved) : Prop :=
  40 <= length inp /\ match_says (skipn 40 inp) (FlowRemoved_Match x)
  /\ [FlowRemoved_Cookie x; FlowRemoved_Priority x; FlowRemoved_Reason x; FlowRemoved_Table x; FlowRemoved_DurationSec x;
      FlowRemoved_DurationNSec x; FlowRemoved_IdleTimeout x; FlowRemoved_HardTimeout x; FlowRemoved_PacketCount x; FlowRemoved_ByteCount x]
     = map (fun p => num (fst p) (snd p) inp)
         [(0, 8); (8, 2); (10, 1); (11, 1); (12, 4); (16, 4); (20, 2); (22, 2); (24, 8); (32, 8)].

(** A complete packet-in; all that follows two bytes after the match is the packet. *)
Definition packet_in_says (inp : bytes) (x : PacketIn) : Prop :=
  let k := 16 + match_bytes (skipn 16 inp) + 2 in
  16 <= length inp /\ match_says (skipn 16 inp) (PacketIn_Match x) /\ k <= length inp /\ PacketIn_Data x = skipn k inp
  /\ [PacketIn_Buffer x; PacketIn_Length x; PacketIn_Reason x; PacketIn_Table x; PacketIn_Cookie x]
     = map (fun p => num (fst p) (snd p) inp) [(0, 4); (4, 2); (6, 1); (7, 1); (8, 8)].

(** A packet-out with the report [v] about its actions; all that follows the length
    declared for the actions is the packet, which is read if there is nothing to
    report. *)
Definition packet_out_says (inp : bytes) (x : PacketOut) (v : option err) : Prop :=
  let k := N.to_nat (num 8 2 inp) in
  16 <= length inp /\ actions_end (firstn k (skipn 16 inp)) (PacketOut_Actions x) v
  /\ [PacketOut_Buffer x; PacketOut_InPort x] = map (fun p => num (fst p) (snd p) inp) [(0, 4); (4, 4)]
  /\ (v = None -> PacketOut_Data x = skipn (16 + k) inp).

(** A complete request for the statistics of flows, or of their sum. *)
Definition flow_query_says (inp : bytes) (table port group cookie mask : N) (m : Match) : Prop :=
  32 <= length inp /\ match_says (skipn 32 inp) m
  /\ [table; port; group; cookie; mask] = map (fun p => num (fst p) (snd p) inp) [(0, 1); (4, 4); (8, 4); (16, 8); (24, 8)].

(** A complete flow entry, but for its instructions, about which the report is [v]; it
    extends over the length it declares, at least to the end of its match. *)
Definition flow_stats_says (inp : bytes) (x : FlowStats) (v : option err) : Prop :=
  let k := 48 + match_bytes (skipn 48 inp) in
  48 <= length inp /\ match_says (skipn 48 inp) (FlowStats_Match x)
  /\ instructions_end (firstn (N.to_nat (num 0 2 inp) - k) (skipn k inp)) (FlowStats_Instructions x) v
  /\ [FlowStats_Table x; FlowStats_DurationSec x; FlowStats_DurationNSec x; FlowStats_Priority x; FlowStats_IdleTimeout x;
      FlowStats_HardTimeout x; FlowStats_Flags x; FlowStats_Cookie x; FlowStats_PacketCount x; FlowStats_ByteCount x]
     = map (fun p => num (fst p) (snd p) inp)
         [(2, 1); (4, 4); (8, 4); (12, 2); (14, 2); (16, 2); (18, 2); (24, 8); (32, 8); (40, 8)].
