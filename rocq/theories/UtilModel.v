(** Model of ofputil: bitmaps, flow requests, match fields, instruction lists. *)
From Verif Require Export DataModel RequestModel FlowModel.

(** Bitmap64, Bitmap128, ofputil/bitmap.go:8-15. *)
Definition bitmap64 (q1 q2 : N) : list N := [q1; q2].
Definition bitmap128 (q1 q2 q3 q4 : N) : list N := [q1; q2; q3; q4].

(** shl, ofputil/bitmap.go:17-19: uint32 shift, bits shifted out are lost. *)
Definition shl (mask bit : N) : N := N.lor mask (uwrap 4 (N.shiftl 1 bit)).

(** PacketInReasonBitmap, PortReasonBitmap, FlowReasonBitmap, GroupBitmap,
    ActionBitmap, ofputil/bitmap.go:23-69: the same loop over uint8 or uint16
    arguments. *)
Definition packet_in_reason_bitmap (l : list N) : N := fold_left shl l 0%N.
Definition port_reason_bitmap (l : list N) : N := fold_left shl l 0%N.
Definition flow_reason_bitmap (l : list N) : N := fold_left shl l 0%N.
Definition group_bitmap (l : list N) : N := fold_left shl l 0%N.
Definition action_bitmap (l : list N) : N := fold_left shl l 0%N.

(** The payload of a request: a message that serialises without error
    (FlowMod.WriteTo, ofp/flow.go:225-231, fails only if its writer does). *)
Definition as_payload (b : bytes) : option payload := Some (MkPayload b None).

(** The messages of TableFlush, FlowFlush, FlowDrop, ofputil/flow.go:8-37, and
    the requests made of them. *)
Definition table_flush_mod (table : N) : FlowMod :=
  MkFlowMod 0 0 table 3 0 0 0 4294967295 4294967295 4294967295 0 (MkMatch 1 []) [].
Definition flow_flush_mod (table : N) (m : Match) : FlowMod :=
  MkFlowMod 0 0 table 3 0 0 0 4294967295 4294967295 4294967295 0 m [].
Definition flow_drop_mod (table : N) : FlowMod :=
  MkFlowMod 0 0 table 0 0 0 0 4294967295 0 0 0 (MkMatch 1 []) [].

Definition table_flush (table : N) : Request := new_request 14 (as_payload (enc_FlowMod (table_flush_mod table))).
Definition flow_flush (table : N) (m : Match) : Request :=
  new_request 14 (as_payload (enc_FlowMod (flow_flush_mod table m))).
Definition flow_drop (table : N) : Request := new_request 14 (as_payload (enc_FlowMod (flow_drop_mod table))).

(** ActionsApply, ActionsWrite, ActionsClear, ofputil/actions.go:9-23. *)
Definition actions_apply (l : list Action) : list Instruction := [IApplyActions l].
Definition actions_write (l : list Action) : list Instruction := [IWriteActions l].
Definition actions_clear : list Instruction := [IClearActions].

(** bytesOf, ofputil/match.go:11-21, of an unsigned integer of [k] bytes. *)
Definition bytes_of (k : nat) (v : N) : bytes := be_enc k v.

(** ExtendedMatch, basic, ofputil/match.go:23-33. *)
Definition extended_match (xms : list XM) : Match := MkMatch 1 xms.
Definition basic (t : N) (value mask : bytes) : XM := MkXM 32768 t value mask.

(** MatchEthType, MatchInPort, MatchIPProto, MatchICMPv6Type,
    MatchIPv6ExtHeader, ofputil/match.go:37-63; type numbers ofp/match.go:23-146. *)
Definition match_eth_type (v : N) : XM := basic 5 (bytes_of 2 v) [].
Definition match_in_port (v : N) : XM := basic 0 (bytes_of 4 v) [].
Definition match_ip_proto (v : N) : XM := basic 10 (bytes_of 1 v) [].
Definition match_icmpv6_type (v : N) : XM := basic 29 (bytes_of 1 v) [].
Definition match_ipv6_ext_header (v : N) : XM := basic 39 (bytes_of 2 v) [].
