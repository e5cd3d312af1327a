(** Texts of protocol values ([String] and [Error] methods).

    A Go map from values to texts is an association list; [fmt.Sprintf] with
    the verb %d is the decimal representation. *)
From Coq Require Import List String NArith DecimalString DecimalN Ascii.
Import ListNotations.
Open Scope string_scope.

(** The verb %d on an unsigned number. *)
Definition decimal (n : N) : string := NilEmpty.string_of_uint (N.to_uint n).

(** Lookup in a Go map; a missing key is [None]. *)
Fixpoint lookup {A} (n : N) (t : list (N * A)) : option A :=
  match t with
  | [] => None
  | (k, s) :: t' => if N.eqb n k then Some s else lookup n t'
  end.

(** The common form of the [String] methods: the text of the map, or the type
    name with the number in parentheses. *)
Definition named (t : list (N * string)) (what : string) (n : N) : string :=
  match lookup n t with Some s => s | None => what ++ "(" ++ decimal n ++ ")" end.

(** The map [typeText], header.go:171-202, with the values of the constants used as keys. *)
Definition tbl_Type : list (N * string) :=
  [(0%N, "TypeHello");
   (1%N, "TypeError");
   (2%N, "TypeEchoRequest");
   (3%N, "TypeEchoReply");
   (4%N, "TypeExperiment");
   (5%N, "TypeFeaturesRequest");
   (6%N, "TypeFeaturesReply");
   (7%N, "TypeGetConfigRequest");
   (8%N, "TypeGetConfigReply");
   (9%N, "TypeSetConfig");
   (10%N, "TypePacketIn");
   (11%N, "TypeFlowRemoved");
   (12%N, "TypePortStatus");
   (13%N, "TypePacketOut");
   (14%N, "TypeFlowMod");
   (15%N, "TypeGroupMod");
   (16%N, "TypePortMod");
   (17%N, "TypeTableMod");
   (18%N, "TypeMultipartRequest");
   (19%N, "TypeMultipartReply");
   (20%N, "TypeBarrierRequest");
   (21%N, "TypeBarrierReply");
   (22%N, "TypeQueueGetConfigRequest");
   (23%N, "TypeQueueGetConfigReply");
   (24%N, "TypeRoleRequest");
   (25%N, "TypeRoleReply");
   (26%N, "TypeGetAsyncRequest");
   (27%N, "TypeGetAsyncReply");
   (28%N, "TypeSetAsync");
   (29%N, "TypeMeterMod")].
(** Type.String, header.go:162-169. *)
Definition text_Type : N -> string := named tbl_Type "Type".

(** The map [connStateText], net.go:54-60, with the values of the constants used as keys. *)
Definition tbl_ConnState : list (N * string) :=
  [(0%N, "StateNew");
   (1%N, "StateHandshake");
   (2%N, "StateActive");
   (3%N, "StateIdle");
   (4%N, "StateClosed")].
(** ConnState.String, net.go:46-52. *)
Definition text_ConnState : N -> string := named tbl_ConnState "ConnState".

(** The map [actionText], ofp/action.go:90-108, with the values of the constants used as keys. *)
Definition tbl_ActionType : list (N * string) :=
  [(0%N, "ActionOutput");
   (11%N, "ActionCopyTTLOut");
   (12%N, "ActionCopyTTLIn");
   (15%N, "ActionSetMPLSTTL");
   (16%N, "ActionDecMPLSTTL");
   (17%N, "ActionPushVLAN");
   (18%N, "ActionPopVLAN");
   (19%N, "ActionPushMPLS");
   (20%N, "ActionPopMPLS");
   (21%N, "ActionSetQueue");
   (22%N, "ActionGroup");
   (23%N, "ActionSetNwTTL");
   (24%N, "ActionDecNwTTL");
   (25%N, "ActionSetField");
   (26%N, "ActionPushPBB");
   (27%N, "ActionPopPBB");
   (65535%N, "ActionExperimenter")].
(** ActionType.String, ofp/action.go:16-24. *)
Definition text_ActionType : N -> string := named tbl_ActionType "Action".

(** The map [instructionTypeText], ofp/instruction.go:51-59, with the values of the constants used as keys. *)
Definition tbl_InstructionType : list (N * string) :=
  [(1%N, "InstructionGotoTable");
   (2%N, "InstructionWriteMetadata");
   (3%N, "InstructionWriteActions");
   (4%N, "InstructionApplyActions");
   (5%N, "InstructionClearActions");
   (6%N, "InstructionMeter");
   (65535%N, "InstructionExperimenter")].
(** InstructionType.String, ofp/instruction.go:43-49. *)
Definition text_InstructionType : N -> string := named tbl_InstructionType "InstructionType".

(** The map [multipartTypeText], ofp/multipart.go:119-135, with the values of the constants used as keys. *)
Definition tbl_MultipartType : list (N * string) :=
  [(0%N, "MultipartTypeDescription");
   (1%N, "MultipartTypeFlow");
   (2%N, "MultipartTypeAggregate");
   (3%N, "MultipartTypeTable");
   (4%N, "MultipartTypePortStats");
   (5%N, "MultipartTypeQueue");
   (6%N, "MultipartTypeGroup");
   (7%N, "MultipartTypeGroupDescription");
   (8%N, "MultipartTypeGroupFeatures");
   (9%N, "MultipartTypeMeter");
   (10%N, "MultipartTypeMeterConfig");
   (11%N, "MultipartTypeMeterFeatures");
   (12%N, "MultipartTypeTableFeatures");
   (13%N, "MultipartTypePortDescription");
   (65535%N, "MultipartTypeExperimenter")].
(** MultipartType.String, ofp/multipart.go:111-117. *)
Definition text_MultipartType : N -> string := named tbl_MultipartType "MultipartType".

(** The map [xmTypeText], ofp/match.go:145-186, with the values of the constants used as keys. *)
Definition tbl_XMType : list (N * string) :=
  [(0%N, "XMTypeInPort");
   (1%N, "XMTypeInPhyPort");
   (2%N, "XMTypeMetadata");
   (3%N, "XMTypeEthDst");
   (4%N, "XMTypeEthSrc");
   (5%N, "XMTypeEthType");
   (6%N, "XMTypeVlanID");
   (7%N, "XMTypeVlanPCP");
   (8%N, "XMTypeIPDSCP");
   (9%N, "XMTypeIPECN");
   (10%N, "XMTypeIPProto");
   (11%N, "XMTypeIPv4Src");
   (12%N, "XMTypeIPv4Dst");
   (13%N, "XMTypeTCPSrc");
   (14%N, "XMTypeTCPDst");
   (15%N, "XMTypeUDPSrc");
   (16%N, "XMTypeUDPDst");
   (17%N, "XMTypeSCTPSrc");
   (18%N, "XMTypeSCTPDst");
   (19%N, "XMTypeICMPv4Type");
   (20%N, "XMTypeICMPv4Code");
   (21%N, "XMTypeARPOpcode");
   (22%N, "XMTypeARPSPA");
   (23%N, "XMTypeARPTPA");
   (24%N, "XMTypeARPSHA");
   (25%N, "XMTypeARPTHA");
   (26%N, "XMTypeIPv6Src");
   (27%N, "XMTypeIPv6Dst");
   (28%N, "XMTypeIPv6FLabel");
   (29%N, "XMTypeICMPv6Type");
   (30%N, "XMTypeICMPv6Code");
   (31%N, "XMTypeIPv6NDTarget");
   (32%N, "XMTypeIPv6NDSLL");
   (33%N, "XMTypeIPv6NDTLL");
   (34%N, "XMTypeMPLSLabel");
   (35%N, "XMTypeMPLSTC");
   (36%N, "XMTypeMPLSBOS");
   (37%N, "XMTypePBBISID");
   (38%N, "XMTypeTunnelID");
   (39%N, "XMTypeIPv6ExtHeader")].
(** XMType.String, ofp/match.go:15-21. *)
Definition text_XMType : N -> string := named tbl_XMType "XMType".

(** The map [classText], ofp/match.go:220-225, with the values of the constants used as keys. *)
Definition tbl_XMClass : list (N * string) :=
  [(0%N, "XMClassNicira0");
   (1%N, "XMClassNicira1");
   (32768%N, "XMClassOpenflowBasic");
   (65535%N, "XMClassExperimeter")].
(** XMClass.String, ofp/match.go:197-203. *)
Definition text_XMClass : N -> string := named tbl_XMClass "XMClass".

(** The map [tablePropTypeText], ofp/table.go:263-280, with the values of the constants used as keys. *)
Definition tbl_TablePropType : list (N * string) :=
  [(0%N, "TablePropTypeInstructions");
   (1%N, "TablePropTypeInstructionsMiss");
   (2%N, "TablePropTypeNextTables");
   (3%N, "TablePropTypeNextTablesMiss");
   (4%N, "TablePropTypeWriteActions");
   (5%N, "TablePropTypeWriteActionsMiss");
   (6%N, "TablePropTypeApplyActions");
   (7%N, "TablePropTypeApplyActionsMiss");
   (8%N, "TablePropTypeMatch");
   (10%N, "TablePropTypeWildcards");
   (12%N, "TablePropTypeWriteSetField");
   (13%N, "TablePropTypeWriteSetFieldMiss");
   (14%N, "TablePropTypeApplySetField");
   (15%N, "TablePropTypeApplySetFieldMiss");
   (65534%N, "TablePropTypeExperimenter");
   (65535%N, "TablePropTypeExperimenterMiss")].
(** TablePropType.String, ofp/table.go:199-204. *)
Definition text_TablePropType : N -> string := named tbl_TablePropType "TablePropType".

(** The map [packetInReasonText], ofp/packet.go:43-47, with the values of the constants used as keys. *)
Definition tbl_PacketInReason : list (N * string) :=
  [(0%N, "PacketInReasonNoMatch");
   (1%N, "PacketInReasonAction");
   (2%N, "PacketInReasonInvalidTTL")].
(** PacketInReason.String, ofp/packet.go:35-41. *)
Definition text_PacketInReason : N -> string := named tbl_PacketInReason "PacketInReason".

(** The map [errTypeText], ofp/error.go:82-98, with the values of the constants used as keys. *)
Definition tbl_ErrType : list (N * string) :=
  [(0%N, "ErrTypeHelloFailed");
   (1%N, "ErrTypeBadRequest");
   (2%N, "ErrTypeBadAction");
   (3%N, "ErrTypeBadInstruction");
   (4%N, "ErrTypeBadMatch");
   (5%N, "ErrTypeFlowModFailed");
   (6%N, "ErrTypeGroupModFailed");
   (7%N, "ErrTypePortModFailed");
   (8%N, "ErrTypeTableModFailed");
   (9%N, "ErrTypeQueueOpFailed");
   (10%N, "ErrTypeSwitchConfigFailed");
   (11%N, "ErrTypeRoleRequestFailed");
   (12%N, "ErrTypeMeterModFailed");
   (13%N, "ErrTypeTableFeaturesFailed");
   (65535%N, "ErrTypeExperimenter")].
(** ErrType.String, ofp/error.go:74-80. *)
Definition text_ErrType : N -> string := named tbl_ErrType "ErrType".

(** Table.String, ofp/table.go:19-21. *)
Definition text_Table (n : N) : string := "Table(" ++ decimal n ++ ")".

(** The map [errTypeCodeText], ofp/error.go:598-739. *)
Definition tbl_Error : list (N * list (N * string)) :=
  [(0%N, [(0%N, "ErrCodeHelloFailedIncompatible");
      (1%N, "ErrCodeHelloFailedPerm")]);
   (1%N, [(0%N, "ErrCodeBadRequestBadVersion");
      (1%N, "ErrCodeBadRequestBadType");
      (2%N, "ErrCodeBadRequestBadMultipart");
      (3%N, "ErrCodeBadRequestBadExperimenter");
      (4%N, "ErrCodeBadRequestBadExpType");
      (5%N, "ErrCodeBadRequestPerm");
      (6%N, "ErrCodeBadRequestLen");
      (7%N, "ErrCodeBadRequestBufferEmpty");
      (8%N, "ErrCodeBadRequestBufferUnknown");
      (9%N, "ErrCodeBadRequestBadTableID");
      (10%N, "ErrCodeBadRequestIsSlave");
      (11%N, "ErrCodeBadRequestBadPort");
      (12%N, "ErrCodeBadRequestBadPacket");
      (13%N, "ErrCodeBadRequestMultipartBufferOverflow")]);
   (2%N, [(0%N, "ErrCodeBadActionType");
      (1%N, "ErrCodeBadActionLen");
      (2%N, "ErrCodeBadActionExperimenter");
      (3%N, "ErrCodeBadActionExpType");
      (4%N, "ErrCodeBadActionOutPort");
      (5%N, "ErrCodeBadActionArgument");
      (6%N, "ErrCodeBadActionPerm");
      (7%N, "ErrCodeBadActionTooMany");
      (8%N, "ErrCodeBadActionQueue");
      (9%N, "ErrCodeBadActionOutGroup");
      (10%N, "ErrCodeBadActionMatchInconsistent");
      (11%N, "ErrCodeBadActionUnsupportedOrder");
      (12%N, "ErrCodeBadActionTag");
      (13%N, "ErrCodeBadActionSetType");
      (14%N, "ErrCodeBadActionSetLen");
      (15%N, "ErrCodeBadActionSetArgument")]);
   (3%N, [(0%N, "ErrCodeBadInstructionUnknown");
      (1%N, "ErrCodeBadInstructionUnsupported");
      (2%N, "ErrCodeBadInstructionTableID");
      (3%N, "ErrCodeBadInstructionUnsupportedMetadata");
      (4%N, "ErrCodeBadInstructionUnsupportedMetadataMask");
      (5%N, "ErrCodeBadInstructionExperimenter");
      (6%N, "ErrCodeBadInstructionExpType");
      (7%N, "ErrCodeBadInstructionLen");
      (8%N, "ErrCodeBadInstructionPerm")]);
   (4%N, [(0%N, "ErrCodeBadMatchBadType");
      (1%N, "ErrCodeBadMatchBadLen");
      (2%N, "ErrCodeBadMatchBadTag");
      (3%N, "ErrCodeBadMatchBadLinkMask");
      (4%N, "ErrCodeBadMatchBadNetMask");
      (5%N, "ErrCodeBadMatchBadWildcards");
      (6%N, "ErrCodeBadMatchBadField");
      (7%N, "ErrCodeBadMatchBadValue");
      (8%N, "ErrCodeBadMatchBadMask");
      (9%N, "ErrCodeBadMatchBadPrereq");
      (10%N, "ErrCodeBadMatchDupField");
      (11%N, "ErrCodeBadMatchPerm")]);
   (5%N, [(0%N, "ErrCodeFlowModFailedUnknown");
      (1%N, "ErrCodeFlowModFailedTableFull");
      (2%N, "ErrCodeFlowModFailedBadTableID");
      (3%N, "ErrCodeFlowModFailedOverlap");
      (4%N, "ErrCodeFlowModFailedPerm");
      (5%N, "ErrCodeFlowModFailedBadTimeout");
      (6%N, "ErrCodeFlowModFailedBadCommand");
      (7%N, "ErrCodeFlowModFailedBadFlags")]);
   (6%N, [(0%N, "ErrCodeGroupModFailedGroupExists");
      (1%N, "ErrCodeGroupModFailedInvalidGroup");
      (2%N, "ErrCodeGroupModFailedWeightUnsupported");
      (3%N, "ErrCodeGroupModFailedOutOfGroups");
      (4%N, "ErrCodeGroupModFailedOutOfBuckets");
      (5%N, "ErrCodeGroupModFailedChainingUnsupported");
      (6%N, "ErrCodeGroupModFailedWatchUnsupported");
      (7%N, "ErrCodeGroupModFailedLoop");
      (8%N, "ErrCodeGroupModFailedUnknownGroup");
      (9%N, "ErrCodeGroupModFailedChainedGroup");
      (10%N, "ErrCodeGroupModBadType");
      (11%N, "ErrCodeGroupModBadCommand");
      (12%N, "ErrCodeGroupModBadBucket");
      (13%N, "ErrCodeGroupModBadWatch");
      (14%N, "ErrCodeGroupModPerm")]);
   (7%N, [(0%N, "ErrCodePortModFailedBadPort");
      (1%N, "ErrCodePortModFailedBadHwAddr");
      (2%N, "ErrCodePortModFailedBadConfig");
      (3%N, "ErrCodePortModFailedBadAdvertise");
      (4%N, "ErrCodePortModFailedPerm")]);
   (8%N, [(0%N, "ErrCodeTableModFailedBadTable");
      (1%N, "ErrCodeTableModFailedBadConfig");
      (2%N, "ErrCodeTableModFailedPerm")]);
   (9%N, [(0%N, "ErrCodeQueueOpFailedBadPort");
      (1%N, "ErrCodeQueueOpFailedBadQueue");
      (2%N, "ErrCodeQueueOpFailedPerm")]);
   (10%N, [(0%N, "ErrCodeSwitchConfigFailedBadFlags");
      (1%N, "ErrCodeSwitchConfigFailedBadLen");
      (2%N, "ErrCodeSwitchConfigFailedPerm")]);
   (11%N, [(0%N, "ErrCodeRoleRequestFailedStale");
      (1%N, "ErrCodeRoleRequestFailedUnsup");
      (2%N, "ErrCodeRoleRequestFailedBadRole")]);
   (12%N, [(0%N, "ErrCodeMeterModFailedUnknown");
      (1%N, "ErrCodeMeterModFailedMeterExists");
      (2%N, "ErrCodeMeterModFailedInvalidMeter");
      (3%N, "ErrCodeMeterModFailedUnknownMeter");
      (4%N, "ErrCodeMeterModFailedBadCommand");
      (5%N, "ErrCodeMeterModFailedBadFlags");
      (6%N, "ErrCodeMeterModFailedBadRate");
      (7%N, "ErrCodeMeterModFailedBadBurst");
      (8%N, "ErrCodeMeterModFailedBadBand");
      (9%N, "ErrCodeMeterModFailedBadBandValue");
      (10%N, "ErrCodeMeterModFailedOutOfMeters");
      (11%N, "ErrCodeMeterModFailedOutOfBands")]);
   (13%N, [(0%N, "ErrCodeTableFeaturesFailedBadTable");
      (1%N, "ErrCodeTableFeaturesFailedBadMetadata");
      (2%N, "ErrCodeTableFeaturesFailedBadType");
      (3%N, "ErrCodeTableFeaturesFailedBadLen");
      (4%N, "ErrCodeTableFeaturesFailedBadArgument");
      (5%N, "ErrCodeTableFeaturesFailedPerm")]);
   (65535%N, [])].
(** Error.String, ofp/error.go:586-596 (and Error.Error, 582-584), of the type
    and code; the data is not printed. *)
Definition text_Error (t c : N) : string :=
  match lookup t tbl_Error with
  | None => "ErrType(" ++ decimal t ++ ")Code(" ++ decimal c ++ ")"
  | Some codes =>
      match lookup c codes with
      | None => text_ErrType t ++ "Code(" ++ decimal c ++ ")"
      | Some s => s
      end
  end.

(** [strings.Join]. *)
Fixpoint join (sep : string) (l : list string) : string :=
  match l with
  | [] => ""
  | [s] => s
  | s :: l' => s ++ sep ++ join sep l'
  end.

(** The loop over a table of masks: the texts of those that meet [f], in table
    order (ofp/port.go:107-111, 172-176). *)
Definition flags (t : list (N * string)) (f : N) : list string :=
  map snd (filter (fun mt => negb (N.eqb (N.land (fst mt) f) 0)) t).

(** The table [portFeaturesText], ofp/port.go:79-99. *)
Definition tbl_PortFeature : list (N * string) :=
  [(1%N, "10 Mbps half-duplex");
   (2%N, "10 Mbps full-duplex");
   (4%N, "100 Mbps half-duplex");
   (8%N, "100 Mbps full-duplex");
   (16%N, "1 Gbps half-duplex");
   (32%N, "1 Gbps full-duplex");
   (64%N, "10 Gbps full-duplex");
   (128%N, "40 Gbps full-duplex");
   (256%N, "100 Gbps full-duplex");
   (512%N, "1 Tbps full-duplex");
   (1024%N, "other");
   (2048%N, "copper");
   (4096%N, "fiber");
   (8192%N, "autoneg");
   (16384%N, "pause");
   (32768%N, "pause asym")].
(** PortFeature.String, ofp/port.go:102-115. *)
Definition text_PortFeature (f : N) : string := join " " (flags tbl_PortFeature f).

(** The table [portConfigText], ofp/port.go:149-160. *)
Definition tbl_PortConfig : list (N * string) :=
  [(1%N, "down");
   (2%N, "no STP");
   (4%N, "no recv");
   (8%N, "no recv STP");
   (16%N, "no flood");
   (32%N, "no fwd");
   (64%N, "no packet in")].
(** PortConfig.String, ofp/port.go:163-179: "up" unless the bit PortConfigDown
    (1, ofp/port.go:126) is set. *)
Definition text_PortConfig (c : N) : string :=
  join " " ((if N.eqb (N.land 1 c) 0 then ["up"] else []) ++ flags tbl_PortConfig c)%list.

(** The map [portStateText], ofp/port.go:200-204. *)
Definition tbl_PortState : list (N * string) :=
  [(1%N, "link down");
   (2%N, "blocked");
   (4%N, "live")].
(** PortState.String, ofp/port.go:207-213. *)
Definition text_PortState (s : N) : string :=
  match lookup s tbl_PortState with Some t => t | None => "link up" end.
