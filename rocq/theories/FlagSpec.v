(** The bits of OpenFlow 1.3 (ofp_capabilities, ofp_port_features, ofp_port_config,
    ofp_port_state, ofp_flow_mod_flags, ofp_meter_flags, ofp_group_capabilities,
    ofp_ipv6exthdr_flags, ofp_multipart_request_flags, ofp_multipart_reply_flags). *)
From Verif Require Export FlagModel.

(** The bitmap in which OpenFlow 1.3 has what the constant is named after, and the
    number of its bit. OFPPC_NO_STP, OFPPC_NO_RECV_STP and OFPPC_NO_FLOOD are of
    OpenFlow 1.0 and absent from 1.3. *)
Definition of13 (f : flag) : option (bitmap * N) :=
  match f with
  | CapabilityFlowStats => Some (BCapability, 0%N)
  | CapabilityTableStats => Some (BCapability, 1%N)
  | CapabilityPortStats => Some (BCapability, 2%N)
  | CapabilityGroupStats => Some (BCapability, 3%N)
  | CapabilityIPReasm => Some (BCapability, 5%N)
  | CapabilityQueueStats => Some (BCapability, 6%N)
  | CapabilityPortBlocked => Some (BCapability, 8%N)
  | PortFeature10MbitHalfDuplex => Some (BPortFeature, 0%N)
  | PortFeature10MbitFullDuplex => Some (BPortFeature, 1%N)
  | PortFeature100MbitHalfDuplex => Some (BPortFeature, 2%N)
  | PortFeature100MbitFullDuplex => Some (BPortFeature, 3%N)
  | PortFeature1GbitHalfDuplex => Some (BPortFeature, 4%N)
  | PortFeature1GbitFullDuplex => Some (BPortFeature, 5%N)
  | PortFeature10GbitFullDuplex => Some (BPortFeature, 6%N)
  | PortFeature40GbitFullDuplex => Some (BPortFeature, 7%N)
  | PortFeature100GbitFullDuplex => Some (BPortFeature, 8%N)
  | PortFeature1TbitFullDuplex => Some (BPortFeature, 9%N)
  | PortFeatureOther => Some (BPortFeature, 10%N)
  | PortFeatureCopper => Some (BPortFeature, 11%N)
  | PortFeatureFiber => Some (BPortFeature, 12%N)
  | PortFeatureAutoneg => Some (BPortFeature, 13%N)
  | PortFeaturePause => Some (BPortFeature, 14%N)
  | PortFeaturePauseAsym => Some (BPortFeature, 15%N)
  | PortConfigDown => Some (BPortConfig, 0%N)
  | PortConfigNoRcv => Some (BPortConfig, 2%N)
  | PortConfigNoFwd => Some (BPortConfig, 5%N)
  | PortConfigNoPacketIn => Some (BPortConfig, 6%N)
  | PortConfigNoSTP | PortConfigNoRcvSTP | PortConfigNoFlood => None
  | PortStateLinkDown => Some (BPortState, 0%N)
  | PortStateBlocked => Some (BPortState, 1%N)
  | PortStateLive => Some (BPortState, 2%N)
  | FlowFlagSendFlowRem => Some (BFlowFlag, 0%N)
  | FlowFlagCheckOverlap => Some (BFlowFlag, 1%N)
  | FlowFlagResetCounts => Some (BFlowFlag, 2%N)
  | FlowFlagNoPktCounts => Some (BFlowFlag, 3%N)
  | FlowFlagNoByteCounts => Some (BFlowFlag, 4%N)
  | MeterFlagKBitPerSec => Some (BMeterFlag, 0%N)
  | MeterFlagPacketPerSec => Some (BMeterFlag, 1%N)
  | MeterFlagBurst => Some (BMeterFlag, 2%N)
  | MeterFlagStats => Some (BMeterFlag, 3%N)
  | GroupCapabilitySelectWeight => Some (BGroupCapability, 0%N)
  | GroupCapabilitySelectLiveness => Some (BGroupCapability, 1%N)
  | GroupCapabilityChaining => Some (BGroupCapability, 2%N)
  | GroupCapabilityChainingChecks => Some (BGroupCapability, 3%N)
  | IPv6ExtensionHeaderNoNext => Some (BIPv6Ext, 0%N)
  | IPv6ExtensionHeaderESP => Some (BIPv6Ext, 1%N)
  | IPv6ExtensionHeaderAuth => Some (BIPv6Ext, 2%N)
  | IPv6ExtensionHeaderDest => Some (BIPv6Ext, 3%N)
  | IPv6ExtensionHeaderFrag => Some (BIPv6Ext, 4%N)
  | IPv6ExtensionHeaderRouter => Some (BIPv6Ext, 5%N)
  | IPv6ExtensionHeaderHop => Some (BIPv6Ext, 6%N)
  | IPv6ExtensionHeaderUnrep => Some (BIPv6Ext, 7%N)
  | IPv6ExtensionHeaderUnseq => Some (BIPv6Ext, 8%N)
  | MultipartRequestMode => Some (BRequestFlag, 0%N)
  | MultipartReplyMode => Some (BReplyFlag, 0%N)
  end.

(** The word by which an OpenFlow 1.3 implementation says in a bitmap of type [b]
    that exactly the things of [P] hold: their bits are set and no others. *)
Definition says (b : bitmap) (P : flag -> bool) (w : N) : Prop :=
  forall k, N.testbit w k = true <-> exists f, of13 f = Some (b, k) /\ P f = true.

(** What an OpenFlow 1.3 implementation takes from a word. *)
Definition hears (b : bitmap) (w : N) (f : flag) : Prop :=
  exists k, of13 f = Some (b, k) /\ N.testbit w k = true.

(** The constants with a wrong bit. *)
Definition misnamed (f : flag) : Prop := f = CapabilityIPReasm \/ f = CapabilityQueueStats.
