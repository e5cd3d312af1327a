(** The named bits of the bitmap types of package ofp. *)
From Verif Require Export FixedModel.

(** The bitmap types: Capability (switch.go:10), PortFeature (port.go:12),
    PortConfig (port.go:122), PortState (port.go:183), FlowModFlag (flow.go:34),
    MeterFlag (meter.go:26), GroupCapability (group.go:353), IPv6ExtensionHeader
    (match.go:247), MultipartRequestFlag and MultipartReplyFlag
    (multipart.go:138, 146). *)
Inductive bitmap :=
| BCapability | BPortFeature | BPortConfig | BPortState | BFlowFlag | BMeterFlag
| BGroupCapability | BIPv6Ext | BRequestFlag | BReplyFlag.

(** The exported constants of these types. *)
Inductive flag :=
| CapabilityFlowStats | CapabilityTableStats | CapabilityPortStats | CapabilityGroupStats
| CapabilityIPReasm | CapabilityQueueStats | CapabilityPortBlocked
| PortFeature10MbitHalfDuplex | PortFeature10MbitFullDuplex | PortFeature100MbitHalfDuplex
| PortFeature100MbitFullDuplex | PortFeature1GbitHalfDuplex | PortFeature1GbitFullDuplex
| PortFeature10GbitFullDuplex | PortFeature40GbitFullDuplex | PortFeature100GbitFullDuplex
| PortFeature1TbitFullDuplex | PortFeatureOther | PortFeatureCopper | PortFeatureFiber
| PortFeatureAutoneg | PortFeaturePause | PortFeaturePauseAsym
| PortConfigDown | PortConfigNoSTP | PortConfigNoRcv | PortConfigNoRcvSTP
| PortConfigNoFlood | PortConfigNoFwd | PortConfigNoPacketIn
| PortStateLinkDown | PortStateBlocked | PortStateLive
| FlowFlagSendFlowRem | FlowFlagCheckOverlap | FlowFlagResetCounts | FlowFlagNoPktCounts
| FlowFlagNoByteCounts
| MeterFlagKBitPerSec | MeterFlagPacketPerSec | MeterFlagBurst | MeterFlagStats
| GroupCapabilitySelectWeight | GroupCapabilitySelectLiveness | GroupCapabilityChaining
| GroupCapabilityChainingChecks
| IPv6ExtensionHeaderNoNext | IPv6ExtensionHeaderESP | IPv6ExtensionHeaderAuth
| IPv6ExtensionHeaderDest | IPv6ExtensionHeaderFrag | IPv6ExtensionHeaderRouter
| IPv6ExtensionHeaderHop | IPv6ExtensionHeaderUnrep | IPv6ExtensionHeaderUnseq
| MultipartRequestMode | MultipartReplyMode.

Scheme Equality for flag.

(** What a constant specification stands for: the repeated expression [1 << iota]
    of a block, or an expression of its own. *)
Inductive cexpr := Repeated | Shifted (k : N).

(** The const blocks in the order of the source: switch.go:12-44, port.go:14-77,
    124-147 and 185-198, flow.go:36-60, meter.go:28-40, group.go:355-371,
    match.go:249-282, multipart.go:140-143 and 148-151. *)
Definition block (b : bitmap) : list (flag * cexpr) :=
  match b with
  | BCapability =>
      [(CapabilityFlowStats, Repeated); (CapabilityTableStats, Repeated);
       (CapabilityPortStats, Repeated); (CapabilityGroupStats, Repeated);
       (CapabilityIPReasm, Repeated); (CapabilityQueueStats, Repeated);
       (CapabilityPortBlocked, Shifted 8)]
  | BPortFeature =>
      [(PortFeature10MbitHalfDuplex, Repeated); (PortFeature10MbitFullDuplex, Repeated);
       (PortFeature100MbitHalfDuplex, Repeated); (PortFeature100MbitFullDuplex, Repeated);
       (PortFeature1GbitHalfDuplex, Repeated); (PortFeature1GbitFullDuplex, Repeated);
       (PortFeature10GbitFullDuplex, Repeated); (PortFeature40GbitFullDuplex, Repeated);
       (PortFeature100GbitFullDuplex, Repeated); (PortFeature1TbitFullDuplex, Repeated);
       (PortFeatureOther, Repeated); (PortFeatureCopper, Repeated); (PortFeatureFiber, Repeated);
       (PortFeatureAutoneg, Repeated); (PortFeaturePause, Repeated);
       (PortFeaturePauseAsym, Repeated)]
  | BPortConfig =>
      [(PortConfigDown, Repeated); (PortConfigNoSTP, Repeated); (PortConfigNoRcv, Repeated);
       (PortConfigNoRcvSTP, Repeated); (PortConfigNoFlood, Repeated); (PortConfigNoFwd, Repeated);
       (PortConfigNoPacketIn, Repeated)]
  | BPortState =>
      [(PortStateLinkDown, Repeated); (PortStateBlocked, Repeated); (PortStateLive, Repeated)]
  | BFlowFlag =>
      [(FlowFlagSendFlowRem, Repeated); (FlowFlagCheckOverlap, Repeated);
       (FlowFlagResetCounts, Repeated); (FlowFlagNoPktCounts, Repeated);
       (FlowFlagNoByteCounts, Repeated)]
  | BMeterFlag =>
      [(MeterFlagKBitPerSec, Repeated); (MeterFlagPacketPerSec, Repeated);
       (MeterFlagBurst, Repeated); (MeterFlagStats, Repeated)]
  | BGroupCapability =>
      [(GroupCapabilitySelectWeight, Repeated); (GroupCapabilitySelectLiveness, Repeated);
       (GroupCapabilityChaining, Repeated); (GroupCapabilityChainingChecks, Repeated)]
  | BIPv6Ext =>
      [(IPv6ExtensionHeaderNoNext, Repeated); (IPv6ExtensionHeaderESP, Repeated);
       (IPv6ExtensionHeaderAuth, Repeated); (IPv6ExtensionHeaderDest, Repeated);
       (IPv6ExtensionHeaderFrag, Repeated); (IPv6ExtensionHeaderRouter, Repeated);
       (IPv6ExtensionHeaderHop, Repeated); (IPv6ExtensionHeaderUnrep, Repeated);
       (IPv6ExtensionHeaderUnseq, Repeated)]
  | BRequestFlag => [(MultipartRequestMode, Repeated)]
  | BReplyFlag => [(MultipartReplyMode, Repeated)]
  end.

(** The values of the constants of a block whose next entry is number [iota]. *)
Fixpoint constants (iota : N) (l : list (flag * cexpr)) : list (flag * N) :=
  match l with
  | [] => []
  | (f, Repeated) :: l' => (f, N.shiftl 1 iota) :: constants (iota + 1) l'
  | (f, Shifted k) :: l' => (f, N.shiftl 1 k) :: constants (iota + 1) l'
  end.

Fixpoint lookup (f : flag) (l : list (flag * N)) : option N :=
  match l with
  | [] => None
  | (g, v) :: l' => if flag_beq f g then Some v else lookup f l'
  end.

(** The value of constant [f], 0 when it is not of type [b] (such a program does
    not compile). *)
Definition value (b : bitmap) (f : flag) : N :=
  match lookup f (constants 0 (block b)) with Some v => v | None => 0%N end.

(** The test [x & f != 0] of a program for a bitmap x. *)
Definition has (b : bitmap) (x : N) (f : flag) : bool := negb (N.land x (value b f) =? 0)%N.

(** The expression [f1 | f2 | ...] of a program. *)
Fixpoint union (b : bitmap) (l : list flag) : N :=
  match l with [] => 0%N | f :: l' => N.lor (value b f) (union b l') end.
