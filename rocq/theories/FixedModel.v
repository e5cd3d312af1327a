(** Models of the fixed-size messages of the ofp package and of the message
    header.  One record per Go struct (field names as in Go), one encoder per
    [WriteTo] and one decoder per [ReadFrom], in the order the Go functions list
    the fields.  [set_X_f] assigns field [f]; [zero_X] is Go's zero value;
    [wf_X] is the range invariant of the Go field types.  Go strings and byte
    slices are byte lists (nil and empty slices are not distinguished). *)
From Verif Require Export Encoding.

(** Assignment without reading. *)
Definition assign {S} (g : S -> S) : step S := fun s inp => Res (g s) 0 None inp.

(** Assignment performed after the decoder whether or not it failed. *)
Definition finally {S} (g : S -> S) (f : step S) : step S := fun s inp =>
  let r := f s inp in Res (g (val r)) (cnt r) (fail r) (rest r).

(** A byte slice is read up to its current length ([binary.Read] into a
    pointer to a slice). *)
Definition fslice {S} (get : S -> bytes) (set : bytes -> S -> S) : step S := fun s inp =>
  fbytes (length (get s)) set s inp.

(** Header, header.go:206-220. *)
Record Header := MkHeader { Header_Version : N; Header_Type : N; Header_Length : N; Header_Transaction : N }.
(** Assignments to the fields of Header, its zero value and the ranges of its field types (header.go:206-220). *)
Definition set_Header_Version (v : N) (s : Header) : Header := MkHeader v (Header_Type s) (Header_Length s) (Header_Transaction s).
Definition set_Header_Type (v : N) (s : Header) : Header := MkHeader (Header_Version s) v (Header_Length s) (Header_Transaction s).
Definition set_Header_Length (v : N) (s : Header) : Header := MkHeader (Header_Version s) (Header_Type s) v (Header_Transaction s).
Definition set_Header_Transaction (v : N) (s : Header) : Header := MkHeader (Header_Version s) (Header_Type s) (Header_Length s) v.
Definition zero_Header : Header := MkHeader 0%N 0%N 0%N 0%N.
Definition wf_Header (m : Header) : Prop := fits 1 (Header_Version m) /\ fits 1 (Header_Type m) /\ fits 2 (Header_Length m) /\ fits 4 (Header_Transaction m).
(** Header.WriteTo, header.go:233-235. *)
Definition enc_Header (m : Header) : bytes :=
  concat [u8 (Header_Version m); u8 (Header_Type m); u16 (Header_Length m); u32 (Header_Transaction m)].
(** Header.ReadFrom, header.go:238-240. *)
Definition dec_Header : step Header :=
  seqr [fu 1 set_Header_Version; fu 1 set_Header_Type; fu 2 set_Header_Length; fu 4 set_Header_Transaction].

(** SwitchFeatures, ofp/switch.go:76-95. *)
Record SwitchFeatures := MkSwitchFeatures { SwitchFeatures_DatapathID : N; SwitchFeatures_NumBuffers : N; SwitchFeatures_NumTables : N; SwitchFeatures_AuxiliaryID : N; SwitchFeatures_Capabilities : N; SwitchFeatures_Reserved : N }.
(** Assignments to the fields of SwitchFeatures, its zero value and the ranges of its field types (ofp/switch.go:76-95). *)
Definition set_SwitchFeatures_DatapathID (v : N) (s : SwitchFeatures) : SwitchFeatures := MkSwitchFeatures v (SwitchFeatures_NumBuffers s) (SwitchFeatures_NumTables s) (SwitchFeatures_AuxiliaryID s) (SwitchFeatures_Capabilities s) (SwitchFeatures_Reserved s).
Definition set_SwitchFeatures_NumBuffers (v : N) (s : SwitchFeatures) : SwitchFeatures := MkSwitchFeatures (SwitchFeatures_DatapathID s) v (SwitchFeatures_NumTables s) (SwitchFeatures_AuxiliaryID s) (SwitchFeatures_Capabilities s) (SwitchFeatures_Reserved s).
Definition set_SwitchFeatures_NumTables (v : N) (s : SwitchFeatures) : SwitchFeatures := MkSwitchFeatures (SwitchFeatures_DatapathID s) (SwitchFeatures_NumBuffers s) v (SwitchFeatures_AuxiliaryID s) (SwitchFeatures_Capabilities s) (SwitchFeatures_Reserved s).
Definition set_SwitchFeatures_AuxiliaryID (v : N) (s : SwitchFeatures) : SwitchFeatures := MkSwitchFeatures (SwitchFeatures_DatapathID s) (SwitchFeatures_NumBuffers s) (SwitchFeatures_NumTables s) v (SwitchFeatures_Capabilities s) (SwitchFeatures_Reserved s).
Definition set_SwitchFeatures_Capabilities (v : N) (s : SwitchFeatures) : SwitchFeatures := MkSwitchFeatures (SwitchFeatures_DatapathID s) (SwitchFeatures_NumBuffers s) (SwitchFeatures_NumTables s) (SwitchFeatures_AuxiliaryID s) v (SwitchFeatures_Reserved s).
Definition set_SwitchFeatures_Reserved (v : N) (s : SwitchFeatures) : SwitchFeatures := MkSwitchFeatures (SwitchFeatures_DatapathID s) (SwitchFeatures_NumBuffers s) (SwitchFeatures_NumTables s) (SwitchFeatures_AuxiliaryID s) (SwitchFeatures_Capabilities s) v.
Definition zero_SwitchFeatures : SwitchFeatures := MkSwitchFeatures 0%N 0%N 0%N 0%N 0%N 0%N.
Definition wf_SwitchFeatures (m : SwitchFeatures) : Prop := fits 8 (SwitchFeatures_DatapathID m) /\ fits 4 (SwitchFeatures_NumBuffers m) /\ fits 1 (SwitchFeatures_NumTables m) /\ fits 1 (SwitchFeatures_AuxiliaryID m) /\ fits 4 (SwitchFeatures_Capabilities m) /\ fits 4 (SwitchFeatures_Reserved m).
(** SwitchFeatures.WriteTo, ofp/switch.go:99-103. *)
Definition enc_SwitchFeatures (m : SwitchFeatures) : bytes :=
  concat [u64 (SwitchFeatures_DatapathID m); u32 (SwitchFeatures_NumBuffers m); u8 (SwitchFeatures_NumTables m); u8 (SwitchFeatures_AuxiliaryID m); pad 2; u32 (SwitchFeatures_Capabilities m); u32 (SwitchFeatures_Reserved m)].
(** SwitchFeatures.ReadFrom, ofp/switch.go:107-111. *)
Definition dec_SwitchFeatures : step SwitchFeatures :=
  seqr [fu 8 set_SwitchFeatures_DatapathID; fu 4 set_SwitchFeatures_NumBuffers; fu 1 set_SwitchFeatures_NumTables; fu 1 set_SwitchFeatures_AuxiliaryID; fpad 2; fu 4 set_SwitchFeatures_Capabilities; fu 4 set_SwitchFeatures_Reserved].

(** SwitchConfig, ofp/switch.go:120-127. *)
Record SwitchConfig := MkSwitchConfig { SwitchConfig_Flags : N; SwitchConfig_MissSendLength : N }.
(** Assignments to the fields of SwitchConfig, its zero value and the ranges of its field types (ofp/switch.go:120-127). *)
Definition set_SwitchConfig_Flags (v : N) (s : SwitchConfig) : SwitchConfig := MkSwitchConfig v (SwitchConfig_MissSendLength s).
Definition set_SwitchConfig_MissSendLength (v : N) (s : SwitchConfig) : SwitchConfig := MkSwitchConfig (SwitchConfig_Flags s) v.
Definition zero_SwitchConfig : SwitchConfig := MkSwitchConfig 0%N 0%N.
Definition wf_SwitchConfig (m : SwitchConfig) : Prop := fits 2 (SwitchConfig_Flags m) /\ fits 2 (SwitchConfig_MissSendLength m).
(** SwitchConfig.WriteTo, ofp/switch.go:131-133. *)
Definition enc_SwitchConfig (m : SwitchConfig) : bytes :=
  concat [u16 (SwitchConfig_Flags m); u16 (SwitchConfig_MissSendLength m)].
(** SwitchConfig.ReadFrom, ofp/switch.go:137-139. *)
Definition dec_SwitchConfig : step SwitchConfig :=
  seqr [fu 2 set_SwitchConfig_Flags; fu 2 set_SwitchConfig_MissSendLength].

(** Experimenter, ofp/handshake.go:171-179. *)
Record Experimenter := MkExperimenter { Experimenter_Experimenter : N; Experimenter_ExpType : N }.
(** Assignments to the fields of Experimenter, its zero value and the ranges of its field types (ofp/handshake.go:171-179). *)
Definition set_Experimenter_Experimenter (v : N) (s : Experimenter) : Experimenter := MkExperimenter v (Experimenter_ExpType s).
Definition set_Experimenter_ExpType (v : N) (s : Experimenter) : Experimenter := MkExperimenter (Experimenter_Experimenter s) v.
Definition zero_Experimenter : Experimenter := MkExperimenter 0%N 0%N.
Definition wf_Experimenter (m : Experimenter) : Prop := fits 4 (Experimenter_Experimenter m) /\ fits 4 (Experimenter_ExpType m).
(** Experimenter.WriteTo, ofp/handshake.go:183-185. *)
Definition enc_Experimenter (m : Experimenter) : bytes :=
  concat [u32 (Experimenter_Experimenter m); u32 (Experimenter_ExpType m)].
(** Experimenter.ReadFrom, ofp/handshake.go:189-191. *)
Definition dec_Experimenter : step Experimenter :=
  seqr [fu 4 set_Experimenter_Experimenter; fu 4 set_Experimenter_ExpType].

(** RoleRequest, ofp/handshake.go:223-238. *)
Record RoleRequest := MkRoleRequest { RoleRequest_Role : N; RoleRequest_GenerationID : N }.
(** Assignments to the fields of RoleRequest, its zero value and the ranges of its field types (ofp/handshake.go:223-238). *)
Definition set_RoleRequest_Role (v : N) (s : RoleRequest) : RoleRequest := MkRoleRequest v (RoleRequest_GenerationID s).
Definition set_RoleRequest_GenerationID (v : N) (s : RoleRequest) : RoleRequest := MkRoleRequest (RoleRequest_Role s) v.
Definition zero_RoleRequest : RoleRequest := MkRoleRequest 0%N 0%N.
Definition wf_RoleRequest (m : RoleRequest) : Prop := fits 4 (RoleRequest_Role m) /\ fits 8 (RoleRequest_GenerationID m).
(** RoleRequest.WriteTo, ofp/handshake.go:242-244. *)
Definition enc_RoleRequest (m : RoleRequest) : bytes :=
  concat [u32 (RoleRequest_Role m); pad 4; u64 (RoleRequest_GenerationID m)].
(** RoleRequest.ReadFrom, ofp/handshake.go:248-250. *)
Definition dec_RoleRequest : step RoleRequest :=
  seqr [fu 4 set_RoleRequest_Role; fpad 4; fu 8 set_RoleRequest_GenerationID].

(** AsyncConfig, ofp/handshake.go:271-280. *)
Record AsyncConfig := MkAsyncConfig { AsyncConfig_PacketInMask : list N; AsyncConfig_PortStatusMask : list N; AsyncConfig_FlowRemovedMask : list N }.
(** Assignments to the fields of AsyncConfig, its zero value and the ranges of its field types (ofp/handshake.go:271-280). *)
Definition set_AsyncConfig_PacketInMask (v : list N) (s : AsyncConfig) : AsyncConfig := MkAsyncConfig v (AsyncConfig_PortStatusMask s) (AsyncConfig_FlowRemovedMask s).
Definition set_AsyncConfig_PortStatusMask (v : list N) (s : AsyncConfig) : AsyncConfig := MkAsyncConfig (AsyncConfig_PacketInMask s) v (AsyncConfig_FlowRemovedMask s).
Definition set_AsyncConfig_FlowRemovedMask (v : list N) (s : AsyncConfig) : AsyncConfig := MkAsyncConfig (AsyncConfig_PacketInMask s) (AsyncConfig_PortStatusMask s) v.
Definition zero_AsyncConfig : AsyncConfig := MkAsyncConfig (repeat 0%N 2) (repeat 0%N 2) (repeat 0%N 2).
Definition wf_AsyncConfig (m : AsyncConfig) : Prop := (length (AsyncConfig_PacketInMask m) = 2 /\ Forall (fits 4) (AsyncConfig_PacketInMask m)) /\ (length (AsyncConfig_PortStatusMask m) = 2 /\ Forall (fits 4) (AsyncConfig_PortStatusMask m)) /\ (length (AsyncConfig_FlowRemovedMask m) = 2 /\ Forall (fits 4) (AsyncConfig_FlowRemovedMask m)).
(** AsyncConfig.WriteTo, ofp/handshake.go:284-287. *)
Definition enc_AsyncConfig (m : AsyncConfig) : bytes :=
  concat [uarr 4 (AsyncConfig_PacketInMask m); uarr 4 (AsyncConfig_PortStatusMask m); uarr 4 (AsyncConfig_FlowRemovedMask m)].
(** AsyncConfig.ReadFrom, ofp/handshake.go:291-294. *)
Definition dec_AsyncConfig : step AsyncConfig :=
  seqr [fus 4 2 set_AsyncConfig_PacketInMask; fus 4 2 set_AsyncConfig_PortStatusMask; fus 4 2 set_AsyncConfig_FlowRemovedMask].

(** TableMod, ofp/table.go:44-54. *)
Record TableMod := MkTableMod { TableMod_Table : N; TableMod_Config : N }.
(** Assignments to the fields of TableMod, its zero value and the ranges of its field types (ofp/table.go:44-54). *)
Definition set_TableMod_Table (v : N) (s : TableMod) : TableMod := MkTableMod v (TableMod_Config s).
Definition set_TableMod_Config (v : N) (s : TableMod) : TableMod := MkTableMod (TableMod_Table s) v.
Definition zero_TableMod : TableMod := MkTableMod 0%N 0%N.
Definition wf_TableMod (m : TableMod) : Prop := fits 1 (TableMod_Table m) /\ fits 4 (TableMod_Config m).
(** TableMod.WriteTo, ofp/table.go:58-60. *)
Definition enc_TableMod (m : TableMod) : bytes :=
  concat [u8 (TableMod_Table m); pad 3; u32 (TableMod_Config m)].
(** TableMod.ReadFrom, ofp/table.go:64-66. *)
Definition dec_TableMod : step TableMod :=
  seqr [fu 1 set_TableMod_Table; fpad 3; fu 4 set_TableMod_Config].

(** TableStats, ofp/table.go:70-83. *)
Record TableStats := MkTableStats { TableStats_Table : N; TableStats_ActiveCount : N; TableStats_LookupCount : N; TableStats_MatchedCount : N }.
(** Assignments to the fields of TableStats, its zero value and the ranges of its field types (ofp/table.go:70-83). *)
Definition set_TableStats_Table (v : N) (s : TableStats) : TableStats := MkTableStats v (TableStats_ActiveCount s) (TableStats_LookupCount s) (TableStats_MatchedCount s).
Definition set_TableStats_ActiveCount (v : N) (s : TableStats) : TableStats := MkTableStats (TableStats_Table s) v (TableStats_LookupCount s) (TableStats_MatchedCount s).
Definition set_TableStats_LookupCount (v : N) (s : TableStats) : TableStats := MkTableStats (TableStats_Table s) (TableStats_ActiveCount s) v (TableStats_MatchedCount s).
Definition set_TableStats_MatchedCount (v : N) (s : TableStats) : TableStats := MkTableStats (TableStats_Table s) (TableStats_ActiveCount s) (TableStats_LookupCount s) v.
Definition zero_TableStats : TableStats := MkTableStats 0%N 0%N 0%N 0%N.
Definition wf_TableStats (m : TableStats) : Prop := fits 1 (TableStats_Table m) /\ fits 4 (TableStats_ActiveCount m) /\ fits 8 (TableStats_LookupCount m) /\ fits 8 (TableStats_MatchedCount m).
(** TableStats.WriteTo, ofp/table.go:87-90. *)
Definition enc_TableStats (m : TableStats) : bytes :=
  concat [u8 (TableStats_Table m); pad 3; u32 (TableStats_ActiveCount m); u64 (TableStats_LookupCount m); u64 (TableStats_MatchedCount m)].
(** TableStats.ReadFrom, ofp/table.go:94-97. *)
Definition dec_TableStats : step TableStats :=
  seqr [fu 1 set_TableStats_Table; fpad 3; fu 4 set_TableStats_ActiveCount; fu 8 set_TableStats_LookupCount; fu 8 set_TableStats_MatchedCount].

(** PortStatsRequest, ofp/port.go:442-448. *)
Record PortStatsRequest := MkPortStatsRequest { PortStatsRequest_PortNo : N }.
(** Assignments to the fields of PortStatsRequest, its zero value and the ranges of its field types (ofp/port.go:442-448). *)
Definition set_PortStatsRequest_PortNo (v : N) (s : PortStatsRequest) : PortStatsRequest := MkPortStatsRequest v.
Definition zero_PortStatsRequest : PortStatsRequest := MkPortStatsRequest 0%N.
Definition wf_PortStatsRequest (m : PortStatsRequest) : Prop := fits 4 (PortStatsRequest_PortNo m).
(** PortStatsRequest.WriteTo, ofp/port.go:452-454. *)
Definition enc_PortStatsRequest (m : PortStatsRequest) : bytes :=
  concat [u32 (PortStatsRequest_PortNo m); pad 4].
(** PortStatsRequest.ReadFrom, ofp/port.go:458-460. *)
Definition dec_PortStatsRequest : step PortStatsRequest :=
  seqr [fu 4 set_PortStatsRequest_PortNo; fpad 4].

(** PortStats, ofp/port.go:464-512. *)
Record PortStats := MkPortStats { PortStats_PortNo : N; PortStats_RxPackets : N; PortStats_TxPackets : N; PortStats_RxBytes : N; PortStats_TxBytes : N; PortStats_RxDropped : N; PortStats_TxDropped : N; PortStats_RxErrors : N; PortStats_TxErrors : N; PortStats_RxFrameErr : N; PortStats_RxOverErr : N; PortStats_RxCrcErr : N; PortStats_Collisions : N; PortStats_DurationSec : N; PortStats_DurationNSec : N }.
(** Assignments to the fields of PortStats, its zero value and the ranges of its field types (ofp/port.go:464-512). *)
Definition set_PortStats_PortNo (v : N) (s : PortStats) : PortStats := MkPortStats v (PortStats_RxPackets s) (PortStats_TxPackets s) (PortStats_RxBytes s) (PortStats_TxBytes s) (PortStats_RxDropped s) (PortStats_TxDropped s) (PortStats_RxErrors s) (PortStats_TxErrors s) (PortStats_RxFrameErr s) (PortStats_RxOverErr s) (PortStats_RxCrcErr s) (PortStats_Collisions s) (PortStats_DurationSec s) (PortStats_DurationNSec s).
Definition set_PortStats_RxPackets (v : N) (s : PortStats) : PortStats := MkPortStats (PortStats_PortNo s) v (PortStats_TxPackets s) (PortStats_RxBytes s) (PortStats_TxBytes s) (PortStats_RxDropped s) (PortStats_TxDropped s) (PortStats_RxErrors s) (PortStats_TxErrors s) (PortStats_RxFrameErr s) (PortStats_RxOverErr s) (PortStats_RxCrcErr s) (PortStats_Collisions s) (PortStats_DurationSec s) (PortStats_DurationNSec s).
Definition set_PortStats_TxPackets (v : N) (s : PortStats) : PortStats := MkPortStats (PortStats_PortNo s) (PortStats_RxPackets s) v (PortStats_RxBytes s) (PortStats_TxBytes s) (PortStats_RxDropped s) (PortStats_TxDropped s) (PortStats_RxErrors s) (PortStats_TxErrors s) (PortStats_RxFrameErr s) (PortStats_RxOverErr s) (PortStats_RxCrcErr s) (PortStats_Collisions s) (PortStats_DurationSec s) (PortStats_DurationNSec s).
Definition set_PortStats_RxBytes (v : N) (s : PortStats) : PortStats := MkPortStats (PortStats_PortNo s) (PortStats_RxPackets s) (PortStats_TxPackets s) v (PortStats_TxBytes s) (PortStats_RxDropped s) (PortStats_TxDropped s) (PortStats_RxErrors s) (PortStats_TxErrors s) (PortStats_RxFrameErr s) (PortStats_RxOverErr s) (PortStats_RxCrcErr s) (PortStats_Collisions s) (PortStats_DurationSec s) (PortStats_DurationNSec s).
Definition set_PortStats_TxBytes (v : N) (s : PortStats) : PortStats := MkPortStats (PortStats_PortNo s) (PortStats_RxPackets s) (PortStats_TxPackets s) (PortStats_RxBytes s) v (PortStats_RxDropped s) (PortStats_TxDropped s) (PortStats_RxErrors s) (PortStats_TxErrors s) (PortStats_RxFrameErr s) (PortStats_RxOverErr s) (PortStats_RxCrcErr s) (PortStats_Collisions s) (PortStats_DurationSec s) (PortStats_DurationNSec s).
Definition set_PortStats_RxDropped (v : N) (s : PortStats) : PortStats := MkPortStats (PortStats_PortNo s) (PortStats_RxPackets s) (PortStats_TxPackets s) (PortStats_RxBytes s) (PortStats_TxBytes s) v (PortStats_TxDropped s) (PortStats_RxErrors s) (PortStats_TxErrors s) (PortStats_RxFrameErr s) (PortStats_RxOverErr s) (PortStats_RxCrcErr s) (PortStats_Collisions s) (PortStats_DurationSec s) (PortStats_DurationNSec s).
Definition set_PortStats_TxDropped (v : N) (s : PortStats) : PortStats := MkPortStats (PortStats_PortNo s) (PortStats_RxPackets s) (PortStats_TxPackets s) (PortStats_RxBytes s) (PortStats_TxBytes s) (PortStats_RxDropped s) v (PortStats_RxErrors s) (PortStats_TxErrors s) (PortStats_RxFrameErr s) (PortStats_RxOverErr s) (PortStats_RxCrcErr s) (PortStats_Collisions s) (PortStats_DurationSec s) (PortStats_DurationNSec s).
Definition set_PortStats_RxErrors (v : N) (s : PortStats) : PortStats := MkPortStats (PortStats_PortNo s) (PortStats_RxPackets s) (PortStats_TxPackets s) (PortStats_RxBytes s) (PortStats_TxBytes s) (PortStats_RxDropped s) (PortStats_TxDropped s) v (PortStats_TxErrors s) (PortStats_RxFrameErr s) (PortStats_RxOverErr s) (PortStats_RxCrcErr s) (PortStats_Collisions s) (PortStats_DurationSec s) (PortStats_DurationNSec s).
Definition set_PortStats_TxErrors (v : N) (s : PortStats) : PortStats := MkPortStats (PortStats_PortNo s) (PortStats_RxPackets s) (PortStats_TxPackets s) (PortStats_RxBytes s) (PortStats_TxBytes s) (PortStats_RxDropped s) (PortStats_TxDropped s) (PortStats_RxErrors s) v (PortStats_RxFrameErr s) (PortStats_RxOverErr s) (PortStats_RxCrcErr s) (PortStats_Collisions s) (PortStats_DurationSec s) (PortStats_DurationNSec s).
Definition set_PortStats_RxFrameErr (v : N) (s : PortStats) : PortStats := MkPortStats (PortStats_PortNo s) (PortStats_RxPackets s) (PortStats_TxPackets s) (PortStats_RxBytes s) (PortStats_TxBytes s) (PortStats_RxDropped s) (PortStats_TxDropped s) (PortStats_RxErrors s) (PortStats_TxErrors s) v (PortStats_RxOverErr s) (PortStats_RxCrcErr s) (PortStats_Collisions s) (PortStats_DurationSec s) (PortStats_DurationNSec s).
Definition set_PortStats_RxOverErr (v : N) (s : PortStats) : PortStats := MkPortStats (PortStats_PortNo s) (PortStats_RxPackets s) (PortStats_TxPackets s) (PortStats_RxBytes s) (PortStats_TxBytes s) (PortStats_RxDropped s) (PortStats_TxDropped s) (PortStats_RxErrors s) (PortStats_TxErrors s) (PortStats_RxFrameErr s) v (PortStats_RxCrcErr s) (PortStats_Collisions s) (PortStats_DurationSec s) (PortStats_DurationNSec s).
Definition set_PortStats_RxCrcErr (v : N) (s : PortStats) : PortStats := MkPortStats (PortStats_PortNo s) (PortStats_RxPackets s) (PortStats_TxPackets s) (PortStats_RxBytes s) (PortStats_TxBytes s) (PortStats_RxDropped s) (PortStats_TxDropped s) (PortStats_RxErrors s) (PortStats_TxErrors s) (PortStats_RxFrameErr s) (PortStats_RxOverErr s) v (PortStats_Collisions s) (PortStats_DurationSec s) (PortStats_DurationNSec s).
Definition set_PortStats_Collisions (v : N) (s : PortStats) : PortStats := MkPortStats (PortStats_PortNo s) (PortStats_RxPackets s) (PortStats_TxPackets s) (PortStats_RxBytes s) (PortStats_TxBytes s) (PortStats_RxDropped s) (PortStats_TxDropped s) (PortStats_RxErrors s) (PortStats_TxErrors s) (PortStats_RxFrameErr s) (PortStats_RxOverErr s) (PortStats_RxCrcErr s) v (PortStats_DurationSec s) (PortStats_DurationNSec s).
Definition set_PortStats_DurationSec (v : N) (s : PortStats) : PortStats := MkPortStats (PortStats_PortNo s) (PortStats_RxPackets s) (PortStats_TxPackets s) (PortStats_RxBytes s) (PortStats_TxBytes s) (PortStats_RxDropped s) (PortStats_TxDropped s) (PortStats_RxErrors s) (PortStats_TxErrors s) (PortStats_RxFrameErr s) (PortStats_RxOverErr s) (PortStats_RxCrcErr s) (PortStats_Collisions s) v (PortStats_DurationNSec s).
Definition set_PortStats_DurationNSec (v : N) (s : PortStats) : PortStats := MkPortStats (PortStats_PortNo s) (PortStats_RxPackets s) (PortStats_TxPackets s) (PortStats_RxBytes s) (PortStats_TxBytes s) (PortStats_RxDropped s) (PortStats_TxDropped s) (PortStats_RxErrors s) (PortStats_TxErrors s) (PortStats_RxFrameErr s) (PortStats_RxOverErr s) (PortStats_RxCrcErr s) (PortStats_Collisions s) (PortStats_DurationSec s) v.
Definition zero_PortStats : PortStats := MkPortStats 0%N 0%N 0%N 0%N 0%N 0%N 0%N 0%N 0%N 0%N 0%N 0%N 0%N 0%N 0%N.
Definition wf_PortStats (m : PortStats) : Prop := fits 4 (PortStats_PortNo m) /\ fits 8 (PortStats_RxPackets m) /\ fits 8 (PortStats_TxPackets m) /\ fits 8 (PortStats_RxBytes m) /\ fits 8 (PortStats_TxBytes m) /\ fits 8 (PortStats_RxDropped m) /\ fits 8 (PortStats_TxDropped m) /\ fits 8 (PortStats_RxErrors m) /\ fits 8 (PortStats_TxErrors m) /\ fits 8 (PortStats_RxFrameErr m) /\ fits 8 (PortStats_RxOverErr m) /\ fits 8 (PortStats_RxCrcErr m) /\ fits 8 (PortStats_Collisions m) /\ fits 4 (PortStats_DurationSec m) /\ fits 4 (PortStats_DurationNSec m).
(** PortStats.WriteTo, ofp/port.go:516-522. *)
Definition enc_PortStats (m : PortStats) : bytes :=
  concat [u32 (PortStats_PortNo m); pad 4; u64 (PortStats_RxPackets m); u64 (PortStats_TxPackets m); u64 (PortStats_RxBytes m); u64 (PortStats_TxBytes m); u64 (PortStats_RxDropped m); u64 (PortStats_TxDropped m); u64 (PortStats_RxErrors m); u64 (PortStats_TxErrors m); u64 (PortStats_RxFrameErr m); u64 (PortStats_RxOverErr m); u64 (PortStats_RxCrcErr m); u64 (PortStats_Collisions m); u32 (PortStats_DurationSec m); u32 (PortStats_DurationNSec m)].
(** PortStats.ReadFrom, ofp/port.go:526-532. *)
Definition dec_PortStats : step PortStats :=
  seqr [fu 4 set_PortStats_PortNo; fpad 4; fu 8 set_PortStats_RxPackets; fu 8 set_PortStats_TxPackets; fu 8 set_PortStats_RxBytes; fu 8 set_PortStats_TxBytes; fu 8 set_PortStats_RxDropped; fu 8 set_PortStats_TxDropped; fu 8 set_PortStats_RxErrors; fu 8 set_PortStats_TxErrors; fu 8 set_PortStats_RxFrameErr; fu 8 set_PortStats_RxOverErr; fu 8 set_PortStats_RxCrcErr; fu 8 set_PortStats_Collisions; fu 4 set_PortStats_DurationSec; fu 4 set_PortStats_DurationNSec].

(** QueueStatsRequest, ofp/queue.go:259-265. *)
Record QueueStatsRequest := MkQueueStatsRequest { QueueStatsRequest_Port : N; QueueStatsRequest_Queue : N }.
(** Assignments to the fields of QueueStatsRequest, its zero value and the ranges of its field types (ofp/queue.go:259-265). *)
Definition set_QueueStatsRequest_Port (v : N) (s : QueueStatsRequest) : QueueStatsRequest := MkQueueStatsRequest v (QueueStatsRequest_Queue s).
Definition set_QueueStatsRequest_Queue (v : N) (s : QueueStatsRequest) : QueueStatsRequest := MkQueueStatsRequest (QueueStatsRequest_Port s) v.
Definition zero_QueueStatsRequest : QueueStatsRequest := MkQueueStatsRequest 0%N 0%N.
Definition wf_QueueStatsRequest (m : QueueStatsRequest) : Prop := fits 4 (QueueStatsRequest_Port m) /\ fits 4 (QueueStatsRequest_Queue m).
(** QueueStatsRequest.WriteTo, ofp/queue.go:269-271. *)
Definition enc_QueueStatsRequest (m : QueueStatsRequest) : bytes :=
  concat [u32 (QueueStatsRequest_Port m); u32 (QueueStatsRequest_Queue m)].
(** QueueStatsRequest.ReadFrom, ofp/queue.go:275-277. *)
Definition dec_QueueStatsRequest : step QueueStatsRequest :=
  seqr [fu 4 set_QueueStatsRequest_Port; fu 4 set_QueueStatsRequest_Queue].

(** QueueStats, ofp/queue.go:282-304. *)
Record QueueStats := MkQueueStats { QueueStats_Port : N; QueueStats_Queue : N; QueueStats_TxBytes : N; QueueStats_TxPackets : N; QueueStats_TxErrors : N; QueueStats_DurationSec : N; QueueStats_DurationNSec : N }.
(** Assignments to the fields of QueueStats, its zero value and the ranges of its field types (ofp/queue.go:282-304). *)
Definition set_QueueStats_Port (v : N) (s : QueueStats) : QueueStats := MkQueueStats v (QueueStats_Queue s) (QueueStats_TxBytes s) (QueueStats_TxPackets s) (QueueStats_TxErrors s) (QueueStats_DurationSec s) (QueueStats_DurationNSec s).
Definition set_QueueStats_Queue (v : N) (s : QueueStats) : QueueStats := MkQueueStats (QueueStats_Port s) v (QueueStats_TxBytes s) (QueueStats_TxPackets s) (QueueStats_TxErrors s) (QueueStats_DurationSec s) (QueueStats_DurationNSec s).
Definition set_QueueStats_TxBytes (v : N) (s : QueueStats) : QueueStats := MkQueueStats (QueueStats_Port s) (QueueStats_Queue s) v (QueueStats_TxPackets s) (QueueStats_TxErrors s) (QueueStats_DurationSec s) (QueueStats_DurationNSec s).
Definition set_QueueStats_TxPackets (v : N) (s : QueueStats) : QueueStats := MkQueueStats (QueueStats_Port s) (QueueStats_Queue s) (QueueStats_TxBytes s) v (QueueStats_TxErrors s) (QueueStats_DurationSec s) (QueueStats_DurationNSec s).
Definition set_QueueStats_TxErrors (v : N) (s : QueueStats) : QueueStats := MkQueueStats (QueueStats_Port s) (QueueStats_Queue s) (QueueStats_TxBytes s) (QueueStats_TxPackets s) v (QueueStats_DurationSec s) (QueueStats_DurationNSec s).
Definition set_QueueStats_DurationSec (v : N) (s : QueueStats) : QueueStats := MkQueueStats (QueueStats_Port s) (QueueStats_Queue s) (QueueStats_TxBytes s) (QueueStats_TxPackets s) (QueueStats_TxErrors s) v (QueueStats_DurationNSec s).
Definition set_QueueStats_DurationNSec (v : N) (s : QueueStats) : QueueStats := MkQueueStats (QueueStats_Port s) (QueueStats_Queue s) (QueueStats_TxBytes s) (QueueStats_TxPackets s) (QueueStats_TxErrors s) (QueueStats_DurationSec s) v.
Definition zero_QueueStats : QueueStats := MkQueueStats 0%N 0%N 0%N 0%N 0%N 0%N 0%N.
Definition wf_QueueStats (m : QueueStats) : Prop := fits 4 (QueueStats_Port m) /\ fits 4 (QueueStats_Queue m) /\ fits 8 (QueueStats_TxBytes m) /\ fits 8 (QueueStats_TxPackets m) /\ fits 8 (QueueStats_TxErrors m) /\ fits 4 (QueueStats_DurationSec m) /\ fits 4 (QueueStats_DurationNSec m).
(** QueueStats.WriteTo, ofp/queue.go:308-310. *)
Definition enc_QueueStats (m : QueueStats) : bytes :=
  concat [u32 (QueueStats_Port m); u32 (QueueStats_Queue m); u64 (QueueStats_TxBytes m); u64 (QueueStats_TxPackets m); u64 (QueueStats_TxErrors m); u32 (QueueStats_DurationSec m); u32 (QueueStats_DurationNSec m)].
(** QueueStats.ReadFrom, ofp/queue.go:314-317. *)
Definition dec_QueueStats : step QueueStats :=
  seqr [fu 4 set_QueueStats_Port; fu 4 set_QueueStats_Queue; fu 8 set_QueueStats_TxBytes; fu 8 set_QueueStats_TxPackets; fu 8 set_QueueStats_TxErrors; fu 4 set_QueueStats_DurationSec; fu 4 set_QueueStats_DurationNSec].

(** QueueGetConfigRequest, ofp/queue.go:321-326. *)
Record QueueGetConfigRequest := MkQueueGetConfigRequest { QueueGetConfigRequest_Port : N }.
(** Assignments to the fields of QueueGetConfigRequest, its zero value and the ranges of its field types (ofp/queue.go:321-326). *)
Definition set_QueueGetConfigRequest_Port (v : N) (s : QueueGetConfigRequest) : QueueGetConfigRequest := MkQueueGetConfigRequest v.
Definition zero_QueueGetConfigRequest : QueueGetConfigRequest := MkQueueGetConfigRequest 0%N.
Definition wf_QueueGetConfigRequest (m : QueueGetConfigRequest) : Prop := fits 4 (QueueGetConfigRequest_Port m).
(** QueueGetConfigRequest.WriteTo, ofp/queue.go:330-332. *)
Definition enc_QueueGetConfigRequest (m : QueueGetConfigRequest) : bytes :=
  concat [u32 (QueueGetConfigRequest_Port m); pad 4].
(** QueueGetConfigRequest.ReadFrom, ofp/queue.go:337-339. *)
Definition dec_QueueGetConfigRequest : step QueueGetConfigRequest :=
  seqr [fu 4 set_QueueGetConfigRequest_Port; fpad 4].

(** GroupStatsRequest, ofp/group.go:193-196. *)
Record GroupStatsRequest := MkGroupStatsRequest { GroupStatsRequest_Group : N }.
(** Assignments to the fields of GroupStatsRequest, its zero value and the ranges of its field types (ofp/group.go:193-196). *)
Definition set_GroupStatsRequest_Group (v : N) (s : GroupStatsRequest) : GroupStatsRequest := MkGroupStatsRequest v.
Definition zero_GroupStatsRequest : GroupStatsRequest := MkGroupStatsRequest 0%N.
Definition wf_GroupStatsRequest (m : GroupStatsRequest) : Prop := fits 4 (GroupStatsRequest_Group m).
(** GroupStatsRequest.WriteTo, ofp/group.go:200-202. *)
Definition enc_GroupStatsRequest (m : GroupStatsRequest) : bytes :=
  concat [u32 (GroupStatsRequest_Group m); pad 4].
(** GroupStatsRequest.ReadFrom, ofp/group.go:206-208. *)
Definition dec_GroupStatsRequest : step GroupStatsRequest :=
  seqr [fu 4 set_GroupStatsRequest_Group; fpad 4].

(** BucketCounter, ofp/group.go:277-283. *)
Record BucketCounter := MkBucketCounter { BucketCounter_PacketCount : N; BucketCounter_ByteCount : N }.
(** Assignments to the fields of BucketCounter, its zero value and the ranges of its field types (ofp/group.go:277-283). *)
Definition set_BucketCounter_PacketCount (v : N) (s : BucketCounter) : BucketCounter := MkBucketCounter v (BucketCounter_ByteCount s).
Definition set_BucketCounter_ByteCount (v : N) (s : BucketCounter) : BucketCounter := MkBucketCounter (BucketCounter_PacketCount s) v.
Definition zero_BucketCounter : BucketCounter := MkBucketCounter 0%N 0%N.
Definition wf_BucketCounter (m : BucketCounter) : Prop := fits 8 (BucketCounter_PacketCount m) /\ fits 8 (BucketCounter_ByteCount m).
(** BucketCounter.WriteTo, ofp/group.go:287-289. *)
Definition enc_BucketCounter (m : BucketCounter) : bytes :=
  concat [u64 (BucketCounter_PacketCount m); u64 (BucketCounter_ByteCount m)].
(** BucketCounter.ReadFrom, ofp/group.go:293-295. *)
Definition dec_BucketCounter : step BucketCounter :=
  seqr [fu 8 set_BucketCounter_PacketCount; fu 8 set_BucketCounter_ByteCount].

(** GroupFeatures, ofp/group.go:421-433. *)
Record GroupFeatures := MkGroupFeatures { GroupFeatures_Types : N; GroupFeatures_Capabilities : N; GroupFeatures_MaxGroups : list N; GroupFeatures_Actions : list N }.
(** Assignments to the fields of GroupFeatures, its zero value and the ranges of its field types (ofp/group.go:421-433). *)
Definition set_GroupFeatures_Types (v : N) (s : GroupFeatures) : GroupFeatures := MkGroupFeatures v (GroupFeatures_Capabilities s) (GroupFeatures_MaxGroups s) (GroupFeatures_Actions s).
Definition set_GroupFeatures_Capabilities (v : N) (s : GroupFeatures) : GroupFeatures := MkGroupFeatures (GroupFeatures_Types s) v (GroupFeatures_MaxGroups s) (GroupFeatures_Actions s).
Definition set_GroupFeatures_MaxGroups (v : list N) (s : GroupFeatures) : GroupFeatures := MkGroupFeatures (GroupFeatures_Types s) (GroupFeatures_Capabilities s) v (GroupFeatures_Actions s).
Definition set_GroupFeatures_Actions (v : list N) (s : GroupFeatures) : GroupFeatures := MkGroupFeatures (GroupFeatures_Types s) (GroupFeatures_Capabilities s) (GroupFeatures_MaxGroups s) v.
Definition zero_GroupFeatures : GroupFeatures := MkGroupFeatures 0%N 0%N (repeat 0%N 4) (repeat 0%N 4).
Definition wf_GroupFeatures (m : GroupFeatures) : Prop := fits 4 (GroupFeatures_Types m) /\ fits 4 (GroupFeatures_Capabilities m) /\ (length (GroupFeatures_MaxGroups m) = 4 /\ Forall (fits 4) (GroupFeatures_MaxGroups m)) /\ (length (GroupFeatures_Actions m) = 4 /\ Forall (fits 4) (GroupFeatures_Actions m)).
(** GroupFeatures.WriteTo, ofp/group.go:437-440. *)
Definition enc_GroupFeatures (m : GroupFeatures) : bytes :=
  concat [u32 (GroupFeatures_Types m); u32 (GroupFeatures_Capabilities m); uarr 4 (GroupFeatures_MaxGroups m); uarr 4 (GroupFeatures_Actions m)].
(** GroupFeatures.ReadFrom, ofp/group.go:444-447. *)
Definition dec_GroupFeatures : step GroupFeatures :=
  seqr [fu 4 set_GroupFeatures_Types; fu 4 set_GroupFeatures_Capabilities; fus 4 4 set_GroupFeatures_MaxGroups; fus 4 4 set_GroupFeatures_Actions].

(** MeterConfigRequest, ofp/meter.go:289-292. *)
Record MeterConfigRequest := MkMeterConfigRequest { MeterConfigRequest_Meter : N }.
(** Assignments to the fields of MeterConfigRequest, its zero value and the ranges of its field types (ofp/meter.go:289-292). *)
Definition set_MeterConfigRequest_Meter (v : N) (s : MeterConfigRequest) : MeterConfigRequest := MkMeterConfigRequest v.
Definition zero_MeterConfigRequest : MeterConfigRequest := MkMeterConfigRequest 0%N.
Definition wf_MeterConfigRequest (m : MeterConfigRequest) : Prop := fits 4 (MeterConfigRequest_Meter m).
(** MeterConfigRequest.WriteTo, ofp/meter.go:296-298. *)
Definition enc_MeterConfigRequest (m : MeterConfigRequest) : bytes :=
  concat [u32 (MeterConfigRequest_Meter m); pad 4].
(** MeterConfigRequest.ReadFrom, ofp/meter.go:302-304. *)
Definition dec_MeterConfigRequest : step MeterConfigRequest :=
  seqr [fu 4 set_MeterConfigRequest_Meter; fpad 4].

(** MeterFeatures, ofp/meter.go:362-377. *)
Record MeterFeatures := MkMeterFeatures { MeterFeatures_MaxMeter : N; MeterFeatures_BandTypes : N; MeterFeatures_Capabilities : N; MeterFeatures_MaxBands : N; MeterFeatures_MaxColor : N }.
(** Assignments to the fields of MeterFeatures, its zero value and the ranges of its field types (ofp/meter.go:362-377). *)
Definition set_MeterFeatures_MaxMeter (v : N) (s : MeterFeatures) : MeterFeatures := MkMeterFeatures v (MeterFeatures_BandTypes s) (MeterFeatures_Capabilities s) (MeterFeatures_MaxBands s) (MeterFeatures_MaxColor s).
Definition set_MeterFeatures_BandTypes (v : N) (s : MeterFeatures) : MeterFeatures := MkMeterFeatures (MeterFeatures_MaxMeter s) v (MeterFeatures_Capabilities s) (MeterFeatures_MaxBands s) (MeterFeatures_MaxColor s).
Definition set_MeterFeatures_Capabilities (v : N) (s : MeterFeatures) : MeterFeatures := MkMeterFeatures (MeterFeatures_MaxMeter s) (MeterFeatures_BandTypes s) v (MeterFeatures_MaxBands s) (MeterFeatures_MaxColor s).
Definition set_MeterFeatures_MaxBands (v : N) (s : MeterFeatures) : MeterFeatures := MkMeterFeatures (MeterFeatures_MaxMeter s) (MeterFeatures_BandTypes s) (MeterFeatures_Capabilities s) v (MeterFeatures_MaxColor s).
Definition set_MeterFeatures_MaxColor (v : N) (s : MeterFeatures) : MeterFeatures := MkMeterFeatures (MeterFeatures_MaxMeter s) (MeterFeatures_BandTypes s) (MeterFeatures_Capabilities s) (MeterFeatures_MaxBands s) v.
Definition zero_MeterFeatures : MeterFeatures := MkMeterFeatures 0%N 0%N 0%N 0%N 0%N.
Definition wf_MeterFeatures (m : MeterFeatures) : Prop := fits 4 (MeterFeatures_MaxMeter m) /\ fits 4 (MeterFeatures_BandTypes m) /\ fits 4 (MeterFeatures_Capabilities m) /\ fits 1 (MeterFeatures_MaxBands m) /\ fits 1 (MeterFeatures_MaxColor m).
(** MeterFeatures.WriteTo, ofp/meter.go:381-384. *)
Definition enc_MeterFeatures (m : MeterFeatures) : bytes :=
  concat [u32 (MeterFeatures_MaxMeter m); u32 (MeterFeatures_BandTypes m); u32 (MeterFeatures_Capabilities m); u8 (MeterFeatures_MaxBands m); u8 (MeterFeatures_MaxColor m); pad 2].
(** MeterFeatures.ReadFrom, ofp/meter.go:388-391. *)
Definition dec_MeterFeatures : step MeterFeatures :=
  seqr [fu 4 set_MeterFeatures_MaxMeter; fu 4 set_MeterFeatures_BandTypes; fu 4 set_MeterFeatures_Capabilities; fu 1 set_MeterFeatures_MaxBands; fu 1 set_MeterFeatures_MaxColor; fpad 2].

(** MeterBandStats, ofp/meter.go:395-401. *)
Record MeterBandStats := MkMeterBandStats { MeterBandStats_PacketBandCount : N; MeterBandStats_ByteBandCount : N }.
(** Assignments to the fields of MeterBandStats, its zero value and the ranges of its field types (ofp/meter.go:395-401). *)
Definition set_MeterBandStats_PacketBandCount (v : N) (s : MeterBandStats) : MeterBandStats := MkMeterBandStats v (MeterBandStats_ByteBandCount s).
Definition set_MeterBandStats_ByteBandCount (v : N) (s : MeterBandStats) : MeterBandStats := MkMeterBandStats (MeterBandStats_PacketBandCount s) v.
Definition zero_MeterBandStats : MeterBandStats := MkMeterBandStats 0%N 0%N.
Definition wf_MeterBandStats (m : MeterBandStats) : Prop := fits 8 (MeterBandStats_PacketBandCount m) /\ fits 8 (MeterBandStats_ByteBandCount m).
(** MeterBandStats.WriteTo, ofp/meter.go:405-407. *)
Definition enc_MeterBandStats (m : MeterBandStats) : bytes :=
  concat [u64 (MeterBandStats_PacketBandCount m); u64 (MeterBandStats_ByteBandCount m)].
(** MeterBandStats.ReadFrom, ofp/meter.go:411-413. *)
Definition dec_MeterBandStats : step MeterBandStats :=
  seqr [fu 8 set_MeterBandStats_PacketBandCount; fu 8 set_MeterBandStats_ByteBandCount].

(** MeterStatsRequest, ofp/meter.go:417-420. *)
Record MeterStatsRequest := MkMeterStatsRequest { MeterStatsRequest_Meter : N }.
(** Assignments to the fields of MeterStatsRequest, its zero value and the ranges of its field types (ofp/meter.go:417-420). *)
Definition set_MeterStatsRequest_Meter (v : N) (s : MeterStatsRequest) : MeterStatsRequest := MkMeterStatsRequest v.
Definition zero_MeterStatsRequest : MeterStatsRequest := MkMeterStatsRequest 0%N.
Definition wf_MeterStatsRequest (m : MeterStatsRequest) : Prop := fits 4 (MeterStatsRequest_Meter m).
(** MeterStatsRequest.WriteTo, ofp/meter.go:424-426. *)
Definition enc_MeterStatsRequest (m : MeterStatsRequest) : bytes :=
  concat [u32 (MeterStatsRequest_Meter m); pad 4].
(** MeterStatsRequest.ReadFrom, ofp/meter.go:430-432. *)
Definition dec_MeterStatsRequest : step MeterStatsRequest :=
  seqr [fu 4 set_MeterStatsRequest_Meter; fpad 4].

(** AggregateStats, ofp/aggregate.go:83-92. *)
Record AggregateStats := MkAggregateStats { AggregateStats_PacketCount : N; AggregateStats_ByteCount : N; AggregateStats_FlowCount : N }.
(** Assignments to the fields of AggregateStats, its zero value and the ranges of its field types (ofp/aggregate.go:83-92). *)
Definition set_AggregateStats_PacketCount (v : N) (s : AggregateStats) : AggregateStats := MkAggregateStats v (AggregateStats_ByteCount s) (AggregateStats_FlowCount s).
Definition set_AggregateStats_ByteCount (v : N) (s : AggregateStats) : AggregateStats := MkAggregateStats (AggregateStats_PacketCount s) v (AggregateStats_FlowCount s).
Definition set_AggregateStats_FlowCount (v : N) (s : AggregateStats) : AggregateStats := MkAggregateStats (AggregateStats_PacketCount s) (AggregateStats_ByteCount s) v.
Definition zero_AggregateStats : AggregateStats := MkAggregateStats 0%N 0%N 0%N.
Definition wf_AggregateStats (m : AggregateStats) : Prop := fits 8 (AggregateStats_PacketCount m) /\ fits 8 (AggregateStats_ByteCount m) /\ fits 4 (AggregateStats_FlowCount m).
(** AggregateStats.WriteTo, ofp/aggregate.go:97-100. *)
Definition enc_AggregateStats (m : AggregateStats) : bytes :=
  concat [u64 (AggregateStats_PacketCount m); u64 (AggregateStats_ByteCount m); u32 (AggregateStats_FlowCount m); pad 4].
(** AggregateStats.ReadFrom, ofp/aggregate.go:104-107. *)
Definition dec_AggregateStats : step AggregateStats :=
  seqr [fu 8 set_AggregateStats_PacketCount; fu 8 set_AggregateStats_ByteCount; fu 4 set_AggregateStats_FlowCount; fpad 4].

(** MultipartReply, ofp/multipart.go:262-268. *)
Record MultipartReply := MkMultipartReply { MultipartReply_Type : N; MultipartReply_Flags : N }.
(** Assignments to the fields of MultipartReply, its zero value and the ranges of its field types (ofp/multipart.go:262-268). *)
Definition set_MultipartReply_Type (v : N) (s : MultipartReply) : MultipartReply := MkMultipartReply v (MultipartReply_Flags s).
Definition set_MultipartReply_Flags (v : N) (s : MultipartReply) : MultipartReply := MkMultipartReply (MultipartReply_Type s) v.
Definition zero_MultipartReply : MultipartReply := MkMultipartReply 0%N 0%N.
Definition wf_MultipartReply (m : MultipartReply) : Prop := fits 2 (MultipartReply_Type m) /\ fits 2 (MultipartReply_Flags m).
(** MultipartReply.WriteTo, ofp/multipart.go:272-274. *)
Definition enc_MultipartReply (m : MultipartReply) : bytes :=
  concat [u16 (MultipartReply_Type m); u16 (MultipartReply_Flags m); pad 4].
(** MultipartReply.ReadFrom, ofp/multipart.go:278-280. *)
Definition dec_MultipartReply : step MultipartReply :=
  seqr [fu 2 set_MultipartReply_Type; fu 2 set_MultipartReply_Flags; fpad 4].

(** ExperimenterMultipartHeader, ofp/multipart.go:284-290. *)
Record ExperimenterMultipartHeader := MkExperimenterMultipartHeader { ExperimenterMultipartHeader_Experimenter : N; ExperimenterMultipartHeader_ExpType : N }.
(** Assignments to the fields of ExperimenterMultipartHeader, its zero value and the ranges of its field types (ofp/multipart.go:284-290). *)
Definition set_ExperimenterMultipartHeader_Experimenter (v : N) (s : ExperimenterMultipartHeader) : ExperimenterMultipartHeader := MkExperimenterMultipartHeader v (ExperimenterMultipartHeader_ExpType s).
Definition set_ExperimenterMultipartHeader_ExpType (v : N) (s : ExperimenterMultipartHeader) : ExperimenterMultipartHeader := MkExperimenterMultipartHeader (ExperimenterMultipartHeader_Experimenter s) v.
Definition zero_ExperimenterMultipartHeader : ExperimenterMultipartHeader := MkExperimenterMultipartHeader 0%N 0%N.
Definition wf_ExperimenterMultipartHeader (m : ExperimenterMultipartHeader) : Prop := fits 4 (ExperimenterMultipartHeader_Experimenter m) /\ fits 4 (ExperimenterMultipartHeader_ExpType m).
(** ExperimenterMultipartHeader.WriteTo, ofp/multipart.go:294-296. *)
Definition enc_ExperimenterMultipartHeader (m : ExperimenterMultipartHeader) : bytes :=
  concat [u32 (ExperimenterMultipartHeader_Experimenter m); u32 (ExperimenterMultipartHeader_ExpType m)].
(** ExperimenterMultipartHeader.ReadFrom, ofp/multipart.go:300-302. *)
Definition dec_ExperimenterMultipartHeader : step ExperimenterMultipartHeader :=
  seqr [fu 4 set_ExperimenterMultipartHeader_Experimenter; fu 4 set_ExperimenterMultipartHeader_ExpType].

(** Port, ofp/port.go:265-291. *)
Record Port := MkPort { Port_PortNo : N; Port_HWAddr : bytes; Port_Name : bytes; Port_Config : N; Port_State : N; Port_Curr : N; Port_Advertised : N; Port_Supported : N; Port_Peer : N; Port_CurrSpeed : N; Port_MaxSpeed : N }.
(** Assignments to the fields of Port, its zero value and the ranges of its field types (ofp/port.go:265-291). *)
Definition set_Port_PortNo (v : N) (s : Port) : Port := MkPort v (Port_HWAddr s) (Port_Name s) (Port_Config s) (Port_State s) (Port_Curr s) (Port_Advertised s) (Port_Supported s) (Port_Peer s) (Port_CurrSpeed s) (Port_MaxSpeed s).
Definition set_Port_HWAddr (v : bytes) (s : Port) : Port := MkPort (Port_PortNo s) v (Port_Name s) (Port_Config s) (Port_State s) (Port_Curr s) (Port_Advertised s) (Port_Supported s) (Port_Peer s) (Port_CurrSpeed s) (Port_MaxSpeed s).
Definition set_Port_Name (v : bytes) (s : Port) : Port := MkPort (Port_PortNo s) (Port_HWAddr s) v (Port_Config s) (Port_State s) (Port_Curr s) (Port_Advertised s) (Port_Supported s) (Port_Peer s) (Port_CurrSpeed s) (Port_MaxSpeed s).
Definition set_Port_Config (v : N) (s : Port) : Port := MkPort (Port_PortNo s) (Port_HWAddr s) (Port_Name s) v (Port_State s) (Port_Curr s) (Port_Advertised s) (Port_Supported s) (Port_Peer s) (Port_CurrSpeed s) (Port_MaxSpeed s).
Definition set_Port_State (v : N) (s : Port) : Port := MkPort (Port_PortNo s) (Port_HWAddr s) (Port_Name s) (Port_Config s) v (Port_Curr s) (Port_Advertised s) (Port_Supported s) (Port_Peer s) (Port_CurrSpeed s) (Port_MaxSpeed s).
Definition set_Port_Curr (v : N) (s : Port) : Port := MkPort (Port_PortNo s) (Port_HWAddr s) (Port_Name s) (Port_Config s) (Port_State s) v (Port_Advertised s) (Port_Supported s) (Port_Peer s) (Port_CurrSpeed s) (Port_MaxSpeed s).
Definition set_Port_Advertised (v : N) (s : Port) : Port := MkPort (Port_PortNo s) (Port_HWAddr s) (Port_Name s) (Port_Config s) (Port_State s) (Port_Curr s) v (Port_Supported s) (Port_Peer s) (Port_CurrSpeed s) (Port_MaxSpeed s).
Definition set_Port_Supported (v : N) (s : Port) : Port := MkPort (Port_PortNo s) (Port_HWAddr s) (Port_Name s) (Port_Config s) (Port_State s) (Port_Curr s) (Port_Advertised s) v (Port_Peer s) (Port_CurrSpeed s) (Port_MaxSpeed s).
Definition set_Port_Peer (v : N) (s : Port) : Port := MkPort (Port_PortNo s) (Port_HWAddr s) (Port_Name s) (Port_Config s) (Port_State s) (Port_Curr s) (Port_Advertised s) (Port_Supported s) v (Port_CurrSpeed s) (Port_MaxSpeed s).
Definition set_Port_CurrSpeed (v : N) (s : Port) : Port := MkPort (Port_PortNo s) (Port_HWAddr s) (Port_Name s) (Port_Config s) (Port_State s) (Port_Curr s) (Port_Advertised s) (Port_Supported s) (Port_Peer s) v (Port_MaxSpeed s).
Definition set_Port_MaxSpeed (v : N) (s : Port) : Port := MkPort (Port_PortNo s) (Port_HWAddr s) (Port_Name s) (Port_Config s) (Port_State s) (Port_Curr s) (Port_Advertised s) (Port_Supported s) (Port_Peer s) (Port_CurrSpeed s) v.
Definition zero_Port : Port := MkPort 0%N [] [] 0%N 0%N 0%N 0%N 0%N 0%N 0%N 0%N.
Definition wf_Port (m : Port) : Prop := fits 4 (Port_PortNo m) /\ length (Port_HWAddr m) = 6 /\ fits 4 (Port_Config m) /\ fits 4 (Port_State m) /\ fits 4 (Port_Curr m) /\ fits 4 (Port_Advertised m) /\ fits 4 (Port_Supported m) /\ fits 4 (Port_Peer m) /\ fits 4 (Port_CurrSpeed m) /\ fits 4 (Port_MaxSpeed m).
(** Port.WriteTo, ofp/port.go:295-303. *)
Definition enc_Port (m : Port) : bytes :=
  concat [u32 (Port_PortNo m); pad 4; Port_HWAddr m; pad 2; fixtext 16 (Port_Name m); u32 (Port_Config m); u32 (Port_State m); u32 (Port_Curr m); u32 (Port_Advertised m); u32 (Port_Supported m); u32 (Port_Peer m); u32 (Port_CurrSpeed m); u32 (Port_MaxSpeed m)].

(** Port.ReadFrom, ofp/port.go:307-318.  [HWAddr] is freshly allocated with six
    zero bytes, the name goes through a local array ([fst] of the state) and is
    assigned after reading even when reading failed. *)
Definition dec_Port : step Port :=
  with_local (zeros 16)
    (pre (fun s => (fst s, set_Port_HWAddr (zeros 6) (snd s)))
      (finally (fun s => (fst s, set_Port_Name (fst s) (snd s)))
        (seqr [sub snd (fun p s => (fst s, p)) (fu 4 set_Port_PortNo); fpad 4;
               sub snd (fun p s => (fst s, p)) (fslice Port_HWAddr set_Port_HWAddr); fpad 2;
               fbytes 16 (fun b s => (b, snd s));
               sub snd (fun p s => (fst s, p)) (fu 4 set_Port_Config); sub snd (fun p s => (fst s, p)) (fu 4 set_Port_State); sub snd (fun p s => (fst s, p)) (fu 4 set_Port_Curr); sub snd (fun p s => (fst s, p)) (fu 4 set_Port_Advertised); sub snd (fun p s => (fst s, p)) (fu 4 set_Port_Supported); sub snd (fun p s => (fst s, p)) (fu 4 set_Port_Peer); sub snd (fun p s => (fst s, p)) (fu 4 set_Port_CurrSpeed); sub snd (fun p s => (fst s, p)) (fu 4 set_Port_MaxSpeed)]))).

(** PortStatus, ofp/port.go:413-419. *)
Record PortStatus := MkPortStatus { PortStatus_Reason : N; PortStatus_Port : Port }.
(** Assignments to the fields of PortStatus, its zero value and the ranges of its field types (ofp/port.go:413-419). *)
Definition set_PortStatus_Reason (v : N) (s : PortStatus) : PortStatus := MkPortStatus v (PortStatus_Port s).
Definition set_PortStatus_Port (v : Port) (s : PortStatus) : PortStatus := MkPortStatus (PortStatus_Reason s) v.
Definition zero_PortStatus : PortStatus := MkPortStatus 0%N zero_Port.
Definition wf_PortStatus (m : PortStatus) : Prop := fits 1 (PortStatus_Reason m) /\ wf_Port (PortStatus_Port m).
(** PortStatus.WriteTo, ofp/port.go:423-425. *)
Definition enc_PortStatus (m : PortStatus) : bytes :=
  concat [u8 (PortStatus_Reason m); pad 7; enc_Port (PortStatus_Port m)].
(** PortStatus.ReadFrom, ofp/port.go:429-431. *)
Definition dec_PortStatus : step PortStatus :=
  seqr [fu 1 set_PortStatus_Reason; fpad 7; sub PortStatus_Port set_PortStatus_Port dec_Port].

(** PortMod, ofp/port.go:360-378. *)
Record PortMod := MkPortMod { PortMod_PortNo : N; PortMod_HWAddr : bytes; PortMod_Config : N; PortMod_Mask : N; PortMod_Advertise : N }.
(** Assignments to the fields of PortMod, its zero value and the ranges of its field types (ofp/port.go:360-378). *)
Definition set_PortMod_PortNo (v : N) (s : PortMod) : PortMod := MkPortMod v (PortMod_HWAddr s) (PortMod_Config s) (PortMod_Mask s) (PortMod_Advertise s).
Definition set_PortMod_HWAddr (v : bytes) (s : PortMod) : PortMod := MkPortMod (PortMod_PortNo s) v (PortMod_Config s) (PortMod_Mask s) (PortMod_Advertise s).
Definition set_PortMod_Config (v : N) (s : PortMod) : PortMod := MkPortMod (PortMod_PortNo s) (PortMod_HWAddr s) v (PortMod_Mask s) (PortMod_Advertise s).
Definition set_PortMod_Mask (v : N) (s : PortMod) : PortMod := MkPortMod (PortMod_PortNo s) (PortMod_HWAddr s) (PortMod_Config s) v (PortMod_Advertise s).
Definition set_PortMod_Advertise (v : N) (s : PortMod) : PortMod := MkPortMod (PortMod_PortNo s) (PortMod_HWAddr s) (PortMod_Config s) (PortMod_Mask s) v.
Definition zero_PortMod : PortMod := MkPortMod 0%N [] 0%N 0%N 0%N.
Definition wf_PortMod (m : PortMod) : Prop := fits 4 (PortMod_PortNo m) /\ length (PortMod_HWAddr m) = 6 /\ fits 4 (PortMod_Config m) /\ fits 4 (PortMod_Mask m) /\ fits 4 (PortMod_Advertise m).
(** PortMod.WriteTo, ofp/port.go:382-386. *)
Definition enc_PortMod (m : PortMod) : bytes :=
  concat [u32 (PortMod_PortNo m); pad 4; PortMod_HWAddr m; pad 2; u32 (PortMod_Config m); u32 (PortMod_Mask m); u32 (PortMod_Advertise m); pad 4].

(** PortMod.ReadFrom, ofp/port.go:390-394: the hardware address slice is not
    allocated, so as many bytes are read as the receiver's slice has. *)
Definition dec_PortMod : step PortMod :=
  seqr [fu 4 set_PortMod_PortNo; fpad 4; fslice PortMod_HWAddr set_PortMod_HWAddr; fpad 2;
        fu 4 set_PortMod_Config; fu 4 set_PortMod_Mask; fu 4 set_PortMod_Advertise; fpad 4].

(** Description, ofp/description.go:28-43. *)
Record Description := MkDescription { Description_Manufacturer : bytes; Description_Hardware : bytes; Description_Software : bytes; Description_SerialNum : bytes; Description_Datapath : bytes }.
(** Assignments to the fields of Description, its zero value and the ranges of its field types (ofp/description.go:28-43). *)
Definition set_Description_Manufacturer (v : bytes) (s : Description) : Description := MkDescription v (Description_Hardware s) (Description_Software s) (Description_SerialNum s) (Description_Datapath s).
Definition set_Description_Hardware (v : bytes) (s : Description) : Description := MkDescription (Description_Manufacturer s) v (Description_Software s) (Description_SerialNum s) (Description_Datapath s).
Definition set_Description_Software (v : bytes) (s : Description) : Description := MkDescription (Description_Manufacturer s) (Description_Hardware s) v (Description_SerialNum s) (Description_Datapath s).
Definition set_Description_SerialNum (v : bytes) (s : Description) : Description := MkDescription (Description_Manufacturer s) (Description_Hardware s) (Description_Software s) v (Description_Datapath s).
Definition set_Description_Datapath (v : bytes) (s : Description) : Description := MkDescription (Description_Manufacturer s) (Description_Hardware s) (Description_Software s) (Description_SerialNum s) v.
Definition zero_Description : Description := MkDescription [] [] [] [] [].
Definition wf_Description (m : Description) : Prop := True.
(** Description.WriteTo, ofp/description.go:47-63. *)
Definition enc_Description (m : Description) : bytes :=
  concat [fixtext 256 (Description_Manufacturer m); fixtext 256 (Description_Hardware m); fixtext 256 (Description_Software m); fixtext 32 (Description_SerialNum m); fixtext 256 (Description_Datapath m)].

(** Description.ReadFrom, ofp/description.go:67-82: local arrays, assigned to the
    receiver only on success. *)
Definition dec_Description : step Description :=
  with_local (MkDescription (zeros 256) (zeros 256) (zeros 256) (zeros 32) (zeros 256))
    (andthen
      (seqr [sub fst (fun l s => (l, snd s)) (fbytes 256 set_Description_Manufacturer);
             sub fst (fun l s => (l, snd s)) (fbytes 256 set_Description_Hardware);
             sub fst (fun l s => (l, snd s)) (fbytes 256 set_Description_Software);
             sub fst (fun l s => (l, snd s)) (fbytes 32 set_Description_SerialNum);
             sub fst (fun l s => (l, snd s)) (fbytes 256 set_Description_Datapath)])
      (fun _ _ => assign (fun s => (fst s, fst s)))).

(** Registry of the fixed-size messages. *)
Inductive kind :=
| KHeader
| KSwitchFeatures
| KSwitchConfig
| KExperimenter
| KRoleRequest
| KAsyncConfig
| KTableMod
| KTableStats
| KPortStatsRequest
| KPortStats
| KQueueStatsRequest
| KQueueStats
| KQueueGetConfigRequest
| KGroupStatsRequest
| KBucketCounter
| KGroupFeatures
| KMeterConfigRequest
| KMeterFeatures
| KMeterBandStats
| KMeterStatsRequest
| KAggregateStats
| KMultipartReply
| KExperimenterMultipartHeader
| KPort
| KPortStatus
| KDescription.

Definition msg (k : kind) : Type :=
  match k with
  | KHeader => Header
  | KSwitchFeatures => SwitchFeatures
  | KSwitchConfig => SwitchConfig
  | KExperimenter => Experimenter
  | KRoleRequest => RoleRequest
  | KAsyncConfig => AsyncConfig
  | KTableMod => TableMod
  | KTableStats => TableStats
  | KPortStatsRequest => PortStatsRequest
  | KPortStats => PortStats
  | KQueueStatsRequest => QueueStatsRequest
  | KQueueStats => QueueStats
  | KQueueGetConfigRequest => QueueGetConfigRequest
  | KGroupStatsRequest => GroupStatsRequest
  | KBucketCounter => BucketCounter
  | KGroupFeatures => GroupFeatures
  | KMeterConfigRequest => MeterConfigRequest
  | KMeterFeatures => MeterFeatures
  | KMeterBandStats => MeterBandStats
  | KMeterStatsRequest => MeterStatsRequest
  | KAggregateStats => AggregateStats
  | KMultipartReply => MultipartReply
  | KExperimenterMultipartHeader => ExperimenterMultipartHeader
  | KPort => Port
  | KPortStatus => PortStatus
  | KDescription => Description
  end.

Definition enc (k : kind) : msg k -> bytes :=
  match k with
  | KHeader => enc_Header
  | KSwitchFeatures => enc_SwitchFeatures
  | KSwitchConfig => enc_SwitchConfig
  | KExperimenter => enc_Experimenter
  | KRoleRequest => enc_RoleRequest
  | KAsyncConfig => enc_AsyncConfig
  | KTableMod => enc_TableMod
  | KTableStats => enc_TableStats
  | KPortStatsRequest => enc_PortStatsRequest
  | KPortStats => enc_PortStats
  | KQueueStatsRequest => enc_QueueStatsRequest
  | KQueueStats => enc_QueueStats
  | KQueueGetConfigRequest => enc_QueueGetConfigRequest
  | KGroupStatsRequest => enc_GroupStatsRequest
  | KBucketCounter => enc_BucketCounter
  | KGroupFeatures => enc_GroupFeatures
  | KMeterConfigRequest => enc_MeterConfigRequest
  | KMeterFeatures => enc_MeterFeatures
  | KMeterBandStats => enc_MeterBandStats
  | KMeterStatsRequest => enc_MeterStatsRequest
  | KAggregateStats => enc_AggregateStats
  | KMultipartReply => enc_MultipartReply
  | KExperimenterMultipartHeader => enc_ExperimenterMultipartHeader
  | KPort => enc_Port
  | KPortStatus => enc_PortStatus
  | KDescription => enc_Description
  end.

Definition dec (k : kind) : step (msg k) :=
  match k with
  | KHeader => dec_Header
  | KSwitchFeatures => dec_SwitchFeatures
  | KSwitchConfig => dec_SwitchConfig
  | KExperimenter => dec_Experimenter
  | KRoleRequest => dec_RoleRequest
  | KAsyncConfig => dec_AsyncConfig
  | KTableMod => dec_TableMod
  | KTableStats => dec_TableStats
  | KPortStatsRequest => dec_PortStatsRequest
  | KPortStats => dec_PortStats
  | KQueueStatsRequest => dec_QueueStatsRequest
  | KQueueStats => dec_QueueStats
  | KQueueGetConfigRequest => dec_QueueGetConfigRequest
  | KGroupStatsRequest => dec_GroupStatsRequest
  | KBucketCounter => dec_BucketCounter
  | KGroupFeatures => dec_GroupFeatures
  | KMeterConfigRequest => dec_MeterConfigRequest
  | KMeterFeatures => dec_MeterFeatures
  | KMeterBandStats => dec_MeterBandStats
  | KMeterStatsRequest => dec_MeterStatsRequest
  | KAggregateStats => dec_AggregateStats
  | KMultipartReply => dec_MultipartReply
  | KExperimenterMultipartHeader => dec_ExperimenterMultipartHeader
  | KPort => dec_Port
  | KPortStatus => dec_PortStatus
  | KDescription => dec_Description
  end.

Definition wf (k : kind) : msg k -> Prop :=
  match k with
  | KHeader => wf_Header
  | KSwitchFeatures => wf_SwitchFeatures
  | KSwitchConfig => wf_SwitchConfig
  | KExperimenter => wf_Experimenter
  | KRoleRequest => wf_RoleRequest
  | KAsyncConfig => wf_AsyncConfig
  | KTableMod => wf_TableMod
  | KTableStats => wf_TableStats
  | KPortStatsRequest => wf_PortStatsRequest
  | KPortStats => wf_PortStats
  | KQueueStatsRequest => wf_QueueStatsRequest
  | KQueueStats => wf_QueueStats
  | KQueueGetConfigRequest => wf_QueueGetConfigRequest
  | KGroupStatsRequest => wf_GroupStatsRequest
  | KBucketCounter => wf_BucketCounter
  | KGroupFeatures => wf_GroupFeatures
  | KMeterConfigRequest => wf_MeterConfigRequest
  | KMeterFeatures => wf_MeterFeatures
  | KMeterBandStats => wf_MeterBandStats
  | KMeterStatsRequest => wf_MeterStatsRequest
  | KAggregateStats => wf_AggregateStats
  | KMultipartReply => wf_MultipartReply
  | KExperimenterMultipartHeader => wf_ExperimenterMultipartHeader
  | KPort => wf_Port
  | KPortStatus => wf_PortStatus
  | KDescription => wf_Description
  end.
