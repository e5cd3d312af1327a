(** OpenFlow 1.3 layouts of the fixed-size messages, transcribed from the
    protocol structures (ofp_header, ofp_switch_features, ...): sizes in bytes
    and offset of every member. *)
From Verif Require Import Bytes FixedModel WireSpec.

Definition size (k : kind) : nat :=
  match k with
  | KHeader => 8
  | KSwitchFeatures => 24            (* ofp_switch_features without header *)
  | KSwitchConfig => 4
  | KExperimenter => 8
  | KRoleRequest => 16
  | KAsyncConfig => 24
  | KTableMod => 8
  | KTableStats => 24
  | KPortStatsRequest => 8
  | KPortStats => 112
  | KQueueStatsRequest => 8
  | KQueueStats => 40
  | KQueueGetConfigRequest => 8
  | KGroupStatsRequest => 8
  | KBucketCounter => 16
  | KGroupFeatures => 40
  | KMeterConfigRequest => 8
  | KMeterFeatures => 16
  | KMeterBandStats => 16
  | KMeterStatsRequest => 8
  | KAggregateStats => 24
  | KMultipartReply => 8
  | KExperimenterMultipartHeader => 8
  | KPort => 64
  | KPortStatus => 72
  | KDescription => 1056
  end.

Definition nthN (l : list N) (i : nat) : N := nth i l 0%N.

Definition port_layout (base : nat) (m : Port) : list (nat * item) :=
  [(base + 0, Num 4 (Port_PortNo m)); (base + 4, Zero 4);
   (base + 8, Raw 6 (Port_HWAddr m)); (base + 14, Zero 2);
   (base + 16, Text 16 (Port_Name m));
   (base + 32, Num 4 (Port_Config m)); (base + 36, Num 4 (Port_State m));
   (base + 40, Num 4 (Port_Curr m)); (base + 44, Num 4 (Port_Advertised m));
   (base + 48, Num 4 (Port_Supported m)); (base + 52, Num 4 (Port_Peer m));
   (base + 56, Num 4 (Port_CurrSpeed m)); (base + 60, Num 4 (Port_MaxSpeed m))].

Definition layout (k : kind) : msg k -> list (nat * item) :=
  match k with
  | KHeader => fun m =>
      [(0, Num 1 (Header_Version m)); (1, Num 1 (Header_Type m));
       (2, Num 2 (Header_Length m)); (4, Num 4 (Header_Transaction m))]
  | KSwitchFeatures => fun m =>
      [(0, Num 8 (SwitchFeatures_DatapathID m)); (8, Num 4 (SwitchFeatures_NumBuffers m));
       (12, Num 1 (SwitchFeatures_NumTables m)); (13, Num 1 (SwitchFeatures_AuxiliaryID m));
       (14, Zero 2); (16, Num 4 (SwitchFeatures_Capabilities m));
       (20, Num 4 (SwitchFeatures_Reserved m))]
  | KSwitchConfig => fun m =>
      [(0, Num 2 (SwitchConfig_Flags m)); (2, Num 2 (SwitchConfig_MissSendLength m))]
  | KExperimenter => fun m =>
      [(0, Num 4 (Experimenter_Experimenter m)); (4, Num 4 (Experimenter_ExpType m))]
  | KRoleRequest => fun m =>
      [(0, Num 4 (RoleRequest_Role m)); (4, Zero 4); (8, Num 8 (RoleRequest_GenerationID m))]
  | KAsyncConfig => fun m =>
      [(0, Num 4 (nthN (AsyncConfig_PacketInMask m) 0));
       (4, Num 4 (nthN (AsyncConfig_PacketInMask m) 1));
       (8, Num 4 (nthN (AsyncConfig_PortStatusMask m) 0));
       (12, Num 4 (nthN (AsyncConfig_PortStatusMask m) 1));
       (16, Num 4 (nthN (AsyncConfig_FlowRemovedMask m) 0));
       (20, Num 4 (nthN (AsyncConfig_FlowRemovedMask m) 1))]
  | KTableMod => fun m =>
      [(0, Num 1 (TableMod_Table m)); (1, Zero 3); (4, Num 4 (TableMod_Config m))]
  | KTableStats => fun m =>
      [(0, Num 1 (TableStats_Table m)); (1, Zero 3); (4, Num 4 (TableStats_ActiveCount m));
       (8, Num 8 (TableStats_LookupCount m)); (16, Num 8 (TableStats_MatchedCount m))]
  | KPortStatsRequest => fun m => [(0, Num 4 (PortStatsRequest_PortNo m)); (4, Zero 4)]
  | KPortStats => fun m =>
      [(0, Num 4 (PortStats_PortNo m)); (4, Zero 4);
       (8, Num 8 (PortStats_RxPackets m)); (16, Num 8 (PortStats_TxPackets m));
       (24, Num 8 (PortStats_RxBytes m)); (32, Num 8 (PortStats_TxBytes m));
       (40, Num 8 (PortStats_RxDropped m)); (48, Num 8 (PortStats_TxDropped m));
       (56, Num 8 (PortStats_RxErrors m)); (64, Num 8 (PortStats_TxErrors m));
       (72, Num 8 (PortStats_RxFrameErr m)); (80, Num 8 (PortStats_RxOverErr m));
       (88, Num 8 (PortStats_RxCrcErr m)); (96, Num 8 (PortStats_Collisions m));
       (104, Num 4 (PortStats_DurationSec m)); (108, Num 4 (PortStats_DurationNSec m))]
  | KQueueStatsRequest => fun m =>
      [(0, Num 4 (QueueStatsRequest_Port m)); (4, Num 4 (QueueStatsRequest_Queue m))]
  | KQueueStats => fun m =>
      [(0, Num 4 (QueueStats_Port m)); (4, Num 4 (QueueStats_Queue m));
       (8, Num 8 (QueueStats_TxBytes m)); (16, Num 8 (QueueStats_TxPackets m));
       (24, Num 8 (QueueStats_TxErrors m)); (32, Num 4 (QueueStats_DurationSec m));
       (36, Num 4 (QueueStats_DurationNSec m))]
  | KQueueGetConfigRequest => fun m => [(0, Num 4 (QueueGetConfigRequest_Port m)); (4, Zero 4)]
  | KGroupStatsRequest => fun m => [(0, Num 4 (GroupStatsRequest_Group m)); (4, Zero 4)]
  | KBucketCounter => fun m =>
      [(0, Num 8 (BucketCounter_PacketCount m)); (8, Num 8 (BucketCounter_ByteCount m))]
  | KGroupFeatures => fun m =>
      [(0, Num 4 (GroupFeatures_Types m)); (4, Num 4 (GroupFeatures_Capabilities m));
       (8, Num 4 (nthN (GroupFeatures_MaxGroups m) 0)); (12, Num 4 (nthN (GroupFeatures_MaxGroups m) 1));
       (16, Num 4 (nthN (GroupFeatures_MaxGroups m) 2)); (20, Num 4 (nthN (GroupFeatures_MaxGroups m) 3));
       (24, Num 4 (nthN (GroupFeatures_Actions m) 0)); (28, Num 4 (nthN (GroupFeatures_Actions m) 1));
       (32, Num 4 (nthN (GroupFeatures_Actions m) 2)); (36, Num 4 (nthN (GroupFeatures_Actions m) 3))]
  | KMeterConfigRequest => fun m => [(0, Num 4 (MeterConfigRequest_Meter m)); (4, Zero 4)]
  | KMeterFeatures => fun m =>
      [(0, Num 4 (MeterFeatures_MaxMeter m)); (4, Num 4 (MeterFeatures_BandTypes m));
       (8, Num 4 (MeterFeatures_Capabilities m)); (12, Num 1 (MeterFeatures_MaxBands m));
       (13, Num 1 (MeterFeatures_MaxColor m)); (14, Zero 2)]
  | KMeterBandStats => fun m =>
      [(0, Num 8 (MeterBandStats_PacketBandCount m)); (8, Num 8 (MeterBandStats_ByteBandCount m))]
  | KMeterStatsRequest => fun m => [(0, Num 4 (MeterStatsRequest_Meter m)); (4, Zero 4)]
  | KAggregateStats => fun m =>
      [(0, Num 8 (AggregateStats_PacketCount m)); (8, Num 8 (AggregateStats_ByteCount m));
       (16, Num 4 (AggregateStats_FlowCount m)); (20, Zero 4)]
  | KMultipartReply => fun m =>
      [(0, Num 2 (MultipartReply_Type m)); (2, Num 2 (MultipartReply_Flags m)); (4, Zero 4)]
  | KExperimenterMultipartHeader => fun m =>
      [(0, Num 4 (ExperimenterMultipartHeader_Experimenter m));
       (4, Num 4 (ExperimenterMultipartHeader_ExpType m))]
  | KPort => port_layout 0
  | KPortStatus => fun m =>
      (0, Num 1 (PortStatus_Reason m)) :: (1, Zero 7) :: port_layout 8 (PortStatus_Port m)
  | KDescription => fun m =>
      [(0, Text 256 (Description_Manufacturer m)); (256, Text 256 (Description_Hardware m));
       (512, Text 256 (Description_Software m)); (768, Text 32 (Description_SerialNum m));
       (800, Text 256 (Description_Datapath m))]
  end.

(** Text as it comes back from the wire: exactly [w] bytes, cut or NUL-filled. *)
Definition wire_text (w : nat) (s : bytes) : bytes := map (fun p => nth p s x00) (seq 0 w).

Definition normal_port (m : Port) : Port :=
  MkPort (Port_PortNo m) (Port_HWAddr m) (wire_text 16 (Port_Name m)) (Port_Config m)
    (Port_State m) (Port_Curr m) (Port_Advertised m) (Port_Supported m) (Port_Peer m)
    (Port_CurrSpeed m) (Port_MaxSpeed m).

(** The message as it comes back from the wire: equal, except that text fields
    have their full wire width. *)
Definition normal (k : kind) : msg k -> msg k :=
  match k with
  | KPort => normal_port
  | KPortStatus => fun m => MkPortStatus (PortStatus_Reason m) (normal_port (PortStatus_Port m))
  | KDescription => fun m =>
      MkDescription (wire_text 256 (Description_Manufacturer m)) (wire_text 256 (Description_Hardware m))
        (wire_text 256 (Description_Software m)) (wire_text 32 (Description_SerialNum m))
        (wire_text 256 (Description_Datapath m))
  | _ => fun m => m
  end.
