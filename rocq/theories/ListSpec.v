(** Ranges, sizes and wire layouts (OpenFlow 1.3, sections 7.2.3, 7.3.4, 7.3.5, 7.5.1
    and A.3.5) of the messages of [GroupModel], [MeterModel], [QueueModel] and
    [HelloModel]. *)
From Verif Require Import Bytes WireSpec FixedSpec MatchSpec FlowModel GroupModel MeterModel QueueModel HelloModel.
From Verif Require Import ActionSpec InstructionSpec FlowSpec.

(** ** Buckets *)
Definition bucket_size (m : Bucket) : nat := 16 + actions_size (Bucket_Actions m).
Definition wf_Bucket (m : Bucket) : Prop :=
  fits 2 (Bucket_Weight m) /\ fits 4 (Bucket_WatchPort m) /\ fits 4 (Bucket_WatchGroup m)
  /\ Forall wf_Action (Bucket_Actions m) /\ (N.of_nat (bucket_size m) < 65536)%N.
Definition bucket_layout (m : Bucket) : list (nat * item) :=
  [(0, Num 2 (N.of_nat (bucket_size m))); (2, Num 2 (Bucket_Weight m)); (4, Num 4 (Bucket_WatchPort m));
   (8, Num 4 (Bucket_WatchGroup m)); (12, Zero 4)]
  ++ shift 16 (actions_layout (Bucket_Actions m)).

Definition buckets_size (l : list Bucket) : nat := list_sum (map bucket_size l).
Definition buckets_layout := one_after_another bucket_size bucket_layout 0.

(** ** Group messages *)
Definition wf_GroupMod (m : GroupMod) : Prop :=
  fits 2 (GroupMod_Command m) /\ fits 1 (GroupMod_Type m) /\ fits 4 (GroupMod_Group m)
  /\ Forall wf_Bucket (GroupMod_Buckets m).
Definition groupmod_size (m : GroupMod) : nat := 8 + buckets_size (GroupMod_Buckets m).
Definition groupmod_layout (m : GroupMod) : list (nat * item) :=
  [(0, Num 2 (GroupMod_Command m)); (2, Num 1 (GroupMod_Type m)); (3, Zero 1); (4, Num 4 (GroupMod_Group m))]
  ++ shift 8 (buckets_layout (GroupMod_Buckets m)).

Definition groupdesc_size (m : GroupDescStats) : nat := 8 + buckets_size (GroupDescStats_Buckets m).
Definition wf_GroupDescStats (m : GroupDescStats) : Prop :=
  fits 1 (GroupDescStats_Type m) /\ fits 4 (GroupDescStats_Group m)
  /\ Forall wf_Bucket (GroupDescStats_Buckets m) /\ (N.of_nat (groupdesc_size m) < 65536)%N.
Definition groupdesc_layout (m : GroupDescStats) : list (nat * item) :=
  [(0, Num 2 (N.of_nat (groupdesc_size m))); (2, Num 1 (GroupDescStats_Type m)); (3, Zero 1);
   (4, Num 4 (GroupDescStats_Group m))]
  ++ shift 8 (buckets_layout (GroupDescStats_Buckets m)).

Definition counter_layout (m : BucketCounter) : list (nat * item) :=
  [(0, Num 8 (BucketCounter_PacketCount m)); (8, Num 8 (BucketCounter_ByteCount m))].
Definition groupstats_size (m : GroupStats) : nat := 40 + 16 * length (GroupStats_BucketStats m).
Definition wf_GroupStats (m : GroupStats) : Prop :=
  fits 4 (GroupStats_Group m) /\ fits 4 (GroupStats_RefCount m) /\ fits 8 (GroupStats_PacketCount m)
  /\ fits 8 (GroupStats_ByteCount m) /\ fits 4 (GroupStats_DurationSec m) /\ fits 4 (GroupStats_DurationNSec m)
  /\ Forall wf_BucketCounter (GroupStats_BucketStats m) /\ (N.of_nat (groupstats_size m) < 65536)%N.
Definition groupstats_layout (m : GroupStats) : list (nat * item) :=
  [(0, Num 2 (N.of_nat (groupstats_size m))); (2, Zero 2); (4, Num 4 (GroupStats_Group m));
   (8, Num 4 (GroupStats_RefCount m)); (12, Zero 4); (16, Num 8 (GroupStats_PacketCount m));
   (24, Num 8 (GroupStats_ByteCount m)); (32, Num 4 (GroupStats_DurationSec m));
   (36, Num 4 (GroupStats_DurationNSec m))]
  ++ shift 40 (one_after_another (fun _ => 16) counter_layout 0 (GroupStats_BucketStats m)).

(** ** Meter bands and meter messages *)
Definition wf_MeterBand (x : MeterBand) : Prop :=
  match x with
  | BandDrop r b => (r < 4294967296 /\ b < 4294967296)%N
  | BandDSCPRemark r b p => (r < 4294967296 /\ b < 4294967296 /\ p < 256)%N
  | BandExperimenter r b e => (r < 4294967296 /\ b < 4294967296 /\ e < 4294967296)%N
  end.
(** enum ofp_meter_band_type; every band takes 16 bytes. *)
Definition band_layout (x : MeterBand) : list (nat * item) :=
  match x with
  | BandDrop r b => [(0, Num 2 1); (2, Num 2 16); (4, Num 4 r); (8, Num 4 b); (12, Zero 4)]
  | BandDSCPRemark r b p => [(0, Num 2 2); (2, Num 2 16); (4, Num 4 r); (8, Num 4 b); (12, Num 1 p); (13, Zero 3)]
  | BandExperimenter r b e => [(0, Num 2 65535); (2, Num 2 16); (4, Num 4 r); (8, Num 4 b); (12, Num 4 e)]
  end.
Definition bands_layout := one_after_another (fun _ : MeterBand => 16) band_layout 0.

Definition metermod_size (m : MeterMod) : nat := 8 + 16 * length (MeterMod_Bands m).
Definition wf_MeterMod (m : MeterMod) : Prop :=
  fits 2 (MeterMod_Command m) /\ fits 2 (MeterMod_Flags m) /\ fits 4 (MeterMod_Meter m)
  /\ Forall wf_MeterBand (MeterMod_Bands m).
Definition metermod_layout (m : MeterMod) : list (nat * item) :=
  [(0, Num 2 (MeterMod_Command m)); (2, Num 2 (MeterMod_Flags m)); (4, Num 4 (MeterMod_Meter m))]
  ++ shift 8 (bands_layout (MeterMod_Bands m)).

Definition meterconfig_size (m : MeterConfig) : nat := 8 + 16 * length (MeterConfig_Bands m).
Definition wf_MeterConfig (m : MeterConfig) : Prop :=
  fits 2 (MeterConfig_Flags m) /\ fits 4 (MeterConfig_Meter m)
  /\ Forall wf_MeterBand (MeterConfig_Bands m) /\ (N.of_nat (meterconfig_size m) < 65536)%N.
Definition meterconfig_layout (m : MeterConfig) : list (nat * item) :=
  [(0, Num 2 (N.of_nat (meterconfig_size m))); (2, Num 2 (MeterConfig_Flags m)); (4, Num 4 (MeterConfig_Meter m))]
  ++ shift 8 (bands_layout (MeterConfig_Bands m)).

Definition band_stats_layout (m : MeterBandStats) : list (nat * item) :=
  [(0, Num 8 (MeterBandStats_PacketBandCount m)); (8, Num 8 (MeterBandStats_ByteBandCount m))].
Definition meterstats_size (m : MeterStats) : nat := 40 + 16 * length (MeterStats_BandStats m).
Definition wf_MeterStats (m : MeterStats) : Prop :=
  fits 4 (MeterStats_Meter m) /\ fits 4 (MeterStats_FlowCount m) /\ fits 8 (MeterStats_PacketInCount m)
  /\ fits 8 (MeterStats_ByteInCount m) /\ fits 4 (MeterStats_DurationSec m) /\ fits 4 (MeterStats_DurationNSec m)
  /\ Forall wf_MeterBandStats (MeterStats_BandStats m) /\ (N.of_nat (meterstats_size m) < 65536)%N.
Definition meterstats_layout (m : MeterStats) : list (nat * item) :=
  [(0, Num 4 (MeterStats_Meter m)); (4, Num 2 (N.of_nat (meterstats_size m))); (6, Zero 6);
   (12, Num 4 (MeterStats_FlowCount m)); (16, Num 8 (MeterStats_PacketInCount m));
   (24, Num 8 (MeterStats_ByteInCount m)); (32, Num 4 (MeterStats_DurationSec m));
   (36, Num 4 (MeterStats_DurationNSec m))]
  ++ shift 40 (one_after_another (fun _ => 16) band_stats_layout 0 (MeterStats_BandStats m)).

(** ** Queues *)
Definition queue_prop_size (x : QueueProp) : nat :=
  match x with PropQueueExperimenter _ d => 16 + length d | _ => 16 end.
Definition wf_QueueProp (x : QueueProp) : Prop :=
  match x with
  | PropMinRate r | PropMaxRate r => (r < 65536)%N
  | PropQueueExperimenter e d => (e < 4294967296)%N /\ (N.of_nat (16 + length d) < 65536)%N
  end.
(** enum ofp_queue_properties. *)
Definition queue_prop_layout (x : QueueProp) : list (nat * item) :=
  match x with
  | PropMinRate r => [(0, Num 2 1); (2, Num 2 16); (4, Zero 4); (8, Num 2 r); (10, Zero 6)]
  | PropMaxRate r => [(0, Num 2 2); (2, Num 2 16); (4, Zero 4); (8, Num 2 r); (10, Zero 6)]
  | PropQueueExperimenter e d =>
      [(0, Num 2 65535); (2, Num 2 (N.of_nat (16 + length d))); (4, Zero 4); (8, Num 4 e); (12, Zero 4);
       (16, Raw (length d) d)]
  end.
Definition queue_props_size (l : list QueueProp) : nat := list_sum (map queue_prop_size l).
Definition queue_props_layout := one_after_another queue_prop_size queue_prop_layout 0.

Definition packetqueue_size (m : PacketQueue) : nat := 16 + queue_props_size (PacketQueue_Properties m).
Definition wf_PacketQueue (m : PacketQueue) : Prop :=
  fits 4 (PacketQueue_Queue m) /\ fits 4 (PacketQueue_Port m)
  /\ Forall wf_QueueProp (PacketQueue_Properties m) /\ (N.of_nat (packetqueue_size m) < 65536)%N.
Definition packetqueue_layout (m : PacketQueue) : list (nat * item) :=
  [(0, Num 4 (PacketQueue_Queue m)); (4, Num 4 (PacketQueue_Port m));
   (8, Num 2 (N.of_nat (packetqueue_size m))); (10, Zero 6)]
  ++ shift 16 (queue_props_layout (PacketQueue_Properties m)).

Definition packetqueues_layout := one_after_another packetqueue_size packetqueue_layout 0.
Definition queuereply_size (m : QueueGetConfigReply) : nat :=
  8 + list_sum (map packetqueue_size (QueueGetConfigReply_Queues m)).
Definition wf_QueueGetConfigReply (m : QueueGetConfigReply) : Prop :=
  fits 4 (QueueGetConfigReply_Port m) /\ Forall wf_PacketQueue (QueueGetConfigReply_Queues m).
Definition queuereply_layout (m : QueueGetConfigReply) : list (nat * item) :=
  [(0, Num 4 (QueueGetConfigReply_Port m)); (4, Zero 4)]
  ++ shift 8 (packetqueues_layout (QueueGetConfigReply_Queues m)).

(** ** Hello: an element is padded to a multiple of eight bytes. *)
Definition hello_elem_size (m : HelloElem) : nat := up8 (4 + 4 * length (HelloElem_Bitmaps m)).
Definition wf_HelloElem (m : HelloElem) : Prop :=
  Forall (fits 4) (HelloElem_Bitmaps m) /\ (N.of_nat (hello_elem_size m) < 65536)%N.
Definition wf_Hello (m : Hello) : Prop := Forall wf_HelloElem (Hello_Elements m).
Definition hello_size (m : Hello) : nat := list_sum (map hello_elem_size (Hello_Elements m)).

(** A version bitmap element as OpenFlow describes it: the length does not count
    the padding. *)
Definition standard_hello (l : list N) : bytes :=
  be_enc 2 1 ++ be_enc 2 (N.of_nat (4 + 4 * length l)) ++ concat (map (be_enc 4) l)
  ++ zeros (up8 (4 + 4 * length l) - (4 + 4 * length l)).

(** ** Reading entries until an error *)

(** A reader that decodes one entry after another from [inp], each into a
    receiver of its own choice, can go on for [k] entries. *)
Inductive keeps_reading {A} (dec : A -> bytes -> res A) : nat -> bytes -> Prop :=
| KeepsNone inp : keeps_reading dec 0 inp
| KeepsMore k old inp : fail (dec old inp) = None ->
    keeps_reading dec k (rest (dec old inp)) -> keeps_reading dec (S k) inp.
