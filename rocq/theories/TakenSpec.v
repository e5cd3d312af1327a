(** What reading the beginning of a group, meter, queue or hello message leaves:
    the members that came whole, everything else as it was before. *)
From Verif Require Import ShortSpec TruncSpec ListSpec GroupModel MeterModel QueueModel HelloModel.

(** A member that ends [off] bytes behind the beginning, when [n] bytes came. *)
Definition since (off n : nat) {A} (sent old : A) : A := if off <=? n then sent else old.

Definition left_by (k : lkind) : lmsg k -> nat -> lmsg k -> lmsg k :=
  match k with
  | LGroupMod => fun m n o =>
      MkGroupMod (since 2 n (GroupMod_Command m) (GroupMod_Command o)) (since 3 n (GroupMod_Type m) (GroupMod_Type o))
        (since 8 n (GroupMod_Group m) (GroupMod_Group o)) (GroupMod_Buckets o)
  | LGroupDescStats => fun m n o =>
      MkGroupDescStats (since 3 n (GroupDescStats_Type m) (GroupDescStats_Type o))
        (since 8 n (GroupDescStats_Group m) (GroupDescStats_Group o)) (GroupDescStats_Buckets o)
  | LGroupStats => fun m n o =>
      MkGroupStats (since 8 n (GroupStats_Group m) (GroupStats_Group o)) (since 12 n (GroupStats_RefCount m) (GroupStats_RefCount o))
        (since 24 n (GroupStats_PacketCount m) (GroupStats_PacketCount o)) (since 32 n (GroupStats_ByteCount m) (GroupStats_ByteCount o))
        (since 36 n (GroupStats_DurationSec m) (GroupStats_DurationSec o)) (since 40 n (GroupStats_DurationNSec m) (GroupStats_DurationNSec o))
        (GroupStats_BucketStats o)
  | LMeterMod => fun m n o =>
      MkMeterMod (since 2 n (MeterMod_Command m) (MeterMod_Command o)) (since 4 n (MeterMod_Flags m) (MeterMod_Flags o))
        (since 8 n (MeterMod_Meter m) (MeterMod_Meter o)) (MeterMod_Bands o)
  | LMeterConfig => fun m n o =>
      MkMeterConfig (since 4 n (MeterConfig_Flags m) (MeterConfig_Flags o)) (since 8 n (MeterConfig_Meter m) (MeterConfig_Meter o))
        (MeterConfig_Bands o)
  | LMeterStats => fun m n o =>
      MkMeterStats (since 4 n (MeterStats_Meter m) (MeterStats_Meter o)) (since 16 n (MeterStats_FlowCount m) (MeterStats_FlowCount o))
        (since 24 n (MeterStats_PacketInCount m) (MeterStats_PacketInCount o)) (since 32 n (MeterStats_ByteInCount m) (MeterStats_ByteInCount o))
        (since 36 n (MeterStats_DurationSec m) (MeterStats_DurationSec o)) (since 40 n (MeterStats_DurationNSec m) (MeterStats_DurationNSec o))
        (MeterStats_BandStats o)
  | LPacketQueue => fun m n o =>
      MkPacketQueue (since 4 n (PacketQueue_Queue m) (PacketQueue_Queue o)) (since 8 n (PacketQueue_Port m) (PacketQueue_Port o))
        (PacketQueue_Properties o)
  | LQueueReply => fun m n o =>
      MkQueueGetConfigReply (since 4 n (QueueGetConfigReply_Port m) (QueueGetConfigReply_Port o)) (QueueGetConfigReply_Queues o)
  | LHello => fun _ _ o => o
  end.
