(** Padding in shared variables.  Readers store the padding of messages in
    package-level variables (ofp/pad.go:15-25) that all goroutines share and no
    lock protects; writers send padding of their own.  This file models
    goroutines reading and writing messages at the same time, storing single
    bytes in the shared variables in any order. *)
From Verif Require Import FixedModel.

(** An element of a ReadFrom call: a number that is kept, or [&defaultPadK]. *)
Inductive fld (S : Type) := FNum (k : nat) (set : N -> S -> S) | FPad (k : nat).
Arguments FNum {S}. Arguments FPad {S}.

(** What the element does when nothing else runs (encoding.go:90-113). *)
Definition fld_step {S} (f : fld S) : step S :=
  match f with FNum k set => fu k set | FPad k => fpad k end.

(** The messages whose readers use the shared variables and whose members are
    all numbers (TableMod, ofp/table.go:64-66, has padding of its own). *)
Definition shares_padding (k : kind) : bool :=
  match k with
  | KSwitchFeatures | KRoleRequest | KTableStats | KPortStatsRequest | KPortStats | KQueueGetConfigRequest | KGroupStatsRequest | KMeterConfigRequest | KMeterFeatures | KMeterStatsRequest | KAggregateStats | KMultipartReply => true
  | _ => false
  end.

(** The elements their ReadFrom methods list: ofp/switch.go:107-111,
    handshake.go:248-250, table.go:94-97, port.go:458-460 and 526-532,
    queue.go:337-339, group.go:206-208, meter.go:302-304, 388-391 and 430-432,
    aggregate.go:104-107, multipart.go:278-280. *)
Definition fields_of (k : kind) : list (fld (msg k)) :=
  match k with
  | KSwitchFeatures => [FNum 8 set_SwitchFeatures_DatapathID; FNum 4 set_SwitchFeatures_NumBuffers; FNum 1 set_SwitchFeatures_NumTables; FNum 1 set_SwitchFeatures_AuxiliaryID; FPad 2; FNum 4 set_SwitchFeatures_Capabilities; FNum 4 set_SwitchFeatures_Reserved]
  | KRoleRequest => [FNum 4 set_RoleRequest_Role; FPad 4; FNum 8 set_RoleRequest_GenerationID]
  | KTableStats => [FNum 1 set_TableStats_Table; FPad 3; FNum 4 set_TableStats_ActiveCount; FNum 8 set_TableStats_LookupCount; FNum 8 set_TableStats_MatchedCount]
  | KPortStatsRequest => [FNum 4 set_PortStatsRequest_PortNo; FPad 4]
  | KPortStats => [FNum 4 set_PortStats_PortNo; FPad 4; FNum 8 set_PortStats_RxPackets; FNum 8 set_PortStats_TxPackets; FNum 8 set_PortStats_RxBytes; FNum 8 set_PortStats_TxBytes; FNum 8 set_PortStats_RxDropped; FNum 8 set_PortStats_TxDropped; FNum 8 set_PortStats_RxErrors; FNum 8 set_PortStats_TxErrors; FNum 8 set_PortStats_RxFrameErr; FNum 8 set_PortStats_RxOverErr; FNum 8 set_PortStats_RxCrcErr; FNum 8 set_PortStats_Collisions; FNum 4 set_PortStats_DurationSec; FNum 4 set_PortStats_DurationNSec]
  | KQueueGetConfigRequest => [FNum 4 set_QueueGetConfigRequest_Port; FPad 4]
  | KGroupStatsRequest => [FNum 4 set_GroupStatsRequest_Group; FPad 4]
  | KMeterConfigRequest => [FNum 4 set_MeterConfigRequest_Meter; FPad 4]
  | KMeterFeatures => [FNum 4 set_MeterFeatures_MaxMeter; FNum 4 set_MeterFeatures_BandTypes; FNum 4 set_MeterFeatures_Capabilities; FNum 1 set_MeterFeatures_MaxBands; FNum 1 set_MeterFeatures_MaxColor; FPad 2]
  | KMeterStatsRequest => [FNum 4 set_MeterStatsRequest_Meter; FPad 4]
  | KAggregateStats => [FNum 8 set_AggregateStats_PacketCount; FNum 8 set_AggregateStats_ByteCount; FNum 4 set_AggregateStats_FlowCount; FPad 4]
  | KMultipartReply => [FNum 2 set_MultipartReply_Type; FNum 2 set_MultipartReply_Flags; FPad 4]
  | _ => []
  end.

(** An element of a WriteTo call: bytes of a member, padding of the call's own
    ([pad4{}]), or the shared variable.  No WriteTo of the library has the last. *)
Inductive wop := WVal (b : bytes) | WZero (k : nat) | WShared (k : nat).

(** The elements the WriteTo methods list: ofp/switch.go:99-103,
    handshake.go:242-244, table.go:87-90, port.go:452-454 and 516-522,
    queue.go:330-332, group.go:200-202, meter.go:296-298, 381-384 and 424-426,
    aggregate.go:97-100, multipart.go:272-274. *)
Definition writes_of (k : kind) : msg k -> list wop :=
  match k with
  | KSwitchFeatures => fun m => [WVal (u64 (SwitchFeatures_DatapathID m)); WVal (u32 (SwitchFeatures_NumBuffers m)); WVal (u8 (SwitchFeatures_NumTables m)); WVal (u8 (SwitchFeatures_AuxiliaryID m)); WZero 2; WVal (u32 (SwitchFeatures_Capabilities m)); WVal (u32 (SwitchFeatures_Reserved m))]
  | KRoleRequest => fun m => [WVal (u32 (RoleRequest_Role m)); WZero 4; WVal (u64 (RoleRequest_GenerationID m))]
  | KTableStats => fun m => [WVal (u8 (TableStats_Table m)); WZero 3; WVal (u32 (TableStats_ActiveCount m)); WVal (u64 (TableStats_LookupCount m)); WVal (u64 (TableStats_MatchedCount m))]
  | KPortStatsRequest => fun m => [WVal (u32 (PortStatsRequest_PortNo m)); WZero 4]
  | KPortStats => fun m => [WVal (u32 (PortStats_PortNo m)); WZero 4; WVal (u64 (PortStats_RxPackets m)); WVal (u64 (PortStats_TxPackets m)); WVal (u64 (PortStats_RxBytes m)); WVal (u64 (PortStats_TxBytes m)); WVal (u64 (PortStats_RxDropped m)); WVal (u64 (PortStats_TxDropped m)); WVal (u64 (PortStats_RxErrors m)); WVal (u64 (PortStats_TxErrors m)); WVal (u64 (PortStats_RxFrameErr m)); WVal (u64 (PortStats_RxOverErr m)); WVal (u64 (PortStats_RxCrcErr m)); WVal (u64 (PortStats_Collisions m)); WVal (u32 (PortStats_DurationSec m)); WVal (u32 (PortStats_DurationNSec m))]
  | KQueueGetConfigRequest => fun m => [WVal (u32 (QueueGetConfigRequest_Port m)); WZero 4]
  | KGroupStatsRequest => fun m => [WVal (u32 (GroupStatsRequest_Group m)); WZero 4]
  | KMeterConfigRequest => fun m => [WVal (u32 (MeterConfigRequest_Meter m)); WZero 4]
  | KMeterFeatures => fun m => [WVal (u32 (MeterFeatures_MaxMeter m)); WVal (u32 (MeterFeatures_BandTypes m)); WVal (u32 (MeterFeatures_Capabilities m)); WVal (u8 (MeterFeatures_MaxBands m)); WVal (u8 (MeterFeatures_MaxColor m)); WZero 2]
  | KMeterStatsRequest => fun m => [WVal (u32 (MeterStatsRequest_Meter m)); WZero 4]
  | KAggregateStats => fun m => [WVal (u64 (AggregateStats_PacketCount m)); WVal (u64 (AggregateStats_ByteCount m)); WVal (u32 (AggregateStats_FlowCount m)); WZero 4]
  | KMultipartReply => fun m => [WVal (u16 (MultipartReply_Type m)); WVal (u16 (MultipartReply_Flags m)); WZero 4]
  | _ => fun _ => []
  end.

(** What a reader does with the next bytes: keep or drop them. *)
Inductive rop := RKeep (k : nat) | RDrop (k : nat).
Definition rop_of {S} (f : fld S) : rop := match f with FNum k _ => RKeep k | FPad k => RDrop k end.

(** A goroutine in the middle of a ReadFrom call (elements to come, bytes
    unread, bytes kept), storing byte [i] and on of the [k] bytes [b] in
    defaultPadK, stopped by an error, or in the middle of a WriteTo call. *)
Inductive routine :=
| Reading (ops : list rop) (inp : bytes) (kept : list bytes)
| Storing (k i : nat) (b : bytes) (ops : list rop) (inp : bytes) (kept : list bytes)
| Stopped (e : err) (left : bytes) (kept : list bytes)
| Writing (ops : list wop) (out : bytes).

(** The shared variables, defaultPadK being [pads k]. *)
Definition pads := nat -> bytes.

(** Assignment of one byte of an array. *)
Fixpoint poke (i : nat) (c : byte) (l : bytes) : bytes :=
  match l, i with
  | [], _ => []
  | _ :: l', O => c :: l'
  | x :: l', S i' => x :: poke i' c l'
  end.
Definition store (k i : nat) (c : byte) (p : pads) : pads := fun j => if j =? k then poke i c (p j) else p j.

(** One move.  [binary.Read] fetches all bytes of an element into a buffer of
    its own first and then assigns the destination byte by byte (package
    encoding/binary, an array being decoded element by element). *)
Definition rmove (p : pads) (t : routine) : pads * routine :=
  match t with
  | Reading [] inp kept => (p, t)
  | Reading (o :: ops) inp kept =>
      let k := match o with RKeep k | RDrop k => k end in
      if length inp <? k
      then (p, Stopped (match inp with [] => EOF | _ => UnexpectedEOF end) [] kept)
      else match o with
           | RKeep _ => (p, Reading ops (skipn k inp) (kept ++ [firstn k inp]))
           | RDrop _ => (p, Storing k 0 (firstn k inp) ops (skipn k inp) kept)
           end
  | Storing k i b ops inp kept =>
      match nth_error b i with
      | Some c => (store k i c p, Storing k (S i) b ops inp kept)
      | None => (p, Reading ops inp kept)
      end
  | Stopped _ _ _ => (p, t)
  | Writing [] out => (p, t)
  | Writing (WVal b :: ops) out => (p, Writing ops (out ++ b))
  | Writing (WZero k :: ops) out => (p, Writing ops (out ++ zeros k))
  | Writing (WShared k :: ops) out => (p, Writing ops (out ++ p k))
  end.

(** All goroutines and the shared variables; a schedule says who moves. *)
Record world := World { wpads : pads; wthreads : nat -> routine }.
Definition wmove (w : world) (i : nat) : world :=
  let '(p, t) := rmove (wpads w) (wthreads w i) in
  World p (fun j => if j =? i then t else wthreads w j).
Definition wrun (sch : list nat) (w : world) : world := fold_left wmove sch w.
