(** The length an element declares and what it should govern.  The elements are
    given by the size of their part of fixed size and the place of their length
    field. *)
From Verif Require Import Bytes Encoding ActionModel InstructionModel GroupModel MeterModel QueueModel.

(** The elements with a list or data behind a part of fixed size. *)
Inductive wkind := WBucket | WGroupStats | WGroupDesc | WMeterConfig | WMeterStats | WPacketQueue
  | WQueueExperimenter | WSetField | WActions.
Definition wmsg (k : wkind) : Type :=
  match k with
  | WBucket => Bucket | WGroupStats => GroupStats | WGroupDesc => GroupDescStats | WMeterConfig => MeterConfig
  | WMeterStats => MeterStats | WPacketQueue => PacketQueue | WQueueExperimenter => QueueProp
  | WSetField => Action | WActions => Instruction
  end.
Definition wdec (k : wkind) : step (wmsg k) :=
  match k with
  | WBucket => dec_Bucket | WGroupStats => dec_GroupStats | WGroupDesc => dec_GroupDescStats
  | WMeterConfig => dec_MeterConfig | WMeterStats => dec_MeterStats | WPacketQueue => dec_PacketQueue
  | WQueueExperimenter => dec_QueueProp | WSetField => dec_Action | WActions => dec_Instruction
  end.
(** The values of that Go type. *)
Definition receives (k : wkind) : wmsg k -> Prop :=
  match k with
  | WQueueExperimenter => fun m => exists e d, m = PropQueueExperimenter e d
  | WSetField => fun m => exists x, m = ASetField x
  | WActions => fun m => exists l, m = IApplyActions l \/ m = IWriteActions l
  | _ => fun _ => True
  end.

(** OpenFlow 1.3: size of the fixed part (the least length an element may
    declare), and the offset of the length. *)
Definition fixed_part (k : wkind) : nat :=
  match k with
  | WBucket => 16 | WGroupStats => 40 | WGroupDesc => 8 | WMeterConfig => 8 | WMeterStats => 40
  | WPacketQueue => 16 | WQueueExperimenter => 16 | WSetField => 4 | WActions => 8
  end.
Definition length_at (k : wkind) : nat :=
  match k with
  | WBucket | WGroupStats | WGroupDesc | WMeterConfig => 0
  | WMeterStats => 4 | WPacketQueue => 8
  | WQueueExperimenter | WSetField | WActions => 2
  end.

(** The bytes [h] with [n] in the two bytes at [off]. *)
Definition declare (off : nat) (n : N) (h : bytes) : bytes :=
  firstn off h ++ be_enc 2 n ++ skipn (off + 2) h.

(** How many bytes an element with a fixed part of [F] bytes takes at most when
    it declares [n]: the bytes it declares, and 65536 more if that is below its
    fixed part. *)
Definition span (F : nat) (n : N) : N := if (n <? N.of_nat F)%N then (65536 + n)%N else n.
