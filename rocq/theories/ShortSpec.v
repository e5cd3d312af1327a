(** What reading the beginning of a group, meter, queue or hello message reports,
    stated with the layout only, as in TruncSpec. *)
From Verif Require Import TruncSpec ListSpec GroupModel MeterModel QueueModel HelloModel.

(** The messages that carry lists. *)
Inductive lkind := LGroupMod | LGroupDescStats | LGroupStats | LMeterMod | LMeterConfig | LMeterStats
  | LPacketQueue | LQueueReply | LHello.
Definition lmsg (k : lkind) : Type :=
  match k with
  | LGroupMod => GroupMod | LGroupDescStats => GroupDescStats | LGroupStats => GroupStats
  | LMeterMod => MeterMod | LMeterConfig => MeterConfig | LMeterStats => MeterStats
  | LPacketQueue => PacketQueue | LQueueReply => QueueGetConfigReply | LHello => Hello
  end.
Definition lenc (k : lkind) : lmsg k -> bytes :=
  match k with
  | LGroupMod => enc_GroupMod | LGroupDescStats => enc_GroupDescStats | LGroupStats => enc_GroupStats
  | LMeterMod => enc_MeterMod | LMeterConfig => enc_MeterConfig | LMeterStats => enc_MeterStats
  | LPacketQueue => enc_PacketQueue | LQueueReply => enc_QueueGetConfigReply | LHello => enc_Hello
  end.
Definition ldec (k : lkind) : step (lmsg k) :=
  match k with
  | LGroupMod => dec_GroupMod | LGroupDescStats => dec_GroupDescStats | LGroupStats => dec_GroupStats
  | LMeterMod => dec_MeterMod | LMeterConfig => dec_MeterConfig | LMeterStats => dec_MeterStats
  | LPacketQueue => dec_PacketQueue | LQueueReply => dec_QueueGetConfigReply | LHello => dec_Hello
  end.
Definition lwf (k : lkind) : lmsg k -> Prop :=
  match k with
  | LGroupMod => wf_GroupMod | LGroupDescStats => wf_GroupDescStats | LGroupStats => wf_GroupStats
  | LMeterMod => wf_MeterMod | LMeterConfig => wf_MeterConfig | LMeterStats => wf_MeterStats
  | LPacketQueue => wf_PacketQueue | LQueueReply => wf_QueueGetConfigReply | LHello => wf_Hello
  end.

(** The first [n] bytes of entries that are read until the end of the stream: an
    end between two members passes for the end of the list. *)
Fixpoint until_end (l : list (nat * (nat -> finding))) (n : nat) : finding :=
  match l with
  | [] => Fine
  | (k, v) :: l' =>
      if k <=? n then until_end l' (n - k) else match v n with Broken => Broken | _ => Fine end
  end.

Definition bucket_cut (m : Bucket) : nat -> finding :=
  followed 16 (fields [2; 2; 4; 4; 4]) (actions_cut (Bucket_Actions m)).
Definition buckets_cut (l : list Bucket) : nat -> finding :=
  until_end (map (fun b => (bucket_size b, bucket_cut b)) l).
(** Pairs of counters. *)
Definition counters_cut {A} (l : list A) : nat -> finding := until_end (map (fun _ => (16, fields [8; 8])) l).

Definition band_cut (x : MeterBand) : nat -> finding :=
  match x with
  | BandDrop _ _ | BandExperimenter _ _ _ => fields [4; 4; 4; 4]
  | BandDSCPRemark _ _ _ => fields [4; 4; 4; 1; 3]
  end.
Definition bands_cut (l : list MeterBand) : nat -> finding := elements (map (fun x => (16, band_cut x)) l).

Definition queue_prop_cut (x : QueueProp) : nat -> finding :=
  match x with
  | PropMinRate _ | PropMaxRate _ => fields [8; 2; 6]
  | PropQueueExperimenter _ _ => followed 16 (fields [4; 4; 4; 4]) (fun _ => Fine)
  end.
Definition queue_cut (m : PacketQueue) : nat -> finding :=
  followed 16 (fields [4; 4; 2; 6])
    (elements (map (fun x => (queue_prop_size x, queue_prop_cut x)) (PacketQueue_Properties m))).

Definition hello_elem_cut (m : HelloElem) : nat -> finding := fields [4; hello_elem_size m - 4].

(** The members before the list. *)
Definition lfront (k : lkind) : list nat :=
  match k with
  | LGroupMod => [2; 1; 1; 4]
  | LGroupDescStats => [2; 1; 1; 4]
  | LGroupStats => [2; 2; 4; 4; 4; 8; 8; 4; 4]
  | LMeterMod | LMeterConfig => [2; 2; 4]
  | LMeterStats => [4; 2; 6; 4; 8; 8; 4; 4]
  | LPacketQueue => [4; 4; 2; 6]
  | LQueueReply => [4; 4]
  | LHello => []
  end.

(** Group descriptions and meter statistics do not notice anything in front of
    the list. *)
Definition blind (k : lkind) : bool := match k with LGroupDescStats | LMeterStats => true | _ => false end.

Definition list_cut (k : lkind) : lmsg k -> nat -> finding :=
  match k with
  | LGroupMod => fun m => buckets_cut (GroupMod_Buckets m)
  | LGroupDescStats => fun m => buckets_cut (GroupDescStats_Buckets m)
  | LGroupStats => fun m => counters_cut (GroupStats_BucketStats m)
  | LMeterMod => fun m => bands_cut (MeterMod_Bands m)
  | LMeterConfig => fun m => bands_cut (MeterConfig_Bands m)
  | LMeterStats => fun m => counters_cut (MeterStats_BandStats m)
  | LPacketQueue => fun m => elements (map (fun x => (queue_prop_size x, queue_prop_cut x)) (PacketQueue_Properties m))
  | LQueueReply => fun m => until_end (map (fun q => (packetqueue_size q, queue_cut q)) (QueueGetConfigReply_Queues m))
  | LHello => fun m => elements (map (fun e => (hello_elem_size e, hello_elem_cut e)) (Hello_Elements m))
  end.

Definition short_finding (k : lkind) (m : lmsg k) : nat -> finding :=
  followed (list_sum (lfront k)) (if blind k then fun _ => Fine else fields (lfront k)) (list_cut k m).

(** The sizes of the elements of a message. *)
Definition elem_sizes (k : lkind) : lmsg k -> list nat :=
  match k with
  | LGroupMod => fun m => map bucket_size (GroupMod_Buckets m)
  | LGroupDescStats => fun m => map bucket_size (GroupDescStats_Buckets m)
  | LGroupStats => fun m => map (fun _ => 16) (GroupStats_BucketStats m)
  | LMeterMod => fun m => map (fun _ => 16) (MeterMod_Bands m)
  | LMeterConfig => fun m => map (fun _ => 16) (MeterConfig_Bands m)
  | LMeterStats => fun m => map (fun _ => 16) (MeterStats_BandStats m)
  | LPacketQueue => fun m => map queue_prop_size (PacketQueue_Properties m)
  | LQueueReply => fun m => map packetqueue_size (QueueGetConfigReply_Queues m)
  | LHello => fun m => map hello_elem_size (Hello_Elements m)
  end.
