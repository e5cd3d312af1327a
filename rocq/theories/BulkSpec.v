(** How much a value of a message holds beyond the members of fixed size:
    the elements of its lists and the bytes of its slices. *)
From Verif Require Export PortsModel DataModel TableModel QueueModel HelloModel MeterModel GroupModel FlowModel.

(** A list counts one per element and what the elements hold. *)
Fixpoint bulk_list {A} (w : A -> nat) (l : list A) : nat :=
  match l with [] => 0 | x :: l' => 1 + w x + bulk_list w l' end.

Definition nothing {A} (_ : A) : nat := 0.

Definition bulk_XM (x : XM) : nat := length (XM_Value x) + length (XM_Mask x).
Definition bulk_Match (m : Match) : nat := bulk_list bulk_XM (Match_Fields m).
Definition bulk_Action (a : Action) : nat := match a with ASetField f => bulk_XM f | _ => 0 end.
Definition bulk_Actions : list Action -> nat := bulk_list bulk_Action.
Definition bulk_Instruction (i : Instruction) : nat :=
  match i with IApplyActions l | IWriteActions l => bulk_Actions l | _ => 0 end.
Definition bulk_Instructions : list Instruction -> nat := bulk_list bulk_Instruction.
Definition bulk_FlowMod (m : FlowMod) : nat := bulk_Match (FlowMod_Match m) + bulk_Instructions (FlowMod_Instructions m).
Definition bulk_FlowStats (m : FlowStats) : nat := bulk_Match (FlowStats_Match m) + bulk_Instructions (FlowStats_Instructions m).
Definition bulk_FlowRemoved (m : FlowRemoved) : nat := bulk_Match (FlowRemoved_Match m).
Definition bulk_FlowStatsRequest (m : FlowStatsRequest) : nat := bulk_Match (FlowStatsRequest_Match m).
Definition bulk_AggregateStatsRequest (m : AggregateStatsRequest) : nat := bulk_Match (AggregateStatsRequest_Match m).
Definition bulk_PacketIn (m : PacketIn) : nat := bulk_Match (PacketIn_Match m) + length (PacketIn_Data m).
Definition bulk_PacketOut (m : PacketOut) : nat := bulk_Actions (PacketOut_Actions m) + length (PacketOut_Data m).
Definition bulk_Bucket (m : Bucket) : nat := bulk_Actions (Bucket_Actions m).
Definition bulk_GroupMod (m : GroupMod) : nat := bulk_list bulk_Bucket (GroupMod_Buckets m).
Definition bulk_GroupDescStats (m : GroupDescStats) : nat := bulk_list bulk_Bucket (GroupDescStats_Buckets m).
Definition bulk_GroupStats (m : GroupStats) : nat := bulk_list nothing (GroupStats_BucketStats m).
Definition bulk_MeterBands : list MeterBand -> nat := bulk_list nothing.
Definition bulk_MeterMod (m : MeterMod) : nat := bulk_MeterBands (MeterMod_Bands m).
Definition bulk_MeterConfig (m : MeterConfig) : nat := bulk_MeterBands (MeterConfig_Bands m).
Definition bulk_MeterStats (m : MeterStats) : nat := bulk_list nothing (MeterStats_BandStats m).
Definition bulk_QueueProp (x : QueueProp) : nat := match x with PropQueueExperimenter _ d => length d | _ => 0 end.
Definition bulk_QueueProps : list QueueProp -> nat := bulk_list bulk_QueueProp.
Definition bulk_PacketQueue (m : PacketQueue) : nat := bulk_QueueProps (PacketQueue_Properties m).
Definition bulk_QueueGetConfigReply (m : QueueGetConfigReply) : nat := bulk_list bulk_PacketQueue (QueueGetConfigReply_Queues m).
Definition bulk_HelloElem (m : HelloElem) : nat := length (HelloElem_Bitmaps m).
Definition bulk_HelloElems : list HelloElem -> nat := bulk_list bulk_HelloElem.
Definition bulk_Hello (m : Hello) : nat := bulk_HelloElems (Hello_Elements m).
Definition bulk_TableProp (p : TableProp) : nat :=
  match p with
  | TInstructions _ l | TNextTables _ l | TWriteActions _ l | TApplyActions _ l => length l
  | TMatch l | TWildcards l | TWriteSetField _ l | TApplySetField _ l => bulk_list bulk_XM l
  | TExperimenter _ _ _ d => length d
  end.
Definition bulk_TableFeatures (m : TableFeatures) : nat := bulk_list bulk_TableProp (TableFeatures_Properties m).
Definition bulk_MultipartRequest (m : MultipartRequest) : nat :=
  match MultipartRequest_Body m with MWriter _ buf _ _ => length buf | MBuf b => length b | MNil | MPlain _ => 0 end.

(** Reading adds at most [64] per byte taken from the reader. *)
Definition frugal {A} (bulk : A -> nat) (rd : step A) : Prop := forall old inp,
  length (rest (rd old inp)) <= length inp
  /\ bulk (val (rd old inp)) <= bulk old + 64 * (length inp - length (rest (rd old inp))).

(** The same but for one element of announced size, at most 65535. *)
Definition nearly_frugal {A} (bulk : A -> nat) (rd : step A) : Prop := forall old inp,
  length (rest (rd old inp)) <= length inp
  /\ bulk (val (rd old inp)) <= bulk old + 64 * (length inp - length (rest (rd old inp))) + N.to_nat 65535.

(** A type of messages with its decoder. *)
Inductive bulky := Bulky (A : Type) (bulk : A -> nat) (rd : step A).
