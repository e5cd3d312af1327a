(** What a user expects of lists that hold elements of any type. *)
From Verif Require Export ElemModel.

(** The elements in the order in which they are written. *)
Definition instruction_leaves (i : own_instruction) : list elem :=
  match i with IAny x => [x] | IActions _ l => l end.

Definition leaves (v : own) : list elem :=
  match v with
  | WActions l | WMeterBands l | WHello l | WQueueProps l | WPacketOut _ _ l _
  | WMeterMod _ _ _ l | WMeterConfig _ _ l | WTableFeatures _ l => l
  | WInstruction i => instruction_leaves i
  | WInstructions l | WFlowMod _ l | WFlowStats _ l => flat_map instruction_leaves l
  | WBucket k => own_actions k
  | WGroupMod _ _ _ l | WGroupDescStats _ _ l => flat_map own_actions l
  | WPacketQueue q => own_props q
  | WQueueGetConfigReply _ l => flat_map own_props l
  end.

Fixpoint first_error (l : list elem) : option err :=
  match l with
  | [] => None
  | x :: l' => match eerr x with Some e => Some e | None => first_error l' end
  end.

(** Values handed to the destination in several pieces. *)
Definition in_pieces (v : own) : bool :=
  match v with WGroupMod _ _ _ _ | WMeterBands _ | WInstruction (IAny _) => true | _ => false end.

(** A destination that takes everything, for example a bytes.Buffer. *)
Definition buffer : destination := fun _ b => (length b, None).

(** The value as the payload of a request or a reply. *)
Definition payload_of (v : own) : payload :=
  let o := write_own v buffer [] in MkPayload (concat (WriterModel.calls o)) (WriterModel.error o).

(** Elements of the package. *)
Definition lib (b : bytes) : elem := MkElem b None.
Definition lib_instruction (i : Instruction) : own_instruction :=
  match i with
  | IApplyActions l => IActions 4 (map (fun a => lib (enc_Action a)) l)
  | IWriteActions l => IActions 3 (map (fun a => lib (enc_Action a)) l)
  | _ => IAny (lib (enc_Instruction i))
  end.
Definition lib_bucket (b : Bucket) : own_bucket :=
  MkOwnBucket (Bucket_Weight b) (Bucket_WatchPort b) (Bucket_WatchGroup b)
    (map (fun a => lib (enc_Action a)) (Bucket_Actions b)).
Definition lib_queue (q : PacketQueue) : own_queue :=
  MkOwnQueue (PacketQueue_Queue q) (PacketQueue_Port q)
    (map (fun x => lib (enc_QueueProp x)) (PacketQueue_Properties q)).

(** The bytes of elements one after another. *)
Definition bytes_of (l : list elem) : bytes := concat (map ebytes l).
