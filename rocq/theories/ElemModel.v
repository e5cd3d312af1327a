(** Messages whose lists hold elements of any type: the lists of actions,
    instructions, bands, queue properties, hello elements and table properties are
    lists of interface values, so that a program can put values of its own types, or
    nil, into them. *)
From Verif Require Export WriterModel.

(** What WriteTo of an element does: the bytes it writes and the error it returns.
    Simplification: it makes at most one Write call. *)
Record elem := MkElem { ebytes : bytes; eerr : option err }.

(** A nil interface value: calling its method panics. *)
Definition nil_elem : elem := MkElem [] (Some EPanic).

(** The loop over a list that writes into a buffer and gives up at the first error:
    Actions.bytes, ofp/action.go:172-183; Instructions.WriteTo, ofp/instruction.go:111-116;
    HelloElems.WriteTo, ofp/handshake.go:50-55; QueueProps.WriteTo, ofp/queue.go:60-65;
    TableFeatures.WriteTo, ofp/table.go:139-144; also WriteSliceTo,
    internal/encoding/encoding.go:120-143, and MeterBands.WriteTo, ofp/meter.go:105-118,
    when they write into a buffer. *)
Fixpoint collect (l : list elem) : bytes + err :=
  match l with
  | [] => inl []
  | x :: l' =>
      match eerr x with
      | Some e => inr e
      | None => match collect l' with inl b => inl (ebytes x ++ b) | inr e => inr e end
      end
  end.

(** What is made of the collected bytes, if they could be collected. *)
Definition wrapping (f : bytes -> bytes) (r : bytes + err) : bytes + err :=
  match r with inl b => inl (f b) | inr e => inr e end.

(** The result of a WriteTo that hands its bytes over in one piece, as an element of
    an enclosing list. *)
Definition as_elem (r : bytes + err) : elem :=
  match r with inl b => MkElem b None | inr e => MkElem [] (Some e) end.

(** An instruction: any, or one of type [t] with a list of actions
    (writeInstructionActions, ofp/instruction.go:205-220). *)
Inductive own_instruction := IAny (x : elem) | IActions (t : N) (l : list elem).

Definition instruction_elem (i : own_instruction) : elem :=
  match i with
  | IAny x => x
  | IActions t l =>
      as_elem (wrapping (fun b => concat [u16 t; u16 (uwrap 2 (uwrap 2 (N.of_nat (length b)) + 8)); pad 4; b])
                        (collect l))
  end.

(** A bucket: weight, watched port and group, actions; Bucket.WriteTo,
    ofp/group.go:148-160. *)
Record own_bucket := MkOwnBucket { own_weight : N; own_port : N; own_group : N; own_actions : list elem }.

Definition bucket_result (k : own_bucket) : bytes + err :=
  wrapping (fun b => concat [u16 (uwrap 2 (N.of_nat (16 + length b))); u16 (own_weight k); u32 (own_port k);
                             u32 (own_group k); pad 4; b])
           (collect (own_actions k)).

(** A queue: number, port, properties; PacketQueue.WriteTo, ofp/queue.go:113-122. *)
Record own_queue := MkOwnQueue { own_number : N; own_qport : N; own_props : list elem }.

Definition queue_result (q : own_queue) : bytes + err :=
  wrapping (fun b => concat [u32 (own_number q); u32 (own_qport q); u16 (uwrap 2 (N.of_nat (length b + 16)));
                             pad 6; b])
           (collect (own_props q)).

(** The values with such lists. [WFlowMod], [WFlowStats] and [WTableFeatures] take
    the other members from a message whose own list is not looked at. *)
Inductive own :=
| WActions (l : list elem) | WInstructions (l : list own_instruction) | WInstruction (i : own_instruction)
| WPacketOut (buffer port : N) (l : list elem) (packet : bytes)
| WFlowMod (m : FlowMod) (l : list own_instruction) | WFlowStats (m : FlowStats) (l : list own_instruction)
| WBucket (k : own_bucket)
| WGroupMod (c t g : N) (l : list own_bucket) | WGroupDescStats (t g : N) (l : list own_bucket)
| WMeterBands (l : list elem) | WMeterMod (c f m : N) (l : list elem) | WMeterConfig (f m : N) (l : list elem)
| WHello (l : list elem)
| WQueueProps (l : list elem) | WPacketQueue (q : own_queue) | WQueueGetConfigReply (p : N) (l : list own_queue)
| WTableFeatures (m : TableFeatures) (l : list elem).

(** Their bytes, or the error met on the way. *)
Definition own_result (v : own) : bytes + err :=
  match v with
  | WActions l | WMeterBands l | WHello l | WQueueProps l => collect l
  | WInstructions l => collect (map instruction_elem l)
  | WInstruction i => collect [instruction_elem i]
  | WPacketOut b p l d =>
      wrapping (fun x => concat [u32 b; u32 p; u16 (uwrap 2 (N.of_nat (length x))); pad 6; x; d]) (collect l)
  | WFlowMod m l =>
      wrapping (fun x => enc_FlowMod (set_FlowMod_Instructions [] m) ++ x) (collect (map instruction_elem l))
  | WFlowStats m l =>
      wrapping (fun x => let buf := skipn 2 (enc_FlowStats (set_FlowStats_Instructions [] m)) ++ x in
                         u16 (uwrap 2 (N.of_nat (length buf + 2))) ++ buf)
               (collect (map instruction_elem l))
  | WBucket k => bucket_result k
  | WGroupMod c t g l =>
      wrapping (fun x => concat [u16 c; u8 t; pad 1; u32 g; x]) (collect (map (fun k => as_elem (bucket_result k)) l))
  | WGroupDescStats t g l =>
      wrapping (fun x => concat [u16 (uwrap 2 (N.of_nat (8 + length x))); u8 t; pad 1; u32 g; x])
               (collect (map (fun k => as_elem (bucket_result k)) l))
  | WMeterMod c f m l => wrapping (fun x => concat [u16 c; u16 f; u32 m; x]) (collect l)
  | WMeterConfig f m l =>
      wrapping (fun x => concat [u16 (uwrap 2 (N.of_nat (8 + length x))); u16 f; u32 m; x]) (collect l)
  | WPacketQueue q => queue_result q
  | WQueueGetConfigReply p l =>
      wrapping (fun x => concat [u32 p; pad 4; x]) (collect (map (fun q => as_elem (queue_result q)) l))
  | WTableFeatures m l =>
      wrapping (fun x => concat [u16 (uwrap 2 (N.of_nat (64 + length x))); u8 (TableFeatures_Table m); pad 5;
                                 fixtext 32 (TableFeatures_Name m); u64 (TableFeatures_MetadataMatch m);
                                 u64 (TableFeatures_MetadataWrite m); u32 (TableFeatures_Config m);
                                 u32 (TableFeatures_MaxEntries m); x])
               (collect l)
  end.

(** WriteTo of an element whose destination is that of the list. *)
Definition elem_to (x : elem) : writing :=
  one_by_one [at_once (ebytes x); fun _ h => Outcome 0 (eerr x) h].

(** Their WriteTo methods: GroupMod and MeterBands hand the parts over one by one
    (ofp/group.go:96-104, ofp/meter.go:105-118), an instruction is written by the
    method of its own, the others end in one encoding.WriteTo. *)
Definition write_own (v : own) : writing :=
  match v with
  | WGroupMod c t g l =>
      one_by_one [at_once (concat [u16 c; u8 t; pad 1; u32 g]);
                  one_by_one (map (fun k => write_elems (bucket_result k)) l)]
  | WMeterBands l => one_by_one (map elem_to l)
  | WInstruction (IAny x) => elem_to x
  | _ => write_elems (own_result v)
  end.
