(** Model of the messages of ofp/queue.go that carry lists. *)
From Verif Require Export MeterModel.

(** The Go types implementing the QueueProp interface, ofp/queue.go:160-248. *)
Inductive QueueProp :=
| PropMinRate (rate : N)
| PropMaxRate (rate : N)
| PropQueueExperimenter (experimenter : N) (data : bytes).

(** The Type methods with the constants of ofp/queue.go:15-27. *)
Definition queue_prop_type (x : QueueProp) : N :=
  match x with PropMinRate _ => 1 | PropMaxRate _ => 2 | PropQueueExperimenter _ _ => 65535 end%N.

(** queuePropTypeMap, ofp/queue.go:30-34. *)
Definition make_queue_prop (t : N) : made QueueProp :=
  (if t =? 1 then MkOk (PropMinRate 0)
   else if t =? 2 then MkOk (PropMaxRate 0)
   else if t =? 65535 then MkOk (PropQueueExperimenter 0 [])
   else MkUnknown)%N.

(** The WriteTo methods, ofp/queue.go:174-177, 200-203, 228-232: the length of
    the experimenter property is 16-bit arithmetic. *)
Definition enc_QueueProp (x : QueueProp) : bytes :=
  match x with
  | PropMinRate r | PropMaxRate r => concat [u16 (queue_prop_type x); u16 16; pad 4; u16 r; pad 6]
  | PropQueueExperimenter e d =>
      concat [u16 (queue_prop_type x); u16 (uwrap 2 (16 + uwrap 2 (N.of_nat (length d)))); pad 4; u32 e; pad 4; d]
  end.

(** Parameters of a property. *)
Definition set_queue_rate (v : N) (x : QueueProp) : QueueProp :=
  match x with PropMinRate _ => PropMinRate v | PropMaxRate _ => PropMaxRate v | _ => x end.
Definition set_queue_experimenter (v : N) (x : QueueProp) : QueueProp :=
  match x with PropQueueExperimenter _ d => PropQueueExperimenter v d | _ => x end.
Definition set_queue_data (d : bytes) (x : QueueProp) : QueueProp :=
  match x with PropQueueExperimenter e _ => PropQueueExperimenter e d | _ => x end.

(** The ReadFrom methods, ofp/queue.go:181-183, 207-209, 236-248: the length is
    read with the type as one value of four bytes. *)
Definition dec_QueueProp : step QueueProp := fun x =>
  match x with
  | PropMinRate _ | PropMaxRate _ => seqr [fpad 8; fu 2 set_queue_rate; fpad 6]
  | PropQueueExperimenter _ _ =>
      with_local 0%N
        (andthen (seqr [fbytes 4 (fun b s => (be_dec (skipn 2 b), snd s)); fpad 4;
                        sub snd (fun m s => (fst s, m)) (fu 4 set_queue_experimenter); fpad 4])
           (fun _ h => limited (Z.of_N (sub16 (fst h) 16))
              (sub snd (fun m s => (fst s, m)) (readall set_queue_data))))
  end x.

(** QueueProps.WriteTo and ReadFrom, ofp/queue.go:57-68, 72-88. *)
Definition enc_QueueProps (l : list QueueProp) : bytes := concat (map enc_QueueProp l).
Definition dec_QueueProps : step (list QueueProp) := lost (scan make_queue_prop dec_QueueProp).

(** PacketQueue, ofp/queue.go:100-109. *)
Record PacketQueue := MkPacketQueue { PacketQueue_Queue : N; PacketQueue_Port : N; PacketQueue_Properties : (list QueueProp) }.
(** Assignments to the fields of PacketQueue and its zero value (ofp/queue.go:100-109). *)
Definition set_PacketQueue_Queue (v : N) (s : PacketQueue) : PacketQueue := MkPacketQueue v (PacketQueue_Port s) (PacketQueue_Properties s).
Definition set_PacketQueue_Port (v : N) (s : PacketQueue) : PacketQueue := MkPacketQueue (PacketQueue_Queue s) v (PacketQueue_Properties s).
Definition set_PacketQueue_Properties (v : (list QueueProp)) (s : PacketQueue) : PacketQueue := MkPacketQueue (PacketQueue_Queue s) (PacketQueue_Port s) v.
Definition zero_PacketQueue : PacketQueue := MkPacketQueue 0%N 0%N [].
(** PacketQueue.WriteTo, ofp/queue.go:113-122: 16-bit conversion of the length. *)
Definition enc_PacketQueue (m : PacketQueue) : bytes :=
  let buf := enc_QueueProps (PacketQueue_Properties m) in
  concat [u32 (PacketQueue_Queue m); u32 (PacketQueue_Port m); u16 (uwrap 2 (N.of_nat (length buf + 16))); pad 6; buf].
(** PacketQueue.ReadFrom, ofp/queue.go:126-138. *)
Definition dec_PacketQueue : step PacketQueue :=
  with_local 0%N
    (andthen (seqr [sub snd (fun m s => (fst s, m)) (fu 4 set_PacketQueue_Queue); sub snd (fun m s => (fst s, m)) (fu 4 set_PacketQueue_Port); fu 2 (fun v s => (v, snd s)); fpad 6])
      (fun _ h => limited (Z.of_N (sub16 (fst h) 16))
         (sub snd (fun m s => (fst s, m)) (sub PacketQueue_Properties set_PacketQueue_Properties dec_QueueProps)))).

(** QueueGetConfigReply, ofp/queue.go:343-349. *)
Record QueueGetConfigReply := MkQueueGetConfigReply { QueueGetConfigReply_Port : N; QueueGetConfigReply_Queues : (list PacketQueue) }.
(** Assignments to the fields of QueueGetConfigReply and its zero value (ofp/queue.go:343-349). *)
Definition set_QueueGetConfigReply_Port (v : N) (s : QueueGetConfigReply) : QueueGetConfigReply := MkQueueGetConfigReply v (QueueGetConfigReply_Queues s).
Definition set_QueueGetConfigReply_Queues (v : (list PacketQueue)) (s : QueueGetConfigReply) : QueueGetConfigReply := MkQueueGetConfigReply (QueueGetConfigReply_Port s) v.
Definition zero_QueueGetConfigReply : QueueGetConfigReply := MkQueueGetConfigReply 0%N [].
(** QueueGetConfigReply.WriteTo, ofp/queue.go:353-363. *)
Definition enc_QueueGetConfigReply (m : QueueGetConfigReply) : bytes :=
  concat [u32 (QueueGetConfigReply_Port m); pad 4; concat (map enc_PacketQueue (QueueGetConfigReply_Queues m))].
(** QueueGetConfigReply.ReadFrom, ofp/queue.go:367-380. *)
Definition dec_QueueGetConfigReply : step QueueGetConfigReply :=
  andthen (seqr [fu 4 set_QueueGetConfigReply_Port; fpad 4]) (fun _ _ => readslice zero_PacketQueue dec_PacketQueue).
