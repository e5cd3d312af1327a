(** Writing values into a destination that may fail: the WriteTo methods of the
    package ofp as sequences of [Write] calls.  The bytes of each part are those
    of the encoders of the other model files; here it matters which parts are
    collected in a buffer first and which go to the destination one by one. *)
From Verif Require Export DataModel GroupModel MeterModel QueueModel HelloModel TableModel VaryingModel.

(** A destination ([io.Writer]): the earlier [Write] calls and the bytes of the
    present one to the returned count and error. *)
Definition destination := list bytes -> bytes -> nat * option err.

(** Outcome of [x.WriteTo(w)]: the returned count and error and all [Write]
    calls made so far. *)
Record outcome := Outcome { count : nat; error : option err; calls : list bytes }.

(** A WriteTo method at work: earlier calls to outcome. *)
Definition writing := destination -> list bytes -> outcome.

(** bytes.Buffer.WriteTo of the standard library: an empty buffer calls nothing;
    a count that is too large panics; the error of the destination comes before
    io.ErrShortWrite ([EShort]). *)
Definition buffer_to (b : bytes) : writing := fun w h =>
  match b with
  | [] => Outcome 0 None h
  | _ =>
      let '(m, e) := w h b in
      if length b <? m then Outcome m (Some EPanic) (h ++ [b])
      else Outcome m (match e with
                      | Some x => Some x
                      | None => if m =? length b then None else Some EShort
                      end) (h ++ [b])
  end.

(** encoding.WriteTo, internal/encoding/encoding.go:66-88: the elements go to a
    buffer, an element that fails ends it with nothing written. *)
Definition write_elems (b : bytes + err) : writing := fun w h =>
  match b with inl x => buffer_to x w h | inr e => Outcome 0 (Some e) h end.

(** Writes one after another, counts added, up to the first error: the loop of
    encoding.WriteSliceTo, internal/encoding/encoding.go:120-143, of
    MeterBands.WriteTo, ofp/meter.go:105-118, and consecutive statements. *)
Fixpoint one_by_one (ws : list writing) : writing := fun w h =>
  match ws with
  | [] => Outcome 0 None h
  | f :: ws' =>
      let o := f w h in
      match error o with
      | Some e => o
      | None => let o' := one_by_one ws' w (calls o) in
                Outcome (count o + count o') (error o') (calls o')
      end
  end.

(** Everything an encoder produces through one encoding.WriteTo. *)
Definition at_once (b : bytes) : writing := write_elems (inl b).

(** GroupMod.WriteTo, ofp/group.go:96-104: the buckets (148-160) directly. *)
Definition write_GroupMod (m : GroupMod) : writing :=
  one_by_one [at_once (concat [u16 (GroupMod_Command m); u8 (GroupMod_Type m); pad 1; u32 (GroupMod_Group m)]);
              one_by_one (map (fun b => at_once (enc_Bucket b)) (GroupMod_Buckets m))].

(** MeterBands.WriteTo, ofp/meter.go:105-118. *)
Definition write_MeterBands (l : list MeterBand) : writing :=
  one_by_one (map (fun x => at_once (enc_MeterBand x)) l).

(** writeTablePropXM, ofp/table.go:350-366. *)
Definition write_prop_xm (t : N) (l : list XM) : writing :=
  let headerlen := 4 + 4 * length l in
  one_by_one [at_once (prop_header t (uwrap 2 (N.of_nat headerlen)));
              one_by_one (map (fun x => at_once (enc_XM x)) l);
              at_once (pad (pad_len headerlen))].

(** TablePropInstructions.WriteTo, ofp/table.go:450-467. *)
Definition write_prop_instructions (t : N) (l : list N) : writing :=
  let len := uwrap 2 (N.of_nat (4 + 4 * length l)) in
  one_by_one [at_once (prop_header t len ++ bare l); at_once (pad (pad_len (N.to_nat len)))].

(** The WriteTo methods of table properties, ofp/table.go:450-467, 524-530,
    573-575, 609-611, 633-635, 657-659, 687-689, 723-725, 759-765. *)
Definition write_TableProp (p : TableProp) : writing :=
  match p with
  | TInstructions _ l => write_prop_instructions (prop_type p) l
  | TMatch l | TWildcards l | TWriteSetField _ l | TApplySetField _ l => write_prop_xm (prop_type p) l
  | TNextTables _ _ | TWriteActions _ _ | TApplyActions _ _ | TExperimenter _ _ _ _ => at_once (enc_TableProp p)
  end.

(** The values of the package that can be written. *)
Inductive value :=
| OFixed (k : kind) (m : msg k)
| OVarying (k : vkind) (m : vmsg k)
| OPortMod (m : PortMod)
| OXM (m : XM) | OAction (m : Action) | OInstruction (m : Instruction)
| OGroupMod (m : GroupMod) | OGroupStats (m : GroupStats) | OGroupDescStats (m : GroupDescStats)
| OMeterBand (m : MeterBand) | OMeterBands (l : list MeterBand) | OMeterMod (m : MeterMod)
| OMeterConfig (m : MeterConfig) | OMeterStats (m : MeterStats)
| OQueueProp (m : QueueProp) | OQueueProps (l : list QueueProp) | OPacketQueue (m : PacketQueue)
| OQueueGetConfigReply (m : QueueGetConfigReply)
| OHelloElem (m : HelloElem) | OHelloElems (l : list HelloElem) | OHello (m : Hello)
| OEchoRequest (m : EchoRequest) | OEchoReply (m : EchoReply) | OError (m : Error)
| OErrorExperimenter (m : ErrorExperimenter) | OMultipartRequest (m : MultipartRequest)
| OTableProp (m : TableProp) | OTableFeatures (m : TableFeatures).

(** What their encoders produce, or the error of an element. *)
Definition encoding_of (v : value) : bytes + err :=
  match v with
  | OFixed k m => inl (enc k m)
  | OVarying k m => inl (venc k m)
  | OPortMod m => inl (enc_PortMod m)
  | OXM m => inl (enc_XM m) | OAction m => inl (enc_Action m) | OInstruction m => inl (enc_Instruction m)
  | OGroupMod m => inl (enc_GroupMod m) | OGroupStats m => inl (enc_GroupStats m)
  | OGroupDescStats m => inl (enc_GroupDescStats m)
  | OMeterBand m => inl (enc_MeterBand m) | OMeterBands l => inl (enc_MeterBands l)
  | OMeterMod m => inl (enc_MeterMod m) | OMeterConfig m => inl (enc_MeterConfig m)
  | OMeterStats m => inl (enc_MeterStats m)
  | OQueueProp m => inl (enc_QueueProp m) | OQueueProps l => inl (enc_QueueProps l)
  | OPacketQueue m => inl (enc_PacketQueue m) | OQueueGetConfigReply m => inl (enc_QueueGetConfigReply m)
  | OHelloElem m => inl (enc_HelloElem m) | OHelloElems l => inl (enc_HelloElems l) | OHello m => inl (enc_Hello m)
  | OEchoRequest m => inl (enc_EchoRequest m) | OEchoReply m => inl (enc_EchoReply m) | OError m => inl (enc_Error m)
  | OErrorExperimenter m => inl (enc_ErrorExperimenter m)
  | OMultipartRequest m => fst (write_MultipartRequest m)
  | OTableProp m => inl (enc_TableProp m) | OTableFeatures m => inl (enc_TableFeatures m)
  end.

(** Their WriteTo methods.  All but four hand everything to one encoding.WriteTo:
    header.go:233-235; ofp/action.go:186-193, 547-567 and the actions in
    between; ofp/instruction.go:108-119, 205-220; ofp/match.go:389-401, 497-513;
    ofp/flow.go:462-476; ofp/group.go:148-160, 243-254, 320-333;
    ofp/meter.go:277-279, 325-336, 467-483; ofp/packet.go:155-167;
    ofp/queue.go:57-68, 113-122, 353-363; ofp/table.go:136-155;
    ofp/handshake.go:48-58; ofp/multipart.go:239-242; ofp/port.go,
    ofp/echo.go:25-27, 63-65. *)
Definition write_value (v : value) : writing :=
  match v with
  | OGroupMod m => write_GroupMod m
  | OMeterBands l => write_MeterBands l
  | OTableProp p => write_TableProp p
  | _ => write_elems (encoding_of v)
  end.
