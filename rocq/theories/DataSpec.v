(** What messages with trailing data carry, and which messages a peer can decode
    after they were sent as the body of a request. *)
From Verif Require Import Bytes WireSpec DataModel MatchSpec FlowModel FlowSpec FixedModel FixedSpec RequestModel.

(** Field ranges. *)
Definition wf_Error (m : Error) : Prop := fits 2 (Error_Type m) /\ fits 2 (Error_Code m).
Definition wf_ErrorExperimenter (m : ErrorExperimenter) : Prop :=
  fits 2 (ErrorExperimenter_ExpType m) /\ fits 4 (ErrorExperimenter_Experimenter m).
Definition wf_MultipartRequest (m : MultipartRequest) : Prop :=
  fits 2 (MultipartRequest_Type m) /\ fits 2 (MultipartRequest_Flags m).

(** Layouts: OpenFlow 1.3, sections 7.4.4 (error), 7.3.5 (multipart). *)
Definition layout_Error (m : Error) : list (nat * item) :=
  [(0, Num 2 (Error_Type m)); (2, Num 2 (Error_Code m)); (4, Raw (length (Error_Data m)) (Error_Data m))].
Definition layout_ErrorExperimenter (m : ErrorExperimenter) : list (nat * item) :=
  [(0, Num 2 65535); (2, Num 2 (ErrorExperimenter_ExpType m)); (4, Num 4 (ErrorExperimenter_Experimenter m));
   (8, Raw (length (ErrorExperimenter_Data m)) (ErrorExperimenter_Data m))].
Definition layout_MultipartRequest (m : MultipartRequest) (b : bytes) : list (nat * item) :=
  [(0, Num 2 (MultipartRequest_Type m)); (2, Num 2 (MultipartRequest_Flags m)); (4, Zero 4);
   (8, Raw (length b) b)].

(** The data a multipart body stands for. *)
Definition mcontent (b : mbody) : option bytes :=
  match b with
  | MNil => Some []
  | MWriter w _ _ _ => match perr w with None => Some (pbytes w) | Some _ => None end
  | MBuf x => Some x
  | MPlain r => match fin r with EOF => Some (data r) | _ => None end
  end.

(** The messages whose every value is decoded unchanged, up to the cutting of text
    that does not fit its field: type of value, ranges, encoder, decoder, what
    arrives. *)
Inductive message : forall A : Type, (A -> Prop) -> (A -> bytes) -> step A -> (A -> A) -> Prop :=
| m_fixed k : message (msg k) (wf k) (enc k) (dec k) (normal k)
| m_echo_request : message EchoRequest (fun _ => True) enc_EchoRequest dec_EchoRequest (fun m => m)
| m_echo_reply : message EchoReply (fun _ => True) enc_EchoReply dec_EchoReply (fun m => m)
| m_error : message Error wf_Error enc_Error dec_Error (fun m => m)
| m_experimenter :
    message ErrorExperimenter wf_ErrorExperimenter enc_ErrorExperimenter dec_ErrorExperimenter (fun m => m)
| m_flow_mod : message FlowMod wf_FlowMod enc_FlowMod dec_FlowMod (fun m => m)
| m_flow_removed : message FlowRemoved wf_FlowRemoved enc_FlowRemoved dec_FlowRemoved (fun m => m)
| m_flow_stats_request :
    message FlowStatsRequest wf_FlowStatsRequest enc_FlowStatsRequest dec_FlowStatsRequest (fun m => m)
| m_aggregate_request :
    message AggregateStatsRequest wf_AggregateStatsRequest enc_AggregateStatsRequest dec_AggregateStatsRequest
      (fun m => m)
| m_packet_in : message PacketIn wf_PacketIn enc_PacketIn dec_PacketIn (fun m => m)
| m_packet_out : message PacketOut wf_PacketOut enc_PacketOut dec_PacketOut (fun m => m).
