(** Models of ofp/echo.go, of the messages of ofp/error.go and of the request of
    ofp/multipart.go: messages that end with data of any length. *)
From Verif Require Export FixedModel RequestModel.

(** EchoRequest and EchoReply, ofp/echo.go:18-21, 56-59. *)
Record EchoRequest := MkEchoRequest { EchoRequest_Data : bytes }.
Record EchoReply := MkEchoReply { EchoReply_Data : bytes }.
(** Assignments to their fields and zero values (ofp/echo.go:18-21, 56-59). *)
Definition set_EchoRequest_Data (v : bytes) (s : EchoRequest) : EchoRequest := MkEchoRequest v.
Definition set_EchoReply_Data (v : bytes) (s : EchoReply) : EchoReply := MkEchoReply v.
Definition zero_EchoRequest : EchoRequest := MkEchoRequest [].
Definition zero_EchoReply : EchoReply := MkEchoReply [].
(** EchoRequest.WriteTo, EchoReply.WriteTo, ofp/echo.go:25-27, 63-65. *)
Definition enc_EchoRequest (m : EchoRequest) : bytes := EchoRequest_Data m.
Definition enc_EchoReply (m : EchoReply) : bytes := EchoReply_Data m.
(** EchoRequest.ReadFrom, EchoReply.ReadFrom, ofp/echo.go:34-45, 69-76. *)
Definition dec_EchoRequest : step EchoRequest := readall set_EchoRequest_Data.
Definition dec_EchoReply : step EchoReply := readall set_EchoReply_Data.

(** Error, ofp/error.go:567-580. *)
Record Error := MkError { Error_Type : N; Error_Code : N; Error_Data : bytes }.
(** Assignments to the fields of Error and its zero value (ofp/error.go:567-580). *)
Definition set_Error_Type (v : N) (s : Error) : Error := MkError v (Error_Code s) (Error_Data s).
Definition set_Error_Code (v : N) (s : Error) : Error := MkError (Error_Type s) v (Error_Data s).
Definition set_Error_Data (v : bytes) (s : Error) : Error := MkError (Error_Type s) (Error_Code s) v.
Definition zero_Error : Error := MkError 0 0 [].
(** Error.WriteTo, ofp/error.go:743-745. *)
Definition enc_Error (m : Error) : bytes := concat [u16 (Error_Type m); u16 (Error_Code m); Error_Data m].
(** Error.ReadFrom, ofp/error.go:749-761. *)
Definition dec_Error : step Error :=
  andthen (seqr [fu 2 set_Error_Type; fu 2 set_Error_Code]) (fun _ _ => readall set_Error_Data).

(** ErrorExperimenter, ofp/error.go:764-773. *)
Record ErrorExperimenter := MkErrorExperimenter {
  ErrorExperimenter_ExpType : N; ErrorExperimenter_Experimenter : N; ErrorExperimenter_Data : bytes }.
(** Assignments to the fields of ErrorExperimenter and its zero value (ofp/error.go:764-773). *)
Definition set_ErrorExperimenter_ExpType (v : N) (s : ErrorExperimenter) : ErrorExperimenter :=
  MkErrorExperimenter v (ErrorExperimenter_Experimenter s) (ErrorExperimenter_Data s).
Definition set_ErrorExperimenter_Experimenter (v : N) (s : ErrorExperimenter) : ErrorExperimenter :=
  MkErrorExperimenter (ErrorExperimenter_ExpType s) v (ErrorExperimenter_Data s).
Definition set_ErrorExperimenter_Data (v : bytes) (s : ErrorExperimenter) : ErrorExperimenter :=
  MkErrorExperimenter (ErrorExperimenter_ExpType s) (ErrorExperimenter_Experimenter s) v.
Definition zero_ErrorExperimenter : ErrorExperimenter := MkErrorExperimenter 0 0 [].
(** ErrorExperimenter.WriteTo, ofp/error.go:777-780; ErrTypeExperimenter is 0xffff
    (ofp/error.go:71). *)
Definition enc_ErrorExperimenter (m : ErrorExperimenter) : bytes :=
  concat [u16 65535; u16 (ErrorExperimenter_ExpType m); u32 (ErrorExperimenter_Experimenter m);
          ErrorExperimenter_Data m].
(** ErrorExperimenter.ReadFrom, ofp/error.go:784-797: the type read is not looked at. *)
Definition dec_ErrorExperimenter : step ErrorExperimenter :=
  andthen (seqr [fpad 2; fu 2 set_ErrorExperimenter_ExpType; fu 4 set_ErrorExperimenter_Experimenter])
    (fun _ _ => readall set_ErrorExperimenter_Data).

(** MultipartRequest.Body, ofp/multipart.go:211-220: nil, the [reader] made by
    NewMultipartRequest around a payload that is not itself an io.Reader
    (ofp/multipart.go:154-167: its buffer, the stored error, whether the payload
    was copied), a [*bytes.Buffer], or a reader that has no WriteTo method and
    whose type binary.Write does not support (as for a file, a connection, a
    limited or buffered reader). *)
Inductive mbody :=
| MNil
| MWriter (w : payload) (buf : bytes) (bufe : option err) (once : bool)
| MBuf (b : bytes)
| MPlain (r : reader).

Record MultipartRequest := MkMultipartRequest {
  MultipartRequest_Type : N; MultipartRequest_Flags : N; MultipartRequest_Body : mbody }.
(** Assignments to the fields of MultipartRequest and its zero value (ofp/multipart.go:211-220). *)
Definition set_MultipartRequest_Type (v : N) (s : MultipartRequest) : MultipartRequest :=
  MkMultipartRequest v (MultipartRequest_Flags s) (MultipartRequest_Body s).
Definition set_MultipartRequest_Flags (v : N) (s : MultipartRequest) : MultipartRequest :=
  MkMultipartRequest (MultipartRequest_Type s) v (MultipartRequest_Body s).
Definition set_MultipartRequest_Body (v : mbody) (s : MultipartRequest) : MultipartRequest :=
  MkMultipartRequest (MultipartRequest_Type s) (MultipartRequest_Flags s) v.
Definition zero_MultipartRequest : MultipartRequest := MkMultipartRequest 0 0 MNil.

(** NewMultipartRequest, ofp/multipart.go:225-235 ([None] is a nil body). *)
Definition new_MultipartRequest (t : N) (w : option payload) : MultipartRequest :=
  MkMultipartRequest t 0 (match w with None => MNil | Some p => MWriter p [] None false end).

(** The error of binary.Write for an unsupported type. *)
Definition EInvalid : err := EUser 3.

(** MultipartRequest.WriteTo, ofp/multipart.go:239-242 through
    internal/encoding/encoding.go:66-88: the bytes written or the error, and
    the body afterwards.  The embedded WriteTo of [reader] is called directly;
    a [*bytes.Buffer] is emptied; a plain reader is handed to binary.Write. *)
Definition write_MultipartRequest (m : MultipartRequest) : (bytes + err) * MultipartRequest :=
  let '(x, b') := match MultipartRequest_Body m with
                  | MNil => (inl [], MNil)
                  | MWriter w buf e once =>
                      (match perr w with None => inl (pbytes w) | Some y => inr y end, MWriter w buf e once)
                  | MBuf b => (inl b, MBuf [])
                  | MPlain r => (inr EInvalid, MPlain r)
                  end in
  (match x with
   | inl b => inl (concat [u16 (MultipartRequest_Type m); u16 (MultipartRequest_Flags m); pad 4; b])
   | inr e => inr e
   end, set_MultipartRequest_Body b' m).

(** MultipartRequest.ReadFrom, ofp/multipart.go:246-258: a new buffer. *)
Definition dec_MultipartRequest : step MultipartRequest :=
  andthen (seqr [fu 2 set_MultipartRequest_Type; fu 2 set_MultipartRequest_Flags; fpad 4])
    (fun _ _ => readall (fun b => set_MultipartRequest_Body (MBuf b))).

(** [Read] with room for [k] bytes on such a body: reader.Read and reader.read,
    ofp/multipart.go:172-199; the stored error is looked at after the copy. *)
Definition mbody_read (k : nat) (b : mbody) : bytes * option err * mbody :=
  match b with
  | MNil => ([], Some EPanic, MNil)
  | MWriter w buf e once =>
      let '(buf1, e1) := if once then (buf, e) else (pbytes w, perr w) in
      match e1 with
      | Some y => ([], Some y, MWriter w buf1 e1 true)
      | None => let '(got, x, buf2) := buffer_read k buf1 in (got, x, MWriter w buf2 None true)
      end
  | MBuf x => let '(got, e, x') := buffer_read k x in (got, e, MBuf x')
  | MPlain r => let '(got, e, r') := read1 k r in (got, e, MPlain r')
  end.

(** A sequence of [Read] calls. *)
Fixpoint mbody_reads (ks : list nat) (b : mbody) : list (bytes * option err) :=
  match ks with
  | [] => []
  | k :: ks' => let '(got, e, b') := mbody_read k b in (got, e) :: mbody_reads ks' b'
  end.
