(** C55, C57 (lists), C69 - C71: messages with trailing data, counts of list
    decoders, multipart bodies, delivery from sender to receiver. *)
From Verif Require Import DataFacts.

(** C55: echo messages carry their data verbatim, whatever the receiver held. *)
Theorem C55_echo_request : forall d old,
  enc_EchoRequest (MkEchoRequest d) = d
  /\ dec_EchoRequest old d = Res (MkEchoRequest d) (length d) None [].
Proof. intros d old. split; [reflexivity|apply (whole_EchoRequest (MkEchoRequest d))]. Qed.
Print Assumptions C55_echo_request.

Theorem C55_echo_reply : forall d old,
  enc_EchoReply (MkEchoReply d) = d
  /\ dec_EchoReply old d = Res (MkEchoReply d) (length d) None [].
Proof. intros d old. split; [reflexivity|apply (whole_EchoReply (MkEchoReply d))]. Qed.
Print Assumptions C55_echo_reply.

Example C55_echo_ex :
  dec_EchoReply (MkEchoReply [x01; x02; x03]) (enc_EchoRequest (MkEchoRequest [xaa; xbb]))
  = Res (MkEchoReply [xaa; xbb]) 2 None [].
Proof. vm_compute. reflexivity. Qed.

(** C55: errors. *)
Theorem C55_error_roundtrip : forall m old, wf_Error m ->
  dec_Error old (enc_Error m) = Res m (4 + length (Error_Data m)) None [].
Proof. intros m old W. rewrite (whole_Error m W old), (lays_length _ _ _ (error_lays m)). reflexivity. Qed.
Print Assumptions C55_error_roundtrip.

Theorem C55_error_layout : forall m,
  laid_out (enc_Error m) (4 + length (Error_Data m)) (layout_Error m).
Proof. intro m. apply lays_laid_out, error_lays. Qed.
Print Assumptions C55_error_layout.

Theorem C55_experimenter_roundtrip : forall m old, wf_ErrorExperimenter m ->
  dec_ErrorExperimenter old (enc_ErrorExperimenter m)
  = Res m (8 + length (ErrorExperimenter_Data m)) None [].
Proof.
  intros m old W. rewrite (whole_ErrorExperimenter m W old), (lays_length _ _ _ (experimenter_lays m)). reflexivity.
Qed.
Print Assumptions C55_experimenter_roundtrip.

Theorem C55_experimenter_layout : forall m,
  laid_out (enc_ErrorExperimenter m) (8 + length (ErrorExperimenter_Data m)) (layout_ErrorExperimenter m).
Proof. intro m. apply lays_laid_out, experimenter_lays. Qed.
Print Assumptions C55_experimenter_layout.

Example C55_error_ex :
  let m := MkError 1 6 [x04; x0e; x00; x08; x00; x00; x00; x01] in
  let x := MkErrorExperimenter 3 4294967295 [x99] in
  wf_Error m /\ wf_ErrorExperimenter x
  /\ enc_Error m = [x00; x01; x00; x06; x04; x0e; x00; x08; x00; x00; x00; x01]
  /\ dec_Error (MkError 9 9 [x01]) (enc_Error m) = Res m 12 None []
  /\ dec_Error zero_Error [x00; x01; x00] = Res (MkError 1 0 []) 3 (Some UnexpectedEOF) []
  /\ enc_ErrorExperimenter x = [xff; xff; x00; x03; xff; xff; xff; xff; x99]
  /\ dec_ErrorExperimenter (MkErrorExperimenter 1 1 [x01; x02]) (enc_ErrorExperimenter x) = Res x 9 None [].
Proof. vm_compute. repeat split; reflexivity. Qed.

(** C55: multipart requests; the receiver holds the body in a buffer. *)
Theorem C55_multipart_roundtrip : forall m b old, wf_MultipartRequest m ->
  mcontent (MultipartRequest_Body m) = Some b -> (forall r, MultipartRequest_Body m <> MPlain r) ->
  exists e, fst (write_MultipartRequest m) = inl e
    /\ laid_out e (8 + length b) (layout_MultipartRequest m b)
    /\ dec_MultipartRequest old e
       = Res (MkMultipartRequest (MultipartRequest_Type m) (MultipartRequest_Flags m) (MBuf b))
             (8 + length b) None [].
Proof.
  intros m b old [W0 W1] C P. eexists. split; [apply write_multipart; [exact C|]|].
  - destruct (MultipartRequest_Body m) as [| | |r]; cbn; auto. exact (P r eq_refl).
  - split; [apply lays_laid_out, multipart_lays|]. rewrite (whole_Multipart _ _ b W0 W1 old).
    rewrite (lays_length _ _ _ (multipart_lays m b)). reflexivity.
Qed.
Print Assumptions C55_multipart_roundtrip.

Example C55_multipart_ex :
  let m := new_MultipartRequest 1 (Some (MkPayload [x01; x02] None)) in
  wf_MultipartRequest m /\ mcontent (MultipartRequest_Body m) = Some [x01; x02]
  /\ fst (write_MultipartRequest m) = inl [x00; x01; x00; x00; x00; x00; x00; x00; x01; x02]
  /\ dec_MultipartRequest (MkMultipartRequest 5 5 (MBuf [xff])) [x00; x01; x00; x00; x00; x00; x00; x00; x01; x02]
     = Res (MkMultipartRequest 1 0 (MBuf [x01; x02])) 10 None [].
Proof. vm_compute. repeat split; reflexivity. Qed.

(** C57: a stray byte after a list of actions or instructions is consumed,
    accepted and not counted. *)
Theorem C57_actions_stray : forall l old c, Forall wf_Action l ->
  dec_Actions old (enc_Actions l ++ [c]) = Res l (length (enc_Actions l)) None [].
Proof.
  intros l old c W. unfold enc_Actions.
  exact (decode_end l _ [c] old (denotes_enc_all l W) (Nat.lt_succ_diag_r 1)).
Qed.
Print Assumptions C57_actions_stray.

Theorem C57_instructions_stray : forall l old c, Forall wf_Instruction l ->
  dec_Instructions old (enc_Instructions l ++ [c]) = Res (old ++ l) (length (enc_Instructions l)) None [].
Proof.
  intros l old c W. pose proof (instructions_at l old [c] W) as E. cbv zeta in E. rewrite E, scan_S.
  cbn [length Nat.ltb Nat.leb val cnt fail rest]. rewrite Nat.add_0_r. reflexivity.
Qed.
Print Assumptions C57_instructions_stray.

Theorem C57_lists_refuted : exists inp : bytes,
  fail (dec_Actions [] inp) = None
  /\ cnt (dec_Actions [] inp) + length (rest (dec_Actions [] inp)) < length inp.
Proof. exists [x00]. vm_compute. split; [reflexivity|apply Nat.lt_succ_diag_r]. Qed.
Print Assumptions C57_lists_refuted.

Example C57_lists_ex :
  Forall wf_Action [APopVLAN]
  /\ dec_Actions [] (enc_Actions [APopVLAN] ++ [x77]) = Res [APopVLAN] 8 None [].
Proof. split; [repeat constructor|vm_compute; reflexivity]. Qed.

(** C69: a multipart request whose body is an ordinary reader cannot be sent:
    it fails for every reader, whatever its content, and leaves it unread. *)
Theorem C69_plain_body_refused : forall t f r,
  write_MultipartRequest (MkMultipartRequest t f (MPlain r))
  = (inr EInvalid, MkMultipartRequest t f (MPlain r)).
Proof. reflexivity. Qed.
Print Assumptions C69_plain_body_refused.

Theorem C69_plain_body_refuted : exists m b, wf_MultipartRequest m
  /\ mcontent (MultipartRequest_Body m) = Some b
  /\ forall e, fst (write_MultipartRequest m) <> inl e.
Proof.
  exists (MkMultipartRequest 1 0 (MPlain (MkReader [x01] [] EOF false))), [x01].
  split; [split; reflexivity|]. split; [reflexivity|]. intros e H. discriminate H.
Qed.
Print Assumptions C69_plain_body_refuted.

(** C69: a received request can be sent on once; after that its body is gone
    while the write still succeeds.  A new one can be sent any number of times. *)
Theorem C69_forwarded_once : forall t f b,
  let m := MkMultipartRequest t f (MBuf b) in
  let '(e1, m1) := write_MultipartRequest m in
  let '(e2, m2) := write_MultipartRequest m1 in
  e1 = inl (concat [u16 t; u16 f; pad 4; b]) /\ e2 = inl (concat [u16 t; u16 f; pad 4; []]) /\ m2 = m1.
Proof. intros. cbn. repeat split. Qed.
Print Assumptions C69_forwarded_once.

Theorem C69_new_repeatable : forall t w, snd (write_MultipartRequest (new_MultipartRequest t w)) = new_MultipartRequest t w.
Proof. intros t [w|]; reflexivity. Qed.
Print Assumptions C69_new_repeatable.

(** What a new multipart request writes: the given type, no flags, four zero
    bytes and the payload; a failing payload writes nothing and its error comes out. *)
Theorem C69_new_written : forall t w,
  fst (write_MultipartRequest (new_MultipartRequest t w))
  = match w with
    | None => inl (be_enc 2 t ++ [x00; x00; x00; x00; x00; x00])
    | Some (MkPayload p None) => inl (be_enc 2 t ++ [x00; x00; x00; x00; x00; x00] ++ p)
    | Some (MkPayload _ (Some e)) => inr e
    end.
Proof. intros t [[p [e|]]|]; cbn; rewrite ?app_nil_r; reflexivity. Qed.
Print Assumptions C69_new_written.

Example C69_ex :
  fst (write_MultipartRequest (snd (write_MultipartRequest (MkMultipartRequest 1 0 (MBuf [x01])))))
  = inl [x00; x01; x00; x00; x00; x00; x00; x00].
Proof. vm_compute. reflexivity. Qed.

(** C70: reading the body of a new multipart request with buffers of any size
    gives the payload once, then io.EOF; with a failing payload every read
    reports the failure and no data. *)
Theorem C70_multipart_reads : forall ks t p, Forall (fun k => 0 < k) ks ->
  let outs := mbody_reads ks (MultipartRequest_Body (new_MultipartRequest t (Some (MkPayload p None)))) in
  concat (map fst outs) = firstn (list_sum ks) p
  /\ forall i, i < length ks ->
     option_map snd (nth_error outs i)
     = Some (if length p <=? list_sum (firstn i ks) then Some EOF else None).
Proof. exact multipart_reads. Qed.
Print Assumptions C70_multipart_reads.

Theorem C70_multipart_reads_fail : forall ks t p e,
  mbody_reads ks (MultipartRequest_Body (new_MultipartRequest t (Some (MkPayload p (Some e)))))
  = map (fun _ => ([], Some e)) ks.
Proof. exact multipart_reads_fail. Qed.
Print Assumptions C70_multipart_reads_fail.

Example C70_multipart_reads_ex :
  mbody_reads [2; 1; 5; 1] (MultipartRequest_Body (new_MultipartRequest 1 (Some (MkPayload [x01; x02; x03; x04] None))))
  = [([x01; x02], None); ([x03], None); ([x04], None); ([], Some EOF)]
  /\ mbody_reads [4; 4] (MultipartRequest_Body (new_MultipartRequest 1 (Some (MkPayload [x01] (Some (EUser 7))))))
     = [([], Some (EUser 7)); ([], Some (EUser 7))].
Proof. vm_compute. split; reflexivity. Qed.

(** C70: a request made without a body has nothing to read from: every read
    panics.  A request that was received has something to read from, even when
    no body was sent, so that a nil body never means that there is none. *)
Theorem C70_no_body_panics : forall ks t,
  mbody_reads ks (MultipartRequest_Body (new_MultipartRequest t None)) = map (fun _ => ([], Some EPanic)) ks.
Proof. intros ks t. induction ks as [|k ks IH]; [reflexivity|]. cbn in *. now rewrite IH. Qed.
Print Assumptions C70_no_body_panics.

Theorem C70_received_body : forall b t f x old ks, length t = 2 -> length f = 2 -> length x = 4 ->
  Forall (fun k => 0 < k) ks ->
  let m := val (dec_MultipartRequest old (t ++ f ++ x ++ b)) in
  MultipartRequest_Body m = MBuf b
  /\ (b = [] -> mbody_reads ks (MultipartRequest_Body m) = map (fun _ => ([], Some EOF)) ks).
Proof.
  intros b t f x old ks Lt Lf Lx K.
  destruct t as [|? [|? [|? ?]]]; try discriminate Lt.
  destruct f as [|? [|? [|? ?]]]; try discriminate Lf.
  destruct x as [|? [|? [|? [|? [|? ?]]]]]; try discriminate Lx.
  cbn zeta.
  match goal with |- MultipartRequest_Body (val ?r) = _ /\ _ => assert (E : MultipartRequest_Body (val r) = MBuf b) by (cbn; reflexivity) end.
  split; [exact E|]. intro N. rewrite E, N. clear E.
  induction K as [|k ks P K IH]; [reflexivity|]. cbn [mbody_reads map].
  destruct k as [|k]; [lia|]. cbn in *. now rewrite IH.
Qed.
Print Assumptions C70_received_body.

Example C70_no_body_ex :
  mbody_reads [4; 1] (MultipartRequest_Body (new_MultipartRequest 3 None)) = [([], Some EPanic); ([], Some EPanic)]
  /\ mbody_reads [4; 1] (MultipartRequest_Body (val (dec_MultipartRequest zero_MultipartRequest [x00; x03; x00; x00; x00; x00; x00; x00])))
     = [([], Some EOF); ([], Some EOF)].
Proof. vm_compute. split; reflexivity. Qed.

(** C71: a message sent as the body of a new request is what the peer decodes
    from the request it receives, under every fragmentation of the stream. *)
Theorem C71_delivery : forall A ok en de arrives, message A ok en de arrives ->
  forall m, ok m -> (lenN (en m) <= 65527)%N -> forall t x s, fits 1 t -> fits 4 x ->
  let r := set_header (MkHeader 4 t 0 x) (new_request t (Some (MkPayload (en m) None))) in
  exists e q r' b, wcalls (write_to sink r) = [e] /\ werr (write_to sink r) = None
    /\ receive (MkReader e s EOF false) = (inl q, r') /\ data r' = []
    /\ Header_Type (Request_Header q) = t /\ Header_Transaction (Request_Header q) = x
    /\ Request_Body q = BBuf b
    /\ forall old, val (de old b) = arrives m /\ fail (de old b) = None /\ rest (de old b) = [].
Proof.
  intros A ok en de arrives M m W L t x s Ht Hx r.
  destruct (delivered t x (en m) s Ht Hx L) as (e & q & r' & E1 & E2 & E3 & E4 & (Q1 & Q2 & _)).
  exists e, q, r', (en m). rewrite Q1. repeat (split; [assumption || reflexivity|]).
  intro old. rewrite (message_whole A ok en de arrives M m W old). repeat split.
Qed.
Print Assumptions C71_delivery.

(** C71: the same for a statistics request inside a multipart request. *)
Theorem C71_multipart_delivery : forall A ok en de arrives, message A ok en de arrives ->
  forall m, ok m -> (lenN (en m) <= 65519)%N -> forall mt x s, fits 2 mt -> fits 4 x ->
  exists p, fst (write_MultipartRequest (new_MultipartRequest mt (Some (MkPayload (en m) None)))) = inl p
    /\ let r := set_header (MkHeader 4 18 0 x) (new_request 18 (Some (MkPayload p None))) in
  exists e q r' b, wcalls (write_to sink r) = [e] /\ werr (write_to sink r) = None
    /\ receive (MkReader e s EOF false) = (inl q, r')
    /\ Request_Body q = BBuf b
    /\ forall old, fail (dec_MultipartRequest old b) = None
    /\ MultipartRequest_Type (val (dec_MultipartRequest old b)) = mt
    /\ exists b', MultipartRequest_Body (val (dec_MultipartRequest old b)) = MBuf b'
    /\ forall old', val (de old' b') = arrives m /\ fail (de old' b') = None /\ rest (de old' b') = [].
Proof.
  intros A ok en de arrives M m W L mt x s Ht Hx.
  destruct (C55_multipart_roundtrip (new_MultipartRequest mt (Some (MkPayload (en m) None))) (en m)
              zero_MultipartRequest (conj Ht eq_refl) eq_refl) as (p & P1 & P2 & _); [intros r H; discriminate H|].
  exists p. split; [exact P1|]. cbv zeta.
  assert (Lp : (lenN p <= 65527)%N).
  { destruct P2 as [LE _]. unfold lenN in *. rewrite LE. lia. }
  destruct (delivered 18 x p s eq_refl Hx Lp) as (e & q & r' & E1 & E2 & E3 & _ & (_ & Q2 & _)).
  exists e, q, r', p. repeat (split; [assumption|]). intro old.
  destruct (C55_multipart_roundtrip (new_MultipartRequest mt (Some (MkPayload (en m) None))) (en m)
              old (conj Ht eq_refl) eq_refl) as (p' & P1' & _ & D); [intros r H; discriminate H|].
  rewrite P1 in P1'. injection P1' as <-. rewrite D. cbn [fail val MultipartRequest_Type MultipartRequest_Body].
  split; [reflexivity|]. split; [reflexivity|]. exists (en m). split; [reflexivity|].
  intro old'. rewrite (message_whole A ok en de arrives M m W old'). repeat split.
Qed.
Print Assumptions C71_multipart_delivery.

Example C71_delivery_ex :
  let m := MkError 1 6 [xde; xad] in
  let r := set_header (MkHeader 4 1 0 7) (new_request 1 (Some (MkPayload (enc_Error m) None))) in
  wf_Error m /\ wcalls (write_to sink r) = [[x04; x01; x00; x0e; x00; x00; x00; x07; x00; x01; x00; x06; xde; xad]]
  /\ match receive (MkReader (concat (wcalls (write_to sink r))) [3; 1; 0; 2] EOF false) with
     | (inl q, _) => match Request_Body q with BBuf b => val (dec_Error zero_Error b) = m | _ => False end
     | _ => False
     end.
Proof. vm_compute. repeat split; reflexivity. Qed.
