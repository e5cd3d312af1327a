(** Proofs about messages with trailing data. *)
From Verif Require Export FlowFacts RequestFacts DataModel DataSpec.
From Verif Require Import ActionSpec.
Ltac Zify.zify_post_hook ::= Z.div_mod_to_equations.

Lemma whole_EchoRequest m : whole dec_EchoRequest (enc_EchoRequest m) (fun _ => m).
Proof. intros s. destruct m. reflexivity. Qed.

Lemma whole_EchoReply m : whole dec_EchoReply (enc_EchoReply m) (fun _ => m).
Proof. intros s. destruct m. reflexivity. Qed.

Lemma whole_Error m : wf_Error m -> whole dec_Error (enc_Error m) (fun _ => m).
Proof.
  unfold wf_Error, enc_Error, dec_Error. intro W. split_wf W. split_last 2.
  eapply whole_ext; cycle 1.
  - apply whole_andthen; [flow_rt|]. intros s. apply whole_readall.
  - intros []. destruct m. reflexivity.
Qed.

Lemma whole_ErrorExperimenter m : wf_ErrorExperimenter m ->
  whole dec_ErrorExperimenter (enc_ErrorExperimenter m) (fun _ => m).
Proof.
  unfold wf_ErrorExperimenter, enc_ErrorExperimenter, dec_ErrorExperimenter. intro W. split_wf W.
  split_last 3.
  eapply whole_ext; cycle 1.
  - apply whole_andthen; [|intros s; apply whole_readall].
    apply rt_concat_cons; [apply rt_fpad; reflexivity|flow_rt].
  - intros []. destruct m. reflexivity.
Qed.

Lemma whole_Multipart t f b : fits 2 t -> fits 2 f ->
  whole dec_MultipartRequest (concat [u16 t; u16 f; pad 4; b]) (fun _ => MkMultipartRequest t f (MBuf b)).
Proof.
  intros W0 W1. unfold dec_MultipartRequest. split_last 3.
  eapply whole_ext; cycle 1.
  - apply whole_andthen; [flow_rt|]. intros s. apply whole_readall.
  - intros []. reflexivity.
Qed.

(** Layouts. *)
Lemma error_lays m : lays (enc_Error m) (4 + length (Error_Data m)) (layout_Error m).
Proof.
  unfold enc_Error, layout_Error. concat_split 2.
  change [(0, Num 2 (Error_Type m)); (2, Num 2 (Error_Code m)); (4, Raw (length (Error_Data m)) (Error_Data m))]
    with ([(0, Num 2 (Error_Type m)); (2, Num 2 (Error_Code m))]
          ++ shift 4 [(0, Raw (length (Error_Data m)) (Error_Data m))]).
  apply lays_app; [lay_table|]. cbn [concat]. rewrite app_nil_r. apply lays_raw.
Qed.

Lemma experimenter_lays m :
  lays (enc_ErrorExperimenter m) (8 + length (ErrorExperimenter_Data m)) (layout_ErrorExperimenter m).
Proof.
  unfold enc_ErrorExperimenter, layout_ErrorExperimenter. concat_split 3.
  change [(0, Num 2 65535); (2, Num 2 (ErrorExperimenter_ExpType m)); (4, Num 4 (ErrorExperimenter_Experimenter m));
   (8, Raw (length (ErrorExperimenter_Data m)) (ErrorExperimenter_Data m))]
    with ([(0, Num 2 65535); (2, Num 2 (ErrorExperimenter_ExpType m)); (4, Num 4 (ErrorExperimenter_Experimenter m))]
          ++ shift 8 [(0, Raw (length (ErrorExperimenter_Data m)) (ErrorExperimenter_Data m))]).
  apply lays_app; [lay_table|]. cbn [concat]. rewrite app_nil_r. apply lays_raw.
Qed.

Lemma multipart_lays m b :
  lays (concat [u16 (MultipartRequest_Type m); u16 (MultipartRequest_Flags m); pad 4; b])
    (8 + length b) (layout_MultipartRequest m b).
Proof.
  unfold layout_MultipartRequest. concat_split 3.
  change [(0, Num 2 (MultipartRequest_Type m)); (2, Num 2 (MultipartRequest_Flags m)); (4, Zero 4); (8, Raw (length b) b)]
    with ([(0, Num 2 (MultipartRequest_Type m)); (2, Num 2 (MultipartRequest_Flags m)); (4, Zero 4)]
          ++ shift 8 [(0, Raw (length b) b)]).
  apply lays_app; [lay_table|]. cbn [concat]. rewrite app_nil_r. apply lays_raw.
Qed.

Definition not_plain (b : mbody) : Prop := match b with MPlain _ => False | _ => True end.

Lemma write_multipart m b : mcontent (MultipartRequest_Body m) = Some b -> not_plain (MultipartRequest_Body m) ->
  fst (write_MultipartRequest m)
  = inl (concat [u16 (MultipartRequest_Type m); u16 (MultipartRequest_Flags m); pad 4; b]).
Proof.
  unfold write_MultipartRequest. destruct (MultipartRequest_Body m) as [|w buf e o|x|r]; cbn [mcontent not_plain];
    intros H P.
  - injection H as <-. reflexivity.
  - destruct (perr w); [discriminate|]. injection H as <-. reflexivity.
  - injection H as <-. reflexivity.
  - destruct P.
Qed.

(** Reads of a multipart body follow those of a buffer. *)
Lemma mbody_buffer ks w b : mbody_reads ks (MWriter w b None true) = body_reads ks (BCopy (Some w) b None true).
Proof.
  revert b. induction ks as [|k ks IH]; intro b; [reflexivity|].
  cbn [mbody_reads body_reads mbody_read body_read copy_read].
  destruct (buffer_read k b) as [[got e] b']. rewrite IH. reflexivity.
Qed.

Lemma multipart_reads ks t p : Forall (fun k => 0 < k) ks ->
  let outs := mbody_reads ks (MultipartRequest_Body (new_MultipartRequest t (Some (MkPayload p None)))) in
  concat (map fst outs) = firstn (list_sum ks) p
  /\ forall i, i < length ks ->
     option_map snd (nth_error outs i)
     = Some (if length p <=? list_sum (firstn i ks) then Some EOF else None).
Proof.
  intros Hk outs.
  assert (E : outs = mbody_reads ks (MWriter (MkPayload p None) p None true)) by (destruct ks; reflexivity).
  rewrite E, mbody_buffer. apply buffer_reads, Hk.
Qed.

Lemma multipart_reads_fail ks t p e :
  mbody_reads ks (MultipartRequest_Body (new_MultipartRequest t (Some (MkPayload p (Some e)))))
  = map (fun _ => ([], Some e)) ks.
Proof.
  cbn [new_MultipartRequest MultipartRequest_Body].
  assert (H : forall ks, mbody_reads ks (MWriter (MkPayload p (Some e)) p (Some e) true)
              = map (fun _ => ([], Some e)) ks).
  { induction ks0 as [|k ks0 IH]; [reflexivity|]. cbn. rewrite IH. reflexivity. }
  destruct ks as [|k ks]; [reflexivity|]. cbn. rewrite H. reflexivity.
Qed.

(** Any registered message is decoded from exactly its encoding. *)
Lemma message_whole A ok en de arrives : message A ok en de arrives ->
  forall m, ok m -> whole de (en m) (fun _ => arrives m).
Proof.
  intros []; intros m W.
  - apply rt_whole, rt_all, W.
  - apply whole_EchoRequest.
  - apply whole_EchoReply.
  - apply whole_Error, W.
  - apply whole_ErrorExperimenter, W.
  - apply whole_FlowMod, W.
  - apply rt_whole, rt_FlowRemoved, W.
  - apply rt_whole, rt_FlowStatsRequest, W.
  - apply rt_whole, rt_AggregateStatsRequest, W.
  - apply whole_PacketIn, W.
  - apply whole_PacketOut, W.
Qed.

(** Sending bytes [b] in a new request and receiving them. *)
Lemma delivered t x b s : fits 1 t -> fits 4 x -> (lenN b <= 65527)%N ->
  let r := set_header (MkHeader 4 t 0 x) (new_request t (Some (MkPayload b None))) in
  exists e q r', wcalls (write_to sink r) = [e] /\ werr (write_to sink r) = None
    /\ receive (MkReader e s EOF false) = (inl q, r') /\ data r' = []
    /\ received 4 t x b q.
Proof.
  intros Ht Hx Hb r.
  destruct (write_sink r b eq_refl Hb) as (e & E1 & E2 & _ & F).
  cbn [r set_header new_request Request_Header Header_Version Header_Type Header_Transaction] in F.
  pose proof (receive_frame e 4 t x b F (conj eq_refl (conj Ht Hx)) Hb zero_Request [] s EOF false (or_introl eq_refl)) as R.
  cbv zeta in R. rewrite app_nil_r in R. destruct R as (R1 & _ & R2 & R3 & _).
  exists e. unfold receive. rewrite R1. eexists _, _. split; [exact E1|]. split; [exact E2|].
  split; [reflexivity|]. split; assumption.
Qed.
