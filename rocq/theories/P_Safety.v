(** C89: reading any message from any bytes returns, with one of three kinds of
    errors; only the type of a pop PBB action can lead to a panic. *)
From Verif Require Import SafetyFacts PortsModel.

(** The messages and parts of messages without actions, besides those of fixed size. *)
Definition plain_readers : list decoder :=
  [Decoder _ dec_XM; Decoder _ dec_Match; Decoder _ dec_FlowRemoved; Decoder _ dec_FlowStatsRequest;
   Decoder _ dec_AggregateStatsRequest; Decoder _ dec_PacketIn; Decoder _ dec_EchoRequest; Decoder _ dec_EchoReply;
   Decoder _ dec_Error; Decoder _ dec_ErrorExperimenter; Decoder _ dec_MultipartRequest; Decoder _ dec_HelloElem;
   Decoder _ dec_HelloElems; Decoder _ dec_Hello; Decoder _ dec_MeterBand; Decoder _ dec_MeterBands; Decoder _ dec_MeterMod;
   Decoder _ dec_MeterConfig; Decoder _ dec_MeterStats; Decoder _ dec_QueueProp; Decoder _ dec_QueueProps;
   Decoder _ dec_PacketQueue; Decoder _ dec_QueueGetConfigReply; Decoder _ dec_TableProp; Decoder _ dec_TableFeatures;
   Decoder _ dec_Ports; Decoder _ dec_GroupStats; Decoder _ dec_Action].

(** Those with actions. *)
Definition action_readers : list decoder :=
  [Decoder _ dec_Actions; Decoder _ dec_Instruction; Decoder _ dec_Instructions; Decoder _ dec_FlowMod; Decoder _ dec_FlowStats;
   Decoder _ dec_PacketOut; Decoder _ dec_Bucket; Decoder _ dec_GroupMod; Decoder _ dec_GroupDescStats].

Lemma never_spreads : spreads (fun _ => False).
Proof. intros p x q H. exact H. Qed.

Lemma mention_spreads : spreads mentions_pop_pbb.
Proof. intros p x q (u & v & ->). exists (p ++ u), (v ++ q). rewrite <- !app_assoc. reflexivity. Qed.

Lemma mention_here b : mentions_pop_pbb ([x00; x1b] ++ b).
Proof. exists [], b. reflexivity. Qed.

Lemma orderly_safe {A} (rd : step A) : safe (fun _ => False) rd -> orderly (Decoder A rd).
Proof.
  intros [S H] old inp. split; [apply S|]. destruct (fail (rd old inp)) as [e|] eqn:E; [right|left; reflexivity].
  exists e. split; [reflexivity|]. destruct (H old inp e E) as [R|[_ []]]. exact R.
Qed.

Lemma nearly_safe {A} (rd : step A) : safe mentions_pop_pbb rd -> nearly_orderly (Decoder A rd).
Proof.
  intros [S H] old inp. split; [apply S|]. destruct (fail (rd old inp)) as [e|] eqn:E; [right|left; reflexivity].
  exists e. split; [reflexivity|]. exact (H old inp e E).
Qed.

Theorem C89_fixed : forall k, orderly (Decoder _ (dec k)).
Proof. intro k. apply orderly_safe, safe_kind. Qed.
Print Assumptions C89_fixed.

Theorem C89_plain : Forall orderly plain_readers.
Proof.
  pose proof never_spreads as NS. unfold plain_readers.
  repeat (apply Forall_cons; [apply orderly_safe|]); [.. |apply Forall_nil].
  - apply safe_xm, NS.
  - apply safe_Match, NS.
  - apply safe_FlowRemoved, NS.
  - apply safe_FlowStatsRequest, NS.
  - apply safe_AggregateStatsRequest, NS.
  - apply safe_PacketIn, NS.
  - apply safe_EchoRequest.
  - apply safe_EchoReply.
  - apply safe_Error, NS.
  - apply safe_ErrorExperimenter, NS.
  - apply safe_MultipartRequest, NS.
  - apply safe_HelloElem, NS.
  - apply safe_HelloElems, NS.
  - apply safe_Hello, NS.
  - apply safe_MeterBand, NS.
  - apply safe_MeterBands, NS.
  - apply safe_MeterMod, NS.
  - apply safe_MeterConfig, NS.
  - apply safe_MeterStats, NS.
  - apply safe_QueueProp, NS.
  - apply safe_QueueProps, NS.
  - apply safe_PacketQueue, NS.
  - apply safe_QueueGetConfigReply, NS.
  - apply safe_TableProp, NS.
  - apply safe_TableFeatures, NS.
  - apply safe_Ports, NS.
  - apply safe_GroupStats, NS.
  - apply safe_Action, NS.
Qed.
Print Assumptions C89_plain.

Theorem C89_actions : Forall nearly_orderly action_readers.
Proof.
  pose proof mention_spreads as MS. pose proof mention_here as MH. unfold action_readers.
  repeat (apply Forall_cons; [apply nearly_safe|]); [.. |apply Forall_nil].
  - apply safe_Actions; assumption.
  - apply safe_Instruction; assumption.
  - apply safe_Instructions; assumption.
  - apply safe_FlowMod; assumption.
  - apply safe_FlowStats; assumption.
  - apply safe_PacketOut; assumption.
  - apply safe_Bucket; assumption.
  - apply safe_GroupMod; assumption.
  - apply safe_GroupDescStats; assumption.
Qed.
Print Assumptions C89_actions.

(** Without those two bytes next to each other nothing panics. *)
Theorem C89_no_mention : forall A (rd : step A), In (Decoder A rd) action_readers -> forall old inp,
  ~ mentions_pop_pbb inp -> fail (rd old inp) <> Some EPanic /\ fail (rd old inp) <> Some EFuel.
Proof.
  intros A rd H old inp M. pose proof (proj1 (Forall_forall _ _) C89_actions _ H old inp) as (_ & [E|(e & E & D)]);
    rewrite E; [split; discriminate|].
  destruct D as [[->|[->|(t & ->)]]|[-> D]]; [split; discriminate..|elim (M D)].
Qed.
Print Assumptions C89_no_mention.

(** A pop PBB action, and where it can stand. *)
Definition pop_pbb : bytes := [x00; x1b; x00; x08; x00; x00; x00; x00].
Definition apply_pop : bytes := [x00; x04; x00; x10; x00; x00; x00; x00] ++ pop_pbb.
Definition bucket_pop : bytes := [x00; x18] ++ zeros 14 ++ pop_pbb.
Definition any_match : bytes := [x00; x01; x00; x04; x00; x00; x00; x00].

(** Lists of actions, of instructions and all messages with one of them, taken as
    the library would be given them: a value to fill and the body of a message. *)
Theorem C89_panic_refuted :
  let panics A (rd : step A) inp := forall old, fail (rd old inp) = Some EPanic in
  panics _ dec_Actions pop_pbb /\ panics _ dec_Instructions apply_pop
  /\ panics _ dec_FlowMod (zeros 40 ++ any_match ++ apply_pop)
  /\ panics _ dec_FlowStats ([x00; x48] ++ zeros 46 ++ any_match ++ apply_pop)
  /\ panics _ dec_PacketOut (zeros 8 ++ [x00; x08] ++ zeros 6 ++ pop_pbb)
  /\ panics _ dec_Bucket bucket_pop /\ panics _ dec_GroupMod (zeros 8 ++ bucket_pop)
  /\ panics _ dec_GroupDescStats ([x00; x20] ++ zeros 6 ++ bucket_pop).
Proof. cbv zeta. repeat split; intro old; vm_compute; reflexivity. Qed.
Print Assumptions C89_panic_refuted.

(** Bytes that are no message, a list that breaks off, an unknown element. *)
Example C89_ex :
  ~ mentions_pop_pbb [x1b; x00; x00; x08; xff]
  /\ fail (dec_FlowMod zero_FlowMod (repeat xff 100)) = Some UnexpectedEOF
  /\ fail (dec_Actions [] [x1b; x00; x00; x08; xff]) = Some (EUnknown 6912)
  /\ fail (dec_PacketIn zero_PacketIn []) = Some EOF.
Proof.
  split; [|vm_compute; repeat split; reflexivity].
  intros (p & q & E). repeat (destruct p as [|? p]; cbn [app] in E; [discriminate E|]; try discriminate E; injection E as _ E).
Qed.
