(** C47, C48, C49: messages with a match and instructions, actions or data. *)
From Verif Require Import FlowFacts.

(** C47: a flow modification survives the wire into any receiver. *)
Theorem C47_flowmod_roundtrip : forall m old, wf_FlowMod m ->
  dec_FlowMod old (enc_FlowMod m)
  = Res m (40 + match_size (FlowMod_Match m) + instructions_size (FlowMod_Instructions m)) None [].
Proof.
  intros m old W. rewrite (whole_FlowMod m W old).
  rewrite (lays_length _ _ _ (flowmod_lays m W)), Nat.add_assoc. reflexivity.
Qed.
Print Assumptions C47_flowmod_roundtrip.

(** C47: 40 fixed bytes as in OpenFlow 1.3, the match, the instructions, which
    start at a multiple of eight. *)
Theorem C47_flowmod_layout : forall m, wf_FlowMod m ->
  laid_out (enc_FlowMod m)
    (40 + match_size (FlowMod_Match m) + instructions_size (FlowMod_Instructions m)) (layout_FlowMod m)
  /\ (40 + match_size (FlowMod_Match m)) mod 8 = 0.
Proof.
  intros m W. split.
  - rewrite <- Nat.add_assoc. apply lays_laid_out, flowmod_lays, W.
  - destruct W as (_ & _ & _ & _ & _ & _ & _ & _ & _ & _ & _ & WM & _).
    destruct (match_size_ok _ WM) as [_ M]. revert M. generalize (match_size (FlowMod_Match m)). intro k. lia.
Qed.
Print Assumptions C47_flowmod_layout.

Definition ex_match : Match := MkMatch 1 [MkXM 32768 5 [x08; x00] []; MkXM 32768 0 [x00; x00; x00; x03] []].
Definition ex_instructions : list Instruction := [IApplyActions [APopVLAN; AOutput 7 65535]; IGotoTable 2].

Example C47_flowmod_ex :
  let m := MkFlowMod 1 2 3 4 5 6 7 8 9 10 11 ex_match ex_instructions in
  let old := MkFlowMod 9 9 9 9 9 9 9 9 9 9 9 (MkMatch 0 []) [IMeter 3; IMeter 4] in
  wf_FlowMod m /\ dec_FlowMod old (enc_FlowMod m) = Res m 104 None []
  /\ layout_FlowMod m <> layout_FlowMod old.
Proof.
  split; [|split; [vm_compute; reflexivity|vm_compute; discriminate]].
  repeat split; try (cbn; lia); repeat constructor; cbn; auto; lia.
Qed.

(** C48: removals, statistics requests and statistics entries survive the wire
    into any receiver, whatever follows them. *)
Theorem C48_flowremoved_roundtrip : forall m old tl, wf_FlowRemoved m ->
  dec_FlowRemoved old (enc_FlowRemoved m ++ tl) = Res m (40 + match_size (FlowRemoved_Match m)) None tl.
Proof.
  intros m old tl W. rewrite (rt_FlowRemoved m W old tl), (lays_length _ _ _ (flowremoved_lays m W)). reflexivity.
Qed.
Print Assumptions C48_flowremoved_roundtrip.

Theorem C48_flowstatsrequest_roundtrip : forall m old tl, wf_FlowStatsRequest m ->
  dec_FlowStatsRequest old (enc_FlowStatsRequest m ++ tl)
  = Res m (32 + match_size (FlowStatsRequest_Match m)) None tl.
Proof.
  intros m old tl W. rewrite (rt_FlowStatsRequest m W old tl), (lays_length _ _ _ (flowstatsrequest_lays m W)).
  reflexivity.
Qed.
Print Assumptions C48_flowstatsrequest_roundtrip.

Theorem C48_aggregatestatsrequest_roundtrip : forall m old tl, wf_AggregateStatsRequest m ->
  dec_AggregateStatsRequest old (enc_AggregateStatsRequest m ++ tl)
  = Res m (32 + match_size (AggregateStatsRequest_Match m)) None tl.
Proof.
  intros m old tl W.
  rewrite (rt_AggregateStatsRequest m W old tl), (lays_length _ _ _ (aggregatestatsrequest_lays m W)). reflexivity.
Qed.
Print Assumptions C48_aggregatestatsrequest_roundtrip.

Theorem C48_flowstats_roundtrip : forall m old tl, wf_FlowStats m ->
  dec_FlowStats old (enc_FlowStats m ++ tl) = Res m (flowstats_size m) None tl.
Proof.
  intros m old tl W. rewrite (rt_FlowStats m W old tl), (lays_length _ _ _ (flowstats_lays m W)). reflexivity.
Qed.
Print Assumptions C48_flowstats_roundtrip.

(** C48: OpenFlow 1.3 layouts; the first field of an entry is its size. *)
Theorem C48_layouts :
  (forall m, wf_FlowRemoved m ->
     laid_out (enc_FlowRemoved m) (40 + match_size (FlowRemoved_Match m)) (layout_FlowRemoved m))
  /\ (forall m, wf_FlowStatsRequest m ->
     laid_out (enc_FlowStatsRequest m) (32 + match_size (FlowStatsRequest_Match m)) (layout_FlowStatsRequest m))
  /\ (forall m, wf_AggregateStatsRequest m ->
     laid_out (enc_AggregateStatsRequest m) (32 + match_size (AggregateStatsRequest_Match m))
       (layout_AggregateStatsRequest m))
  /\ (forall m, wf_FlowStats m -> laid_out (enc_FlowStats m) (flowstats_size m) (layout_FlowStats m)).
Proof.
  split; [|split; [|split]]; intros m W; apply lays_laid_out;
    [apply flowremoved_lays|apply flowstatsrequest_lays|apply aggregatestatsrequest_lays|apply flowstats_lays]; exact W.
Qed.
Print Assumptions C48_layouts.

(** C48: a sequence of entries of any length is decoded as the same sequence. *)
Theorem C48_flowstats_sequence : forall l tl, Forall wf_FlowStats l ->
  reads dec_FlowStats (concat (map enc_FlowStats l) ++ tl) l tl.
Proof.
  intros l tl W. induction W as [|m l Wm _ IH]; [constructor|]. cbn [map concat]. rewrite <- app_assoc.
  apply ReadsOne with (mid := concat (map enc_FlowStats l) ++ tl); [|exact IH].
  intro old. rewrite C48_flowstats_roundtrip by exact Wm. auto.
Qed.
Print Assumptions C48_flowstats_sequence.

Example C48_flowstats_ex :
  let m := MkFlowStats 1 2 3 4 5 6 7 8 9 10 ex_match ex_instructions in
  let e := MkFlowStats 1 2 3 4 5 6 7 8 9 10 (MkMatch 1 []) [] in
  wf_FlowStats m /\ wf_FlowStats e
  /\ dec_FlowStats m (enc_FlowStats e ++ enc_FlowStats m) = Res e 56 None (enc_FlowStats m)
  /\ dec_FlowStats e (enc_FlowStats m ++ [xff]) = Res m 112 None [xff].
Proof.
  split; [|split; [|split; vm_compute; reflexivity]];
    repeat split; try (cbn; lia); repeat constructor; cbn; auto; lia.
Qed.

Example C48_flowremoved_ex :
  let m := MkFlowRemoved 1 2 3 4 5 6 7 8 9 10 ex_match in
  wf_FlowRemoved m /\ dec_FlowRemoved zero_FlowRemoved (enc_FlowRemoved m ++ [xff]) = Res m 64 None [xff].
Proof.
  split; [|vm_compute; reflexivity].
  repeat split; try (cbn; lia); repeat constructor; cbn; auto; lia.
Qed.

(** C49: a packet-in survives the wire into any receiver, the frame verbatim. *)
Theorem C49_packetin_roundtrip : forall m old, wf_PacketIn m ->
  dec_PacketIn old (enc_PacketIn m)
  = Res m (16 + match_size (PacketIn_Match m) + 2 + length (PacketIn_Data m)) None [].
Proof.
  intros m old W. rewrite (whole_PacketIn m W old), (lays_length _ _ _ (packetin_lays m W)), !Nat.add_assoc.
  reflexivity.
Qed.
Print Assumptions C49_packetin_roundtrip.

Theorem C49_packetin_layout : forall m, wf_PacketIn m ->
  laid_out (enc_PacketIn m) (16 + match_size (PacketIn_Match m) + 2 + length (PacketIn_Data m)) (layout_PacketIn m).
Proof. intros m W. rewrite <- !Nat.add_assoc. apply lays_laid_out, packetin_lays, W. Qed.
Print Assumptions C49_packetin_layout.

(** C49: a packet-out survives the wire into any receiver: the actions and the
    frame are told apart by the size of the actions, sent at offset 8. *)
Theorem C49_packetout_roundtrip : forall m old, wf_PacketOut m ->
  dec_PacketOut old (enc_PacketOut m)
  = Res m (16 + actions_size (PacketOut_Actions m) + length (PacketOut_Data m)) None [].
Proof.
  intros m old W. rewrite (whole_PacketOut m W old), (lays_length _ _ _ (packetout_lays m W)), Nat.add_assoc.
  reflexivity.
Qed.
Print Assumptions C49_packetout_roundtrip.

Theorem C49_packetout_layout : forall m, wf_PacketOut m ->
  laid_out (enc_PacketOut m) (16 + actions_size (PacketOut_Actions m) + length (PacketOut_Data m)) (layout_PacketOut m).
Proof. intros m W. rewrite <- Nat.add_assoc. apply lays_laid_out, packetout_lays, W. Qed.
Print Assumptions C49_packetout_layout.

(** The frame looks like an action. *)
Example C49_packetout_ex :
  let m := MkPacketOut 1 2 [AOutput 7 65535] [x00; x12; x00; x08; x00; x00; x00; x00] in
  wf_PacketOut m /\ dec_PacketOut (MkPacketOut 9 9 [APopVLAN] [xff]) (enc_PacketOut m) = Res m 40 None [].
Proof. split; [|vm_compute; reflexivity]. repeat split; try (cbn; lia); repeat constructor; cbn; auto; lia. Qed.

Example C49_packetin_ex :
  let m := MkPacketIn 1 2 3 4 5 ex_match [xde; xad] in
  wf_PacketIn m /\ dec_PacketIn (MkPacketIn 9 9 9 9 9 (MkMatch 0 []) [xff; xff; xff]) (enc_PacketIn m) = Res m 44 None [].
Proof. split; [|vm_compute; reflexivity]. repeat split; try (cbn; lia); repeat constructor; cbn; auto; lia. Qed.
