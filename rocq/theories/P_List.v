(** Properties of the messages that carry lists of buckets, bands, queue
    properties, counters and hello elements. *)
From Verif Require Import LoopFacts.
Local Open Scope N_scope.

(** ** C50 *)

(** C50: a bucket survives the wire into any receiver, uses exactly its declared
    length and leaves the following bytes. *)
Theorem C50_bucket_roundtrip : forall m old tl, wf_Bucket m ->
  dec_Bucket old (enc_Bucket m ++ tl) = Res m (bucket_size m) None tl.
Proof. intros m old tl W. rewrite (rt_Bucket m W), (bucket_length m W). reflexivity. Qed.
Print Assumptions C50_bucket_roundtrip.

Theorem C50_bucket_layout : forall m, wf_Bucket m -> laid_out (enc_Bucket m) (bucket_size m) (bucket_layout m).
Proof. intros m W. apply lays_laid_out, bucket_lays, W. Qed.
Print Assumptions C50_bucket_layout.

(** C50: a sequence of encoded buckets decodes one by one. *)
Theorem C50_bucket_sequence : forall l tl, Forall wf_Bucket l ->
  reads dec_Bucket (concat (map enc_Bucket l) ++ tl) l tl.
Proof.
  induction l as [|m l IH]; intros tl W; [constructor|]. inversion_clear W as [|? ? W1 W2].
  cbn [map concat]. rewrite <- app_assoc. apply ReadsOne with (mid := concat (map enc_Bucket l) ++ tl).
  - intro old. rewrite (rt_Bucket m W1). cbn [val fail rest]. auto.
  - apply IH, W2.
Qed.
Print Assumptions C50_bucket_sequence.

Definition ex_bucket := MkBucket 5 7 4294967295 [AOutput 1 65535; ASetQueue 3].
Definition ex_bucket' := MkBucket 6 8 9 [].
Example C50_ex : wf_Bucket ex_bucket /\ wf_Bucket ex_bucket'
  /\ dec_Bucket ex_bucket (enc_Bucket ex_bucket' ++ enc_Bucket ex_bucket) = Res ex_bucket' 16 None (enc_Bucket ex_bucket)
  /\ dec_Bucket ex_bucket' (enc_Bucket ex_bucket ++ [xff]) = Res ex_bucket 40 None [xff].
Proof.
  split; [|split; [|split; vm_compute; reflexivity]];
    repeat split; try (cbn; lia); repeat constructor; cbn; auto; lia.
Qed.

(** ** C51 *)

(** C51: whatever arrives, the list of the result is the list the receiver had. *)
Theorem C51_lists_kept : forall inp,
  (forall old, GroupMod_Buckets (val (dec_GroupMod old inp)) = GroupMod_Buckets old)
  /\ (forall old, GroupDescStats_Buckets (val (dec_GroupDescStats old inp)) = GroupDescStats_Buckets old)
  /\ (forall old, GroupStats_BucketStats (val (dec_GroupStats old inp)) = GroupStats_BucketStats old)
  /\ (forall old, MeterMod_Bands (val (dec_MeterMod old inp)) = MeterMod_Bands old)
  /\ (forall old, MeterConfig_Bands (val (dec_MeterConfig old inp)) = MeterConfig_Bands old)
  /\ (forall old, MeterStats_BandStats (val (dec_MeterStats old inp)) = MeterStats_BandStats old)
  /\ (forall old, Hello_Elements (val (dec_Hello old inp)) = Hello_Elements old)
  /\ (forall old, PacketQueue_Properties (val (dec_PacketQueue old inp)) = PacketQueue_Properties old)
  /\ (forall old, QueueGetConfigReply_Queues (val (dec_QueueGetConfigReply old inp))
                  = QueueGetConfigReply_Queues old).
Proof.
  intro inp.
  split; [intro; apply keeps_GroupMod|]. split; [intro; apply keeps_GroupDescStats|].
  split; [intro; apply keeps_GroupStats|]. split; [intro; apply keeps_MeterMod|].
  split; [intro; apply keeps_MeterConfig|]. split; [intro; apply keeps_MeterStats|].
  split; [intro; apply keeps_Hello|]. split; [intro; apply keeps_PacketQueue|].
  intro; apply keeps_QueueGetConfigReply.
Qed.
Print Assumptions C51_lists_kept.

(** C51: and yet well-formed messages are accepted and used up: every other field
    arrives, the elements are consumed and dropped. *)
Theorem C51_groupmod : forall m old, wf_GroupMod m ->
  dec_GroupMod old (enc_GroupMod m)
  = Res (MkGroupMod (GroupMod_Command m) (GroupMod_Type m) (GroupMod_Group m) (GroupMod_Buckets old))
        (groupmod_size m) None [].
Proof. intros m old W. rewrite (whole_GroupMod m W), (lays_length _ _ _ (groupmod_lays m W)). reflexivity. Qed.
Print Assumptions C51_groupmod.

Theorem C51_groupdesc : forall m old tl, wf_GroupDescStats m ->
  dec_GroupDescStats old (enc_GroupDescStats m ++ tl)
  = Res (MkGroupDescStats (GroupDescStats_Type m) (GroupDescStats_Group m) (GroupDescStats_Buckets old))
        (groupdesc_size m) None tl.
Proof. intros m old tl W. rewrite (rt_GroupDescStats m W), (lays_length _ _ _ (groupdesc_lays m W)). reflexivity. Qed.
Print Assumptions C51_groupdesc.

Theorem C51_groupstats : forall m old tl, wf_GroupStats m ->
  dec_GroupStats old (enc_GroupStats m ++ tl)
  = Res (MkGroupStats (GroupStats_Group m) (GroupStats_RefCount m) (GroupStats_PacketCount m)
           (GroupStats_ByteCount m) (GroupStats_DurationSec m) (GroupStats_DurationNSec m)
           (GroupStats_BucketStats old))
        (groupstats_size m) None tl.
Proof. intros m old tl W. rewrite (rt_GroupStats m W), (lays_length _ _ _ (groupstats_lays m)). reflexivity. Qed.
Print Assumptions C51_groupstats.

Theorem C51_metermod : forall m old, wf_MeterMod m ->
  dec_MeterMod old (enc_MeterMod m)
  = Res (MkMeterMod (MeterMod_Command m) (MeterMod_Flags m) (MeterMod_Meter m) (MeterMod_Bands old))
        (metermod_size m) None [].
Proof. intros m old W. rewrite (whole_MeterMod m W), (lays_length _ _ _ (metermod_lays m)). reflexivity. Qed.
Print Assumptions C51_metermod.

Theorem C51_meterconfig : forall m old tl, wf_MeterConfig m ->
  dec_MeterConfig old (enc_MeterConfig m ++ tl)
  = Res (MkMeterConfig (MeterConfig_Flags m) (MeterConfig_Meter m) (MeterConfig_Bands old))
        (meterconfig_size m) None tl.
Proof. intros m old tl W. rewrite (rt_MeterConfig m W), (lays_length _ _ _ (meterconfig_lays m)). reflexivity. Qed.
Print Assumptions C51_meterconfig.

Theorem C51_meterstats : forall m old tl, wf_MeterStats m ->
  dec_MeterStats old (enc_MeterStats m ++ tl)
  = Res (MkMeterStats (MeterStats_Meter m) (MeterStats_FlowCount m) (MeterStats_PacketInCount m)
           (MeterStats_ByteInCount m) (MeterStats_DurationSec m) (MeterStats_DurationNSec m)
           (MeterStats_BandStats old))
        (meterstats_size m) None tl.
Proof. intros m old tl W. rewrite (rt_MeterStats m W), (lays_length _ _ _ (meterstats_lays m)). reflexivity. Qed.
Print Assumptions C51_meterstats.

Theorem C51_hello : forall m old, wf_Hello m ->
  dec_Hello old (enc_Hello m) = Res old (hello_size m) None [].
Proof.
  intros m old W. rewrite (whole_Hello m W). f_equal. unfold enc_Hello, enc_HelloElems, hello_size.
  rewrite concat_map_length. f_equal. apply map_ext. exact hello_elem_length.
Qed.
Print Assumptions C51_hello.

Theorem C51_packetqueue : forall m old tl, wf_PacketQueue m ->
  dec_PacketQueue old (enc_PacketQueue m ++ tl)
  = Res (MkPacketQueue (PacketQueue_Queue m) (PacketQueue_Port m) (PacketQueue_Properties old))
        (packetqueue_size m) None tl.
Proof. intros m old tl W. rewrite (rt_PacketQueue m W), (lays_length _ _ _ (packetqueue_lays m)). reflexivity. Qed.
Print Assumptions C51_packetqueue.

Theorem C51_queuereply : forall m old, wf_QueueGetConfigReply m ->
  dec_QueueGetConfigReply old (enc_QueueGetConfigReply m)
  = Res (MkQueueGetConfigReply (QueueGetConfigReply_Port m) (QueueGetConfigReply_Queues old))
        (queuereply_size m) None [].
Proof.
  intros m old W. rewrite (whole_QueueGetConfigReply m W), (lays_length _ _ _ (queuereply_lays m)). reflexivity.
Qed.
Print Assumptions C51_queuereply.

(** C51: so the expected round trip into a fresh value fails for every one of them. *)
Theorem C51_roundtrip_refuted :
  (exists m, wf_GroupMod m /\ val (dec_GroupMod zero_GroupMod (enc_GroupMod m)) <> m)
  /\ (exists m, wf_GroupDescStats m /\ val (dec_GroupDescStats zero_GroupDescStats (enc_GroupDescStats m)) <> m)
  /\ (exists m, wf_GroupStats m /\ val (dec_GroupStats zero_GroupStats (enc_GroupStats m)) <> m)
  /\ (exists m, wf_MeterMod m /\ val (dec_MeterMod zero_MeterMod (enc_MeterMod m)) <> m)
  /\ (exists m, wf_MeterConfig m /\ val (dec_MeterConfig zero_MeterConfig (enc_MeterConfig m)) <> m)
  /\ (exists m, wf_MeterStats m /\ val (dec_MeterStats zero_MeterStats (enc_MeterStats m)) <> m)
  /\ (exists m, wf_Hello m /\ val (dec_Hello zero_Hello (enc_Hello m)) <> m)
  /\ (exists m, wf_PacketQueue m /\ val (dec_PacketQueue zero_PacketQueue (enc_PacketQueue m)) <> m)
  /\ (exists m, wf_QueueGetConfigReply m
                /\ val (dec_QueueGetConfigReply zero_QueueGetConfigReply (enc_QueueGetConfigReply m)) <> m).
Proof.
  split; [exists (MkGroupMod 0 1 2 [ex_bucket])|].
  { split; [|vm_compute; discriminate]. repeat split; try (cbn; lia); repeat constructor; cbn; auto; lia. }
  split; [exists (MkGroupDescStats 1 2 [ex_bucket])|].
  { split; [|vm_compute; discriminate]. repeat split; try (cbn; lia); repeat constructor; cbn; auto; lia. }
  split; [exists (MkGroupStats 1 2 3 4 5 6 [MkBucketCounter 7 8])|].
  { split; [|vm_compute; discriminate]. repeat split; try (cbn; lia); repeat constructor; cbn; auto; lia. }
  split; [exists (MkMeterMod 1 2 3 [BandDrop 1 2])|].
  { split; [|vm_compute; discriminate]. repeat split; try (cbn; lia); repeat constructor; cbn; auto; lia. }
  split; [exists (MkMeterConfig 1 2 [BandDSCPRemark 1 2 3])|].
  { split; [|vm_compute; discriminate]. repeat split; try (cbn; lia); repeat constructor; cbn; auto; lia. }
  split; [exists (MkMeterStats 1 2 3 4 5 6 [MkMeterBandStats 7 8])|].
  { split; [|vm_compute; discriminate]. repeat split; try (cbn; lia); repeat constructor; cbn; auto; lia. }
  split; [exists (MkHello [MkHelloElem [18]])|].
  { split; [|vm_compute; discriminate]. repeat split; try (cbn; lia); repeat constructor; cbn; auto; lia. }
  split; [exists (MkPacketQueue 1 2 [PropMinRate 3])|].
  { split; [|vm_compute; discriminate]. repeat split; try (cbn; lia); repeat constructor; cbn; auto; lia. }
  exists (MkQueueGetConfigReply 1 [MkPacketQueue 1 2 [PropMinRate 3]]).
  split; [|vm_compute; discriminate]. repeat split; try (cbn; lia); repeat constructor; cbn; auto; lia.
Qed.
Print Assumptions C51_roundtrip_refuted.

(** C51: a port modification read into a fresh value has no hardware address; its
    numbers are read six bytes too early, four bytes of padding included. *)
Theorem C51_portmod_fresh : forall inp old, PortMod_HWAddr old = [] -> (26 <= length inp)%nat ->
  dec_PortMod old inp
  = Res (MkPortMod (num 0 4 inp) [] (num 10 4 inp) (num 14 4 inp) (num 18 4 inp)) 26 None (skipn 26 inp).
Proof.
  intros inp [p h c m a] H L. cbn [PortMod_HWAddr] in H. subst h.
  do 26 (destruct inp as [|? inp]; [cbn in L; lia|]). reflexivity.
Qed.
Print Assumptions C51_portmod_fresh.

(** C51: with an address of six bytes already in place a port modification
    survives the wire. *)
Theorem C51_portmod_prepared : forall m old tl, wf_PortMod m -> length (PortMod_HWAddr old) = 6%nat ->
  dec_PortMod old (enc_PortMod m ++ tl) = Res m 32 None tl.
Proof.
  intros m old tl (W1 & W2 & W3 & W4 & W5) H.
  replace 32%nat with (length (enc_PortMod m))
    by (unfold enc_PortMod, u32, pad; cbn [concat]; rewrite !app_length, !be_enc_length, !zeros_length, W2; reflexivity).
  apply rti_PortMod; [exact (conj W1 (conj W2 (conj W3 (conj W4 W5))))|exact H].
Qed.
Print Assumptions C51_portmod_prepared.

Example C51_ex :
  let m := MkGroupMod 0 1 2 [ex_bucket; ex_bucket'] in
  let p := MkPortMod 1 [x0a; x0b; x0c; x0d; x0e; x0f] 1 2 3 in
  wf_GroupMod m
  /\ dec_GroupMod zero_GroupMod (enc_GroupMod m) = Res (MkGroupMod 0 1 2 []) 64 None []
  /\ dec_GroupMod (MkGroupMod 9 9 9 [ex_bucket']) (enc_GroupMod m) = Res (MkGroupMod 0 1 2 [ex_bucket']) 64 None []
  /\ wf_PortMod p
  /\ dec_PortMod zero_PortMod (enc_PortMod p) = Res (MkPortMod 1 [] 202182159 0 65536) 26 None [x00; x03; x00; x00; x00; x00].
Proof.
  split; [|split; [vm_compute; reflexivity|split; [vm_compute; reflexivity|split; [|vm_compute; reflexivity]]]];
    repeat split; try (cbn; lia); repeat constructor; cbn; auto; lia.
Qed.

(** ** C52 *)

(** C52: reading entries until an error ends: it goes on for at most as many
    entries as there are bytes, and on an empty input it stops at once. *)
Theorem C52_loops_end : forall k inp,
  (keeps_reading dec_FlowStats k inp -> (k <= length inp)%nat)
  /\ (keeps_reading dec_Bucket k inp -> (k <= length inp)%nat)
  /\ (keeps_reading dec_GroupStats k inp -> (k <= length inp)%nat)
  /\ (keeps_reading dec_MeterConfig k inp -> (k <= length inp)%nat)
  /\ (keeps_reading dec_PacketQueue k inp -> (k <= length inp)%nat)
  /\ (forall t, keeps_reading (dec t) k inp -> (k <= length inp)%nat).
Proof.
  intros k inp.
  split; [apply progressing_stops, progressing_FlowStats|].
  split; [apply progressing_stops, progressing_Bucket|].
  split; [apply progressing_stops, progressing_GroupStats|].
  split; [apply progressing_stops, progressing_MeterConfig|].
  split; [apply progressing_stops, progressing_PacketQueue|].
  intro t. apply progressing_stops, (progressing_fixed (size t)); [destruct t; cbn; lia|apply fixed_all].
Qed.
Print Assumptions C52_loops_end.

(** C52: it goes on for exactly the entries that were written. *)
Theorem C52_loops_exact : forall k,
  (forall l, Forall wf_FlowStats l ->
     keeps_reading dec_FlowStats k (concat (map enc_FlowStats l)) <-> (k <= length l)%nat)
  /\ (forall l, Forall wf_Bucket l ->
     keeps_reading dec_Bucket k (concat (map enc_Bucket l)) <-> (k <= length l)%nat)
  /\ (forall l, Forall wf_GroupStats l ->
     keeps_reading dec_GroupStats k (concat (map enc_GroupStats l)) <-> (k <= length l)%nat)
  /\ (forall l, Forall wf_MeterConfig l ->
     keeps_reading dec_MeterConfig k (concat (map enc_MeterConfig l)) <-> (k <= length l)%nat)
  /\ (forall l, Forall wf_PacketQueue l ->
     keeps_reading dec_PacketQueue k (concat (map enc_PacketQueue l)) <-> (k <= length l)%nat)
  /\ (forall t l, Forall (wf t) l ->
     keeps_reading (dec t) k (concat (map (enc t) l)) <-> (k <= length l)%nat).
Proof.
  intro k.
  split.
  { intros l W. rewrite Forall_forall in W. apply (reading_exact _ _ (fun m _ => m)); [apply progressing_FlowStats|].
    intros a Ha. apply rt_FlowStats, W, Ha. }
  split.
  { intros l W. rewrite Forall_forall in W. apply (reading_exact _ _ (fun m _ => m)); [apply progressing_Bucket|].
    intros a Ha. apply rt_Bucket, W, Ha. }
  split.
  { intros l W. rewrite Forall_forall in W. eapply reading_exact; [apply progressing_GroupStats|].
    intros a Ha. apply rt_GroupStats, W, Ha. }
  split.
  { intros l W. rewrite Forall_forall in W. eapply reading_exact; [apply progressing_MeterConfig|].
    intros a Ha. apply rt_MeterConfig, W, Ha. }
  split.
  { intros l W. rewrite Forall_forall in W. eapply reading_exact; [apply progressing_PacketQueue|].
    intros a Ha. apply rt_PacketQueue, W, Ha. }
  intros t l W. rewrite Forall_forall in W. apply (reading_exact _ _ (fun m _ => normal t m)).
  - apply (progressing_fixed (size t)); [destruct t; cbn; lia|apply fixed_all].
  - intros a Ha. apply rt_all, W, Ha.
Qed.
Print Assumptions C52_loops_exact.

(** C52: group descriptions and meter statistics succeed on an exhausted reader
    without reading anything, and accept any cut header. *)
Theorem C52_cut_header_accepted :
  (forall old inp, (length inp < 8)%nat ->
     fail (dec_GroupDescStats old inp) = None /\ cnt (dec_GroupDescStats old inp) = length inp
     /\ rest (dec_GroupDescStats old inp) = [])
  /\ (forall old inp, (length inp < 40)%nat ->
     fail (dec_MeterStats old inp) = None /\ cnt (dec_MeterStats old inp) = length inp
     /\ rest (dec_MeterStats old inp) = []).
Proof. split; [exact groupdesc_short|exact meterstats_short]. Qed.
Print Assumptions C52_cut_header_accepted.

(** C52: so a loop over their entries never ends, whatever was sent. *)
Theorem C52_loops_endless : forall k,
  (forall l, Forall wf_GroupDescStats l ->
     keeps_reading dec_GroupDescStats k (concat (map enc_GroupDescStats l)))
  /\ (forall l, Forall wf_MeterStats l ->
     keeps_reading dec_MeterStats k (concat (map enc_MeterStats l))).
Proof.
  intro k. split; intros l W; rewrite Forall_forall in W; revert k.
  - eapply endless_list; [exact zero_GroupDescStats| |intros x Hx; apply rt_GroupDescStats, W, Hx].
    apply (endless _ zero_GroupDescStats). intro old. destruct (groupdesc_short old [] ltac:(cbn; lia)) as (F & _ & R). auto.
  - eapply endless_list; [exact zero_MeterStats| |intros x Hx; apply rt_MeterStats, W, Hx].
    apply (endless _ zero_MeterStats). intro old. destruct (meterstats_short old [] ltac:(cbn; lia)) as (F & _ & R). auto.
Qed.
Print Assumptions C52_loops_endless.

Theorem C52_termination_refuted :
  exists inp, forall k, keeps_reading dec_GroupDescStats k inp /\ keeps_reading dec_MeterStats k inp.
Proof.
  exists []. intro k. split.
  - apply (C52_loops_endless k) with (l := []). constructor.
  - apply (C52_loops_endless k) with (l := []). constructor.
Qed.
Print Assumptions C52_termination_refuted.

Example C52_ex : let s := MkGroupDescStats 1 2 [ex_bucket] in
  wf_GroupDescStats s /\ keeps_reading dec_GroupDescStats 1000 (concat (map enc_GroupDescStats [s; s]))
  /\ keeps_reading dec_Bucket 2 (concat (map enc_Bucket [ex_bucket; ex_bucket']))
  /\ ~ keeps_reading dec_Bucket 3 (concat (map enc_Bucket [ex_bucket; ex_bucket']))
  /\ dec_GroupDescStats s [] = Res s 0 None [].
Proof.
  cbv zeta. assert (W : wf_GroupDescStats (MkGroupDescStats 1 2 [ex_bucket])).
  { repeat split; try (cbn; lia); repeat constructor; cbn; auto; lia. }
  assert (WB : Forall wf_Bucket [ex_bucket; ex_bucket']).
  { repeat constructor; cbn; auto; try lia. }
  split; [exact W|]. split.
  - apply C52_loops_endless. repeat constructor; apply W.
  - split; [|split; [|vm_compute; reflexivity]].
    + apply (C52_loops_exact 2); [exact WB|]. cbn. lia.
    + intro H. apply (C52_loops_exact 3) in H; [|exact WB]. cbn in H. lia.
Qed.

(** ** C54 *)

(** C54: an odd number of bitmaps survives; an even number comes back with one
    zero bitmap more. *)
Theorem C54_bitmaps_roundtrip : forall l old tl, wf_HelloElem (MkHelloElem l) ->
  dec_HelloElem old (enc_HelloElem (MkHelloElem l) ++ tl)
  = Res (MkHelloElem (if Nat.even (length l) then l ++ [0] else l))
        (hello_elem_size (MkHelloElem l)) None tl.
Proof.
  intros l old tl W. rewrite (rt_HelloElem _ W), hello_elem_length. f_equal.
  unfold padded. cbn [HelloElem_Bitmaps]. destruct (Nat.even (length l)); [reflexivity|].
  cbn [repeat]. rewrite app_nil_r. reflexivity.
Qed.
Print Assumptions C54_bitmaps_roundtrip.

(** C54: encoding again what was decoded gives the same bytes. *)
Theorem C54_bitmaps_stable : forall l old, wf_HelloElem (MkHelloElem l) ->
  enc_HelloElem (val (dec_HelloElem old (enc_HelloElem (MkHelloElem l)))) = enc_HelloElem (MkHelloElem l).
Proof.
  intros l old W. pose proof (rt_HelloElem _ W old []) as R. rewrite app_nil_r in R. rewrite R.
  cbn [val]. apply enc_padded_same.
Qed.
Print Assumptions C54_bitmaps_stable.

(** C54: the length field counts the padding, which OpenFlow excludes from it. *)
Theorem C54_bitmaps_length : forall l, wf_HelloElem (MkHelloElem l) ->
  num 0 2 (enc_HelloElem (MkHelloElem l)) = 1
  /\ num 2 2 (enc_HelloElem (MkHelloElem l)) = N.of_nat (length (enc_HelloElem (MkHelloElem l)))
  /\ N.of_nat (length (enc_HelloElem (MkHelloElem l)))
     = N.of_nat (4 + 4 * length l) + (if Nat.even (length l) then 4 else 0).
Proof.
  intros l [W WS]. rewrite hello_elem_length. split; [|split].
  - rewrite enc_padded. unfold num, u16. cbn [skipn]. rewrite <- app_assoc, firstn_app_len by apply be_enc_length.
    apply be_dec_enc_fits. reflexivity.
  - rewrite enc_padded. unfold num, u16. rewrite <- app_assoc, (skipn_app_len 2) by apply be_enc_length.
    rewrite firstn_app_len by apply be_enc_length. apply be_dec_enc_fits. exact WS.
  - rewrite padded_size, padded_length. cbn [HelloElem_Bitmaps]. destruct (Nat.even (length l)); lia.
Qed.
Print Assumptions C54_bitmaps_length.

(** C54: an element as OpenFlow describes it is understood when its number of
    bitmaps is odd. *)
Theorem C54_standard_odd : forall l old tl, wf_HelloElem (MkHelloElem l) -> Nat.even (length l) = false ->
  dec_HelloElem old (standard_hello l ++ tl) = Res (MkHelloElem l) (4 + 4 * length l) None tl.
Proof.
  intros l old tl W O. rewrite standard_is_ours by exact O. rewrite C54_bitmaps_roundtrip by exact W. rewrite O.
  rewrite padded_size, padded_length. cbn [HelloElem_Bitmaps]. rewrite O. f_equal. lia.
Qed.
Print Assumptions C54_standard_odd.

(** C54: with an even number the padding is taken for another element, and the
    hello message is refused. *)
Theorem C54_standard_even_refused : forall l old tl, wf_HelloElem (MkHelloElem l) -> Nat.even (length l) = true ->
  fail (dec_Hello old (standard_hello l ++ tl)) = Some (EUnknown 0).
Proof. exact standard_even. Qed.
Print Assumptions C54_standard_even_refused.

Theorem C54_roundtrip_refuted : exists m, wf_HelloElem m
  /\ val (dec_HelloElem zero_HelloElem (enc_HelloElem m)) <> m.
Proof. exists (MkHelloElem [18; 1]). split; [|vm_compute; discriminate]. repeat constructor. Qed.
Print Assumptions C54_roundtrip_refuted.

Example C54_ex :
  wf_HelloElem (MkHelloElem [18]) /\ wf_HelloElem (MkHelloElem [18; 1])
  /\ dec_HelloElem zero_HelloElem (enc_HelloElem (MkHelloElem [18])) = Res (MkHelloElem [18]) 8 None []
  /\ dec_HelloElem zero_HelloElem (enc_HelloElem (MkHelloElem [18; 1])) = Res (MkHelloElem [18; 1; 0]) 16 None []
  /\ map Byte.to_N (enc_HelloElem (MkHelloElem [18; 1])) = [0; 1; 0; 16; 0; 0; 0; 18; 0; 0; 0; 1; 0; 0; 0; 0]
  /\ map Byte.to_N (standard_hello [18; 1]) = [0; 1; 0; 12; 0; 0; 0; 18; 0; 0; 0; 1; 0; 0; 0; 0].
Proof.
  split; [repeat constructor|]. split; [repeat constructor|].
  split; [vm_compute; reflexivity|]. split; [vm_compute; reflexivity|]. split; vm_compute; reflexivity.
Qed.

(** ** C68 *)

(** C68: a meter band survives the wire into any band of its type. *)
Theorem C68_band_roundtrip : forall x z tl, wf_MeterBand x ->
  match x, z with
  | BandDrop _ _, BandDrop _ _ | BandDSCPRemark _ _ _, BandDSCPRemark _ _ _
  | BandExperimenter _ _ _, BandExperimenter _ _ _ => True
  | _, _ => False
  end ->
  dec_MeterBand z (enc_MeterBand x ++ tl) = Res x 16 None tl.
Proof. intros x z tl W K. apply band_rt; [exact W|]. destruct x, z; try contradiction; reflexivity. Qed.
Print Assumptions C68_band_roundtrip.

Theorem C68_band_layout : forall x, laid_out (enc_MeterBand x) 16 (band_layout x).
Proof. intro x. apply lays_laid_out, band_lays. Qed.
Print Assumptions C68_band_layout.

(** C68: so does a queue property, experimenter data verbatim. *)
Theorem C68_queue_prop_roundtrip : forall x z tl, wf_QueueProp x ->
  match x, z with
  | PropMinRate _, PropMinRate _ | PropMaxRate _, PropMaxRate _
  | PropQueueExperimenter _ _, PropQueueExperimenter _ _ => True
  | _, _ => False
  end ->
  dec_QueueProp z (enc_QueueProp x ++ tl) = Res x (queue_prop_size x) None tl.
Proof. intros x z tl W K. apply queue_prop_rt; [exact W|]. destruct x, z; try contradiction; reflexivity. Qed.
Print Assumptions C68_queue_prop_roundtrip.

Theorem C68_queue_prop_layout : forall x, laid_out (enc_QueueProp x) (queue_prop_size x) (queue_prop_layout x).
Proof. intro x. apply lays_laid_out, queue_prop_lays. Qed.
Print Assumptions C68_queue_prop_layout.

(** C68: the messages around them have the layout of OpenFlow 1.3. *)
Theorem C68_message_layouts :
  (forall m, wf_GroupMod m -> laid_out (enc_GroupMod m) (groupmod_size m) (groupmod_layout m))
  /\ (forall m, wf_GroupDescStats m -> laid_out (enc_GroupDescStats m) (groupdesc_size m) (groupdesc_layout m))
  /\ (forall m, laid_out (enc_GroupStats m) (groupstats_size m) (groupstats_layout m))
  /\ (forall m, laid_out (enc_MeterMod m) (metermod_size m) (metermod_layout m))
  /\ (forall m, laid_out (enc_MeterConfig m) (meterconfig_size m) (meterconfig_layout m))
  /\ (forall m, laid_out (enc_MeterStats m) (meterstats_size m) (meterstats_layout m))
  /\ (forall m, laid_out (enc_PacketQueue m) (packetqueue_size m) (packetqueue_layout m))
  /\ (forall m, laid_out (enc_QueueGetConfigReply m) (queuereply_size m) (queuereply_layout m)).
Proof.
  split; [intros m W; apply lays_laid_out, groupmod_lays, W|].
  split; [intros m W; apply lays_laid_out, groupdesc_lays, W|].
  split; [intros m; apply lays_laid_out, groupstats_lays|].
  split; [intros m; apply lays_laid_out, metermod_lays|].
  split; [intros m; apply lays_laid_out, meterconfig_lays|].
  split; [intros m; apply lays_laid_out, meterstats_lays|].
  split; [intros m; apply lays_laid_out, packetqueue_lays|].
  intros m; apply lays_laid_out, queuereply_lays.
Qed.
Print Assumptions C68_message_layouts.

Example C68_ex :
  let x := PropQueueExperimenter 7 [xaa; xbb; xcc] in
  wf_QueueProp x
  /\ dec_QueueProp (PropQueueExperimenter 0 []) (enc_QueueProp x ++ [xff]) = Res x 19 None [xff]
  /\ wf_MeterBand (BandDSCPRemark 1 2 3)
  /\ dec_MeterBand (BandDSCPRemark 9 9 9) (enc_MeterBand (BandDSCPRemark 1 2 3)) = Res (BandDSCPRemark 1 2 3) 16 None []
  /\ map Byte.to_N (enc_GroupMod (MkGroupMod 1 2 3 [MkBucket 4 5 6 [APopVLAN]]))
     = [0; 1; 2; 0; 0; 0; 0; 3;
        0; 24; 0; 4; 0; 0; 0; 5; 0; 0; 0; 6; 0; 0; 0; 0; 0; 18; 0; 8; 0; 0; 0; 0].
Proof.
  split; [cbn; lia|]. split; [vm_compute; reflexivity|]. split; [cbn; lia|].
  split; vm_compute; reflexivity.
Qed.
