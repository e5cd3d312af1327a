(** Proofs about the messages that carry lists of buckets, bands, queue
    properties, counters and hello elements. *)
From Verif Require Export FlowFacts CookieFacts GroupModel MeterModel QueueModel HelloModel StepFacts.
From Verif Require Export ActionSpec ListSpec.
Ltac Zify.zify_post_hook ::= Z.div_mod_to_equations.

(** ** 16-bit subtraction *)
Lemma sub16_small a b : (b <= a)%N -> (a < 65536)%N -> sub16 a b = (a - b)%N.
Proof.
  intros H1 H2. unfold sub16, uwrap. change (256 ^ N.of_nat 2)%N with 65536%N.
  replace (a + 65536 - b)%N with (a - b + 1 * 65536)%N by lia.
  rewrite N.mod_add by lia. apply N.mod_small. lia.
Qed.

Lemma sub16_limit n k : (N.of_nat (k + n) < 65536)%N ->
  Z.to_nat (Z.of_N (sub16 (uwrap 2 (N.of_nat (k + n))) (N.of_nat k))) = n.
Proof.
  intro H. rewrite uwrap_small by exact H. rewrite sub16_small by lia. lia.
Qed.

(** ** Buckets *)
Lemma bucket_lays m : wf_Bucket m -> lays (enc_Bucket m) (bucket_size m) (bucket_layout m).
Proof.
  intros (_ & _ & _ & WA & WS). unfold enc_Bucket, bucket_layout, bucket_size. cbv zeta.
  rewrite actions_length by exact WA. concat_split 5.
  apply lays_app.
  - split; [repeat constructor|split; [reflexivity|]].
    cbn [map snd render concat]. unfold u16 at 1. rewrite be_enc_uwrap. reflexivity.
  - cbn [concat]. rewrite app_nil_r. apply actions_lays, WA.
Qed.

Lemma bucket_length m : wf_Bucket m -> length (enc_Bucket m) = bucket_size m.
Proof. intro W. apply (lays_length _ _ _ (bucket_lays m W)). Qed.

Lemma rt_Bucket m : wf_Bucket m -> rt dec_Bucket (enc_Bucket m) (fun _ => m).
Proof.
  unfold enc_Bucket, dec_Bucket. cbv zeta. intros (W1 & W2 & W3 & WA & WS).
  rewrite actions_length by exact WA. split_last 5.
  eapply rt_ext; cycle 1.
  - apply rt_with_local, rt_andthen.
    + eapply rt_concat_cons; [apply rt_fu, uwrap_fits|]. flow_rt.
    + intros s. apply rt_limited; cycle 1.
      * apply whole_pre, whole_sub, whole_sub, whole_Actions, WA.
      * cbn [fst snd]. rewrite actions_length by exact WA. apply (sub16_limit _ 16), WS.
  - intros []. destruct m. reflexivity.
Qed.

Lemma readslice_whole {A S} (zero : A) (rd : step A) (enc : A -> bytes) (g : A -> A -> A) (l : list A) :
  rd zero [] = Res zero 0 (Some EOF) [] ->
  (forall a, In a l -> 1 <= length (enc a) /\ rt rd (enc a) (g a)) ->
  whole (readslice zero rd) (concat (map enc l)) (fun s : S => s).
Proof.
  intros Hn Hl s. unfold readslice, readfunc.
  rewrite (readfunc_loop_list zero rd (fun _ s => s) enc (fun a => g a zero) l Hn).
  - f_equal. clear. induction l; [reflexivity|]. exact IHl.
  - intros a Ha. destruct (Hl a Ha) as [L R]. split; [exact L|]. intro tl. apply R.
  - lia.
Qed.

Lemma lost_whole {S} (f : step S) bs g : whole f bs g -> whole (lost f) bs (fun s => s).
Proof. intros H s. unfold lost. rewrite !H. reflexivity. Qed.

Lemma rt_andthen_ignoring {S} (a : step S) b bs1 bs2 g h :
  rt a bs1 g ->
  (forall s, rt (b (length bs1) (g s)) bs2 h) ->
  rt (andthen_ignoring a b) (bs1 ++ bs2) (fun s => h (g s)).
Proof.
  intros Ha Hb s tl. unfold andthen_ignoring. rewrite <- app_assoc, !Ha. cbn [val cnt rest fail].
  rewrite !Hb. cbn [val cnt rest fail]. rewrite app_length. reflexivity.
Qed.

(** ** Lists of elements *)
Lemma buckets_lays l : Forall wf_Bucket l -> lays (concat (map enc_Bucket l)) (buckets_size l) (buckets_layout l).
Proof. intro W. apply lays_list. rewrite Forall_forall in W. intros i Hi. apply bucket_lays, W, Hi. Qed.

Lemma buckets_length l : Forall wf_Bucket l -> length (concat (map enc_Bucket l)) = buckets_size l.
Proof. intro W. apply (lays_length _ _ _ (buckets_lays l W)). Qed.

Lemma buckets_slice {S} l : Forall wf_Bucket l ->
  whole (readslice zero_Bucket dec_Bucket) (concat (map enc_Bucket l)) (fun s : S => s).
Proof.
  intro W. apply (readslice_whole _ _ _ (fun a _ => a)); [vm_compute; reflexivity|].
  rewrite Forall_forall in W. intros a Ha. split; [|apply rt_Bucket, W, Ha].
  rewrite bucket_length by apply W, Ha. unfold bucket_size. lia.
Qed.

Lemma list_sum_const {A} (l : list A) k : list_sum (map (fun _ => k) l) = k * length l.
Proof.
  induction l as [|a l IH]; [cbn; lia|]. cbn [map length].
  change (list_sum (k :: map (fun _ : A => k) l)) with (k + list_sum (map (fun _ : A => k) l)).
  rewrite IH. lia.
Qed.

Lemma counters_lays l :
  lays (concat (map enc_BucketCounter l)) (16 * length l) (one_after_another (fun _ => 16) counter_layout 0 l).
Proof.
  rewrite <- list_sum_const. apply lays_list. intros a _. unfold enc_BucketCounter, counter_layout. lay_table.
Qed.

Lemma counters_slice {S} l : Forall wf_BucketCounter l ->
  whole (readslice zero_BucketCounter dec_BucketCounter) (concat (map enc_BucketCounter l)) (fun s : S => s).
Proof.
  intro W. apply (readslice_whole _ _ _ (fun a _ => a)); [vm_compute; reflexivity|].
  rewrite Forall_forall in W. intros a Ha. specialize (W a Ha). split.
  - unfold enc_BucketCounter, u64. cbn [concat]. rewrite !app_length, !be_enc_length. lia.
  - exact (rt_all KBucketCounter a W).
Qed.

Lemma band_stats_lays l :
  lays (concat (map enc_MeterBandStats l)) (16 * length l) (one_after_another (fun _ => 16) band_stats_layout 0 l).
Proof.
  rewrite <- list_sum_const. apply lays_list. intros a _. unfold enc_MeterBandStats, band_stats_layout. lay_table.
Qed.

Lemma band_stats_slice {S} l : Forall wf_MeterBandStats l ->
  whole (readslice zero_MeterBandStats dec_MeterBandStats) (concat (map enc_MeterBandStats l)) (fun s : S => s).
Proof.
  intro W. apply (readslice_whole _ _ _ (fun a _ => a)); [vm_compute; reflexivity|].
  rewrite Forall_forall in W. intros a Ha. specialize (W a Ha). split.
  - unfold enc_MeterBandStats, u64. cbn [concat]. rewrite !app_length, !be_enc_length. lia.
  - exact (rt_all KMeterBandStats a W).
Qed.

(** ** Bands *)
Lemma band_lays x : lays (enc_MeterBand x) 16 (band_layout x).
Proof. destruct x; unfold enc_MeterBand, band_layout, band_type; lay_table. Qed.

Lemma band_length x : length (enc_MeterBand x) = 16.
Proof. apply (lays_length _ _ _ (band_lays x)). Qed.

Lemma bands_lays l : lays (enc_MeterBands l) (16 * length l) (bands_layout l).
Proof. rewrite <- list_sum_const. apply lays_list. intros a _. apply band_lays. Qed.

(** A receiver of the type of the band. *)
Definition same_band (x z : MeterBand) : Prop := band_type x = band_type z.

Lemma fits4_intro n : (n < 4294967296)%N -> fits 4 n.
Proof. intro H. exact H. Qed.
Lemma fits2_intro n : (n < 65536)%N -> fits 2 n.
Proof. intro H. exact H. Qed.
Lemma fits1_intro n : (n < 256)%N -> fits 1 n.
Proof. intro H. exact H. Qed.

(** The header of a band is read at once. *)
Lemma band_joined x : enc_MeterBand x
  = match x with
    | BandDrop r b => concat [u16 1 ++ u16 16; u32 r; u32 b; pad 4]
    | BandDSCPRemark r b p => concat [u16 2 ++ u16 16; u32 r; u32 b; u8 p; pad 3]
    | BandExperimenter r b e => concat [u16 65535 ++ u16 16; u32 r; u32 b; u32 e]
    end.
Proof. destruct x; cbn [enc_MeterBand band_type concat]; rewrite <- app_assoc; reflexivity. Qed.

Lemma band_rt x z tl : wf_MeterBand x -> same_band x z ->
  dec_MeterBand z (enc_MeterBand x ++ tl) = Res x 16 None tl.
Proof.
  intros W E. rewrite <- (band_length x).
  destruct x, z; try discriminate E; cbn [wf_MeterBand] in W; split_wf W;
    repeat match goal with H : (_ < 4294967296)%N |- _ => apply fits4_intro in H
                         | H : (_ < 256)%N |- _ => apply fits1_intro in H end;
    cbn [dec_MeterBand]; rewrite !band_joined; plain_rt.
Qed.

Lemma make_band_tag x : exists z, make_band (be_dec (firstn 2 (enc_MeterBand x))) = MkOk z /\ same_band x z.
Proof. destruct x; eexists; split; reflexivity. Qed.

Lemma bands_lost l : Forall wf_MeterBand l -> whole dec_MeterBands (enc_MeterBands l) (fun s => s).
Proof.
  intro W. eapply lost_whole, whole_scan. rewrite Forall_forall in W. intros a Ha. specialize (W a Ha).
  destruct (make_band_tag a) as (z & M & K). exists z. split; [exact M|]. rewrite band_length. split; [lia|].
  intro tl. apply band_rt; assumption.
Qed.

(** ** Queue properties *)
Lemma concat_one (a : bytes) : concat [a] = a.
Proof. cbn [concat]. apply app_nil_r. Qed.

Lemma len16 k n : be_enc 2 (N.of_nat k + uwrap 2 (N.of_nat n)) = be_enc 2 (N.of_nat (k + n)).
Proof.
  rewrite <- be_enc_uwrap, <- (be_enc_uwrap 2 (N.of_nat (k + n))). f_equal.
  unfold uwrap. change (256 ^ N.of_nat 2)%N with 65536%N. lia.
Qed.

Lemma queue_prop_lays x : lays (enc_QueueProp x) (queue_prop_size x) (queue_prop_layout x).
Proof.
  destruct x as [r|r|e d]; unfold enc_QueueProp, queue_prop_layout, queue_prop_size, queue_prop_type; try lay_table.
  concat_split 5. rewrite concat_one.
  change (lays (concat [u16 65535; u16 (uwrap 2 (16 + uwrap 2 (N.of_nat (length d)))); pad 4; u32 e; pad 4] ++ d)
      (16 + length d)
      ([(0, Num 2 65535); (2, Num 2 (N.of_nat (16 + length d))); (4, Zero 4); (8, Num 4 e); (12, Zero 4)]
       ++ shift 16 [(0, Raw (length d) d)])).
  apply lays_app; [|apply lays_raw].
  split; [repeat constructor|split; [reflexivity|]].
  cbn [map snd render concat]. unfold u16 at 2. rewrite be_enc_uwrap. rewrite (len16 16). reflexivity.
Qed.

Lemma queue_prop_length x : length (enc_QueueProp x) = queue_prop_size x.
Proof. apply (lays_length _ _ _ (queue_prop_lays x)). Qed.

Lemma queue_props_lays l : lays (enc_QueueProps l) (queue_props_size l) (queue_props_layout l).
Proof. apply lays_list. intros a _. apply queue_prop_lays. Qed.

Definition same_prop (x z : QueueProp) : Prop := queue_prop_type x = queue_prop_type z.

Lemma take_head {S} k (upd : bytes -> S -> S) bs : length bs = k -> rt (take_full k upd) bs (upd bs).
Proof. apply rt_take. Qed.

Lemma queue_prop_joined x : enc_QueueProp x
  = match x with
    | PropMinRate r => concat [u16 1 ++ u16 16 ++ pad 4; u16 r; pad 6]
    | PropMaxRate r => concat [u16 2 ++ u16 16 ++ pad 4; u16 r; pad 6]
    | PropQueueExperimenter e d =>
        concat [u16 65535 ++ u16 (uwrap 2 (16 + uwrap 2 (N.of_nat (length d)))); pad 4; u32 e; pad 4] ++ d
    end.
Proof.
  destruct x; cbn [enc_QueueProp queue_prop_type concat]; rewrite <- ?app_assoc; try reflexivity.
  rewrite app_nil_r. cbn [app]. reflexivity.
Qed.

Lemma skip_u16 a b : be_dec (skipn 2 (u16 a ++ u16 b)) = uwrap 2 b.
Proof. unfold u16. rewrite (skipn_app_len 2 (be_enc 2 a)) by apply be_enc_length. apply be_dec_enc. Qed.

Lemma queue_prop_rt x z tl : wf_QueueProp x -> same_prop x z ->
  dec_QueueProp z (enc_QueueProp x ++ tl) = Res x (queue_prop_size x) None tl.
Proof.
  intros W E. rewrite <- (queue_prop_length x).
  destruct x as [r|r|e d], z as [r0|r0|e0 d0]; try discriminate E; cbn [wf_QueueProp] in W;
    cbn [dec_QueueProp]; rewrite !queue_prop_joined.
  - apply fits2_intro in W. plain_rt.
  - apply fits2_intro in W. plain_rt.
  - destruct W as [W1 W2]. apply fits4_intro in W1. eapply by_rt.
    + apply rt_with_local, rt_andthen.
      * eapply rt_concat_cons; [apply rt_take; reflexivity|].
        eapply rt_concat_cons; [apply rt_zeros|].
        eapply rt_concat_cons; [apply rt_sub, rt_fu, W1|].
        eapply rt_concat_cons; [apply rt_zeros|]. apply rt_concat_nil.
      * intros s. apply rt_limited; [|apply whole_sub, whole_readall].
        cbn [fst snd]. rewrite skip_u16.
        rewrite (uwrap_small 2 (N.of_nat (length d))) by (unfold fits; change (256 ^ N.of_nat 2)%N with 65536%N; lia).
        replace (16 + N.of_nat (length d))%N with (N.of_nat (16 + length d)) by lia.
        rewrite (uwrap_small 2 (uwrap 2 _)) by apply uwrap_fits. apply (sub16_limit _ 16), W2.
    + reflexivity.
Qed.

Lemma make_queue_prop_tag x : exists z,
  make_queue_prop (be_dec (firstn 2 (enc_QueueProp x))) = MkOk z /\ same_prop x z.
Proof.
  destruct x; try (eexists; split; reflexivity).
Qed.

Lemma queue_props_lost l : Forall wf_QueueProp l -> whole dec_QueueProps (enc_QueueProps l) (fun s => s).
Proof.
  intro W. eapply lost_whole, whole_scan. rewrite Forall_forall in W. intros a Ha. specialize (W a Ha).
  destruct (make_queue_prop_tag a) as (z & M & K). exists z. split; [exact M|].
  rewrite queue_prop_length. split; [destruct a; cbn; lia|].
  intro tl. apply queue_prop_rt; assumption.
Qed.

(** ** Messages: the encoders *)
Ltac lay_head :=
  split; [repeat constructor|split; [reflexivity|]];
  cbn [map snd render concat]; unfold u16, u32, u8, u64, pad; rewrite ?be_enc_uwrap; reflexivity.

Lemma groupmod_lays m : wf_GroupMod m -> lays (enc_GroupMod m) (groupmod_size m) (groupmod_layout m).
Proof.
  intros (_ & _ & _ & W). unfold enc_GroupMod, groupmod_layout, groupmod_size. concat_split 4.
  apply lays_app; [lay_head|]. rewrite concat_one. apply buckets_lays, W.
Qed.

Lemma groupdesc_lays m : wf_GroupDescStats m -> lays (enc_GroupDescStats m) (groupdesc_size m) (groupdesc_layout m).
Proof.
  intros (_ & _ & W & _). unfold enc_GroupDescStats, groupdesc_layout, groupdesc_size. cbv zeta.
  rewrite buckets_length by exact W. concat_split 4.
  apply lays_app; [lay_head|]. rewrite concat_one. apply buckets_lays, W.
Qed.

Lemma groupstats_lays m : lays (enc_GroupStats m) (groupstats_size m) (groupstats_layout m).
Proof.
  unfold enc_GroupStats, groupstats_layout, groupstats_size. cbv zeta.
  rewrite (lays_length _ _ _ (counters_lays _)). concat_split 9.
  apply lays_app; [lay_head|]. rewrite concat_one. apply counters_lays.
Qed.

Lemma metermod_lays m : lays (enc_MeterMod m) (metermod_size m) (metermod_layout m).
Proof.
  unfold enc_MeterMod, metermod_layout, metermod_size. concat_split 3.
  apply lays_app; [lay_head|]. rewrite concat_one. apply bands_lays.
Qed.

Lemma meterconfig_lays m : lays (enc_MeterConfig m) (meterconfig_size m) (meterconfig_layout m).
Proof.
  unfold enc_MeterConfig, meterconfig_layout, meterconfig_size. cbv zeta.
  rewrite (lays_length _ _ _ (bands_lays _)). concat_split 3.
  apply lays_app; [lay_head|]. rewrite concat_one. apply bands_lays.
Qed.

Lemma meterstats_lays m : lays (enc_MeterStats m) (meterstats_size m) (meterstats_layout m).
Proof.
  unfold enc_MeterStats, meterstats_layout, meterstats_size. cbv zeta.
  rewrite (lays_length _ _ _ (band_stats_lays _)). concat_split 8.
  apply lays_app; [lay_head|]. rewrite concat_one. apply band_stats_lays.
Qed.

Lemma packetqueue_lays m : lays (enc_PacketQueue m) (packetqueue_size m) (packetqueue_layout m).
Proof.
  unfold enc_PacketQueue, packetqueue_layout, packetqueue_size. cbv zeta.
  rewrite (lays_length _ _ _ (queue_props_lays _)), (Nat.add_comm _ 16). concat_split 4.
  apply lays_app; [lay_head|]. rewrite concat_one. apply queue_props_lays.
Qed.

Lemma queuereply_lays m : lays (enc_QueueGetConfigReply m) (queuereply_size m) (queuereply_layout m).
Proof.
  unfold enc_QueueGetConfigReply, queuereply_layout, queuereply_size. concat_split 2.
  apply lays_app; [lay_head|]. rewrite concat_one. apply lays_list. intros a _. apply packetqueue_lays.
Qed.

(** ** Messages: what decoding gives *)
Lemma whole_GroupMod m : wf_GroupMod m ->
  whole dec_GroupMod (enc_GroupMod m) (fun old => set_GroupMod_Buckets (GroupMod_Buckets old) m).
Proof.
  unfold wf_GroupMod, enc_GroupMod, dec_GroupMod. intro W. split_wf W. split_last 4.
  eapply whole_ext; cycle 1.
  - apply whole_andthen; [flow_rt|]. intros s. apply buckets_slice. assumption.
  - intros []. destruct m. reflexivity.
Qed.

Lemma rt_GroupDescStats m : wf_GroupDescStats m ->
  rt dec_GroupDescStats (enc_GroupDescStats m) (fun old => set_GroupDescStats_Buckets (GroupDescStats_Buckets old) m).
Proof.
  unfold enc_GroupDescStats, dec_GroupDescStats. cbv zeta. intros (W1 & W2 & W & WS).
  rewrite buckets_length by exact W. split_last 4.
  eapply rt_ext; cycle 1.
  - apply rt_with_local, rt_andthen_ignoring.
    + eapply rt_concat_cons; [apply rt_fu, uwrap_fits|]. flow_rt.
    + intros s. apply rt_limited; [|apply buckets_slice, W].
      cbn [fst snd]. rewrite buckets_length by exact W. apply (sub16_limit _ 8), WS.
  - intros []. destruct m. reflexivity.
Qed.

Lemma rt_GroupStats m : wf_GroupStats m ->
  rt dec_GroupStats (enc_GroupStats m) (fun old => set_GroupStats_BucketStats (GroupStats_BucketStats old) m).
Proof.
  unfold enc_GroupStats, dec_GroupStats. cbv zeta. intros (W1 & W2 & W3 & W4 & W5 & W6 & W & WS).
  rewrite (lays_length _ _ _ (counters_lays _)). split_last 9.
  eapply rt_ext; cycle 1.
  - apply rt_with_local, rt_andthen.
    + eapply rt_concat_cons; [apply rt_fu, uwrap_fits|]. flow_rt.
    + intros s. apply rt_limited; [|apply counters_slice, W].
      cbn [fst snd]. rewrite (lays_length _ _ _ (counters_lays _)). apply (sub16_limit _ 40), WS.
  - intros []. destruct m. reflexivity.
Qed.

Lemma whole_MeterMod m : wf_MeterMod m ->
  whole dec_MeterMod (enc_MeterMod m) (fun old => set_MeterMod_Bands (MeterMod_Bands old) m).
Proof.
  unfold wf_MeterMod, enc_MeterMod, dec_MeterMod. intro W. split_wf W.
  eapply whole_ext; cycle 1.
  - flow_whole. apply whole_last, whole_sub, bands_lost. assumption.
  - intros []. destruct m. reflexivity.
Qed.

Lemma rt_MeterConfig m : wf_MeterConfig m ->
  rt dec_MeterConfig (enc_MeterConfig m) (fun old => set_MeterConfig_Bands (MeterConfig_Bands old) m).
Proof.
  unfold enc_MeterConfig, dec_MeterConfig. cbv zeta. intros (W1 & W2 & W & WS).
  rewrite (lays_length _ _ _ (bands_lays _)). split_last 3.
  eapply rt_ext; cycle 1.
  - apply rt_with_local, rt_andthen.
    + eapply rt_concat_cons; [apply rt_fu, uwrap_fits|]. flow_rt.
    + intros s. apply rt_limited; [|apply whole_sub, whole_sub, bands_lost, W].
      cbn [fst snd]. rewrite (lays_length _ _ _ (bands_lays _)). apply (sub16_limit _ 8), WS.
  - intros []. destruct m. reflexivity.
Qed.

Lemma rt_MeterStats m : wf_MeterStats m ->
  rt dec_MeterStats (enc_MeterStats m) (fun old => set_MeterStats_BandStats (MeterStats_BandStats old) m).
Proof.
  unfold enc_MeterStats, dec_MeterStats. cbv zeta. intros (W1 & W2 & W3 & W4 & W5 & W6 & W & WS).
  rewrite (lays_length _ _ _ (band_stats_lays _)). split_last 8.
  eapply rt_ext; cycle 1.
  - apply rt_with_local, rt_andthen_ignoring.
    + eapply rt_concat_cons; [apply rt_sub, rt_fu, W1|].
      eapply rt_concat_cons; [apply rt_fu, uwrap_fits|]. flow_rt.
    + intros s. apply rt_limited; [|apply band_stats_slice, W].
      cbn [fst snd]. rewrite (lays_length _ _ _ (band_stats_lays _)). apply (sub16_limit _ 40), WS.
  - intros []. destruct m. reflexivity.
Qed.

Lemma rt_PacketQueue m : wf_PacketQueue m ->
  rt dec_PacketQueue (enc_PacketQueue m) (fun old => set_PacketQueue_Properties (PacketQueue_Properties old) m).
Proof.
  unfold enc_PacketQueue, dec_PacketQueue. cbv zeta. intros (W1 & W2 & W & WS).
  rewrite (lays_length _ _ _ (queue_props_lays _)), (Nat.add_comm _ 16). split_last 4.
  eapply rt_ext; cycle 1.
  - apply rt_with_local, rt_andthen.
    + eapply rt_concat_cons; [apply rt_sub, rt_fu, W1|].
      eapply rt_concat_cons; [apply rt_sub, rt_fu, W2|].
      eapply rt_concat_cons; [apply rt_fu, uwrap_fits|]. flow_rt.
    + intros s. apply rt_limited; [|apply whole_sub, whole_sub, queue_props_lost, W].
      cbn [fst snd]. rewrite (lays_length _ _ _ (queue_props_lays _)). apply (sub16_limit _ 16), WS.
  - intros []. destruct m. reflexivity.
Qed.

Lemma whole_QueueGetConfigReply m : wf_QueueGetConfigReply m ->
  whole dec_QueueGetConfigReply (enc_QueueGetConfigReply m)
    (fun old => set_QueueGetConfigReply_Queues (QueueGetConfigReply_Queues old) m).
Proof.
  unfold wf_QueueGetConfigReply, enc_QueueGetConfigReply, dec_QueueGetConfigReply. intros [W1 W]. split_last 2.
  eapply whole_ext; cycle 1.
  - apply whole_andthen; [flow_rt|]. intros s.
    apply (readslice_whole _ _ _ (fun m old => set_PacketQueue_Properties (PacketQueue_Properties old) m));
      [vm_compute; reflexivity|].
    rewrite Forall_forall in W. intros a Ha. split; [|apply rt_PacketQueue, W, Ha].
    rewrite (lays_length _ _ _ (packetqueue_lays a)). unfold packetqueue_size. lia.
  - intros []. destruct m. reflexivity.
Qed.

(** ** Hello *)
Lemma hello_elem_size_eq m :
  hello_elem_size m = 4 + length (HelloElem_Bitmaps m) * 4 + (4 + length (HelloElem_Bitmaps m) * 4) mod 8.
Proof. unfold hello_elem_size, up8. lia. Qed.

(** What an encoded element denotes to the decoder. *)
Definition padded (m : HelloElem) : HelloElem :=
  MkHelloElem (HelloElem_Bitmaps m ++ repeat 0%N (if Nat.even (length (HelloElem_Bitmaps m)) then 1 else 0)).

Lemma uarr_app w a b : uarr w (a ++ b) = uarr w a ++ uarr w b.
Proof. unfold uarr. rewrite map_app. apply concat_app. Qed.

Lemma even_mod n : Nat.even n = (n mod 2 =? 0).
Proof.
  pose proof (Nat.even_spec n) as H. pose proof (Nat.odd_spec n) as H'. unfold Nat.odd in H'.
  destruct (Nat.even n); symmetry; [apply Nat.eqb_eq|apply Nat.eqb_neq].
  - destruct (proj1 H eq_refl) as [k ->]. lia.
  - destruct (proj1 H' eq_refl) as [k ->]. lia.
Qed.

Lemma padded_length m : length (HelloElem_Bitmaps (padded m))
  = length (HelloElem_Bitmaps m) + (if Nat.even (length (HelloElem_Bitmaps m)) then 1 else 0).
Proof. unfold padded. cbn [HelloElem_Bitmaps]. rewrite app_length, repeat_length. reflexivity. Qed.

Lemma zeros_uarr k : zeros (4 * k) = uarr 4 (repeat 0%N k).
Proof.
  induction k as [|k IH]; [reflexivity|]. replace (4 * S k) with (4 + 4 * k) by lia.
  cbn [repeat]. change (uarr 4 (0%N :: repeat 0%N k)) with (be_enc 4 0 ++ uarr 4 (repeat 0%N k)).
  rewrite <- IH. reflexivity.
Qed.

Lemma enc_padded m : enc_HelloElem m
  = (u16 1 ++ u16 (N.of_nat (hello_elem_size m))) ++ uarr 4 (HelloElem_Bitmaps (padded m)).
Proof.
  unfold enc_HelloElem. cbv zeta. rewrite <- hello_elem_size_eq.
  unfold u16 at 2. rewrite be_enc_uwrap. cbn [concat]. rewrite app_nil_r, <- app_assoc. do 2 f_equal.
  unfold padded. cbn [HelloElem_Bitmaps]. rewrite uarr_app. f_equal. rewrite <- zeros_uarr. unfold pad. f_equal.
  rewrite even_mod. destruct (Nat.eqb_spec (length (HelloElem_Bitmaps m) mod 2) 0); lia.
Qed.

Lemma hello_elem_length m : length (enc_HelloElem m) = hello_elem_size m.
Proof.
  rewrite enc_padded, !app_length. unfold u16. rewrite !be_enc_length, uarr_length, padded_length.
  rewrite hello_elem_size_eq. rewrite even_mod.
  destruct (Nat.eqb_spec (length (HelloElem_Bitmaps m) mod 2) 0); lia.
Qed.

Lemma padded_size m : hello_elem_size m = 4 + 4 * length (HelloElem_Bitmaps (padded m)).
Proof.
  rewrite <- hello_elem_length, enc_padded, !app_length. unfold u16. rewrite !be_enc_length, uarr_length. lia.
Qed.

Lemma rt_HelloElem m : wf_HelloElem m -> rt dec_HelloElem (enc_HelloElem m) (fun _ => padded m).
Proof.
  intros [W WS]. rewrite enc_padded. unfold dec_HelloElem.
  assert (U : uwrap 2 (N.of_nat (hello_elem_size m)) = N.of_nat (hello_elem_size m)).
  { apply uwrap_small. exact WS. }
  assert (K : sub16 (N.of_nat (hello_elem_size m)) 4 = N.of_nat (4 * length (HelloElem_Bitmaps (padded m)))).
  { rewrite sub16_small by (rewrite padded_size in *; lia). rewrite padded_size. lia. }
  eapply rt_ext; cycle 1.
  - apply rt_with_local, rt_andthen.
    + rewrite <- (concat_one (u16 1 ++ _)). eapply rt_concat_cons; [apply rt_take; reflexivity|apply rt_concat_nil].
    + intros s. cbn [fst snd]. rewrite skip_u16, U, K.
      replace (N.to_nat (N.of_nat (4 * length (HelloElem_Bitmaps (padded m))) / 4))
        with (length (HelloElem_Bitmaps (padded m))) by lia.
      apply rt_limited; [rewrite uarr_length; lia|]. apply whole_pre, rt_whole, rt_fus; [reflexivity|].
      unfold padded. cbn [HelloElem_Bitmaps]. apply Forall_app. split; [exact W|].
      apply Forall_forall. intros x Hx. apply repeat_spec in Hx. subst x. reflexivity.
  - intros s. reflexivity.
Qed.

Lemma padded_odd m : Nat.even (length (HelloElem_Bitmaps (padded m))) = false.
Proof.
  rewrite padded_length, !even_mod.
  destruct (Nat.eqb_spec (length (HelloElem_Bitmaps m) mod 2) 0); apply Nat.eqb_neq; lia.
Qed.

Lemma padded_padded m : padded (padded m) = padded m.
Proof.
  unfold padded at 1. rewrite padded_odd. cbn [repeat]. rewrite app_nil_r. destruct (padded m). reflexivity.
Qed.

Lemma enc_padded_same m : enc_HelloElem (padded m) = enc_HelloElem m.
Proof.
  rewrite (enc_padded (padded m)), (enc_padded m), (padded_size (padded m)), (padded_size m), padded_padded.
  reflexivity.
Qed.

Lemma wf_padded m : wf_HelloElem m -> wf_HelloElem (padded m).
Proof.
  intros [W WS]. split.
  - unfold padded. cbn [HelloElem_Bitmaps]. apply Forall_app. split; [exact W|].
    apply Forall_forall. intros x Hx. apply repeat_spec in Hx. subst x. reflexivity.
  - rewrite padded_size, padded_padded, <- padded_size. exact WS.
Qed.

Lemma whole_Hello m : wf_Hello m -> whole dec_Hello (enc_Hello m) (fun old => old).
Proof.
  intro W. unfold dec_Hello. eapply whole_ext; cycle 1.
  - apply whole_one, whole_sub. apply lost_whole with (g := fun old => old ++ map padded (Hello_Elements m)).
    unfold enc_Hello, enc_HelloElems.
    replace (map enc_HelloElem (Hello_Elements m)) with (map enc_HelloElem (map padded (Hello_Elements m)))
      by (rewrite map_map; apply map_ext; intro; apply enc_padded_same).
    apply whole_scan. unfold wf_Hello in W. rewrite Forall_forall in W.
    intros a Ha. apply in_map_iff in Ha. destruct Ha as (b & <- & Hb). specialize (W b Hb).
    exists zero_HelloElem. split; [|split].
    + rewrite enc_padded. unfold u16. rewrite firstn_app, firstn_app, !be_enc_length, app_length, !be_enc_length.
      rewrite firstn_all2 by (rewrite be_enc_length; lia). cbn [Nat.sub Nat.add firstn]. rewrite !app_nil_r. reflexivity.
    + rewrite enc_padded, app_length. unfold u16. rewrite app_length, !be_enc_length. lia.
    + intro tl. rewrite (rt_HelloElem _ (wf_padded b W)), padded_padded. reflexivity.
  - intros []. reflexivity.
Qed.

(** ** The receiver's list survives every input *)
Definition keeps {S A} (p : S -> A) (f : step S) : Prop := forall s inp, p (val (f s inp)) = p s.

Lemma keeps_take {S A} (p : S -> A) k upd : (forall b s, p (upd b s) = p s) -> keeps p (take_full k upd).
Proof. intros H s inp. unfold take_full. destruct (length inp <? k); cbn [val]; [reflexivity|apply H]. Qed.

Lemma keeps_seqr {S A} (p : S -> A) fs : Forall (keeps p) fs -> keeps p (seqr fs).
Proof.
  induction 1 as [|f fs Hf _ IH]; intros s inp; [reflexivity|]. cbn [seqr].
  destruct (fail (f s inp)); [apply Hf|]. cbn [val]. rewrite IH. apply Hf.
Qed.

Lemma keeps_andthen {S A} (p : S -> A) a b : keeps p a -> (forall n h, keeps p (b n h)) -> keeps p (andthen a b).
Proof.
  intros Ha Hb s inp. unfold andthen. destruct (fail (a s inp)); [apply Ha|]. cbn [val]. rewrite Hb. apply Ha.
Qed.

Lemma keeps_andthen_ignoring {S A} (p : S -> A) a b :
  keeps p a -> (forall n h, keeps p (b n h)) -> keeps p (andthen_ignoring a b).
Proof. intros Ha Hb s inp. unfold andthen_ignoring. cbn [val]. rewrite Hb. apply Ha. Qed.

Lemma keeps_with_local {L S A} (p : S -> A) (l : L) f : keeps (fun s => p (snd s)) f -> keeps p (with_local l f).
Proof. intros H s inp. unfold with_local. cbn [val]. rewrite (H (l, s) inp). reflexivity. Qed.

Lemma keeps_limited {S A} (p : S -> A) z f : keeps p f -> keeps p (limited z f).
Proof. intros H s inp. unfold limited. cbn [val]. apply H. Qed.

Lemma keeps_sub {S T A} (p : S -> A) (get : S -> T) (set : T -> S -> S) f (q : T -> A) :
  (forall s, p s = q (get s)) -> (forall t s, p (set t s) = q t) -> keeps q f -> keeps p (sub get set f).
Proof. intros H1 H2 H s inp. unfold sub. cbn [val]. rewrite H2, H. symmetry. apply H1. Qed.

Lemma keeps_lost {S A} (p : S -> A) f : keeps p (lost f).
Proof. intros s inp. reflexivity. Qed.

Lemma keeps_readslice {B S A} (p : S -> A) (zero : B) rd : keeps p (readslice zero rd).
Proof.
  intros s inp. unfold readslice, readfunc. generalize (Datatypes.S (length inp)) as fuel.
  intro fuel. revert s inp. induction fuel as [|fuel IH]; intros s inp; [reflexivity|].
  cbn [readfunc_loop]. destruct (fail (rd zero inp)); [reflexivity|]. cbn [val]. apply IH.
Qed.

Ltac keeps_list :=
  repeat first
    [ apply keeps_lost | apply keeps_readslice | apply keeps_limited; intros
    | apply keeps_with_local
    | apply keeps_seqr; repeat constructor
    | apply keeps_take; intros; reflexivity
    | eapply keeps_sub with (q := fun l => l); [intros; reflexivity|intros; reflexivity|]
    | eapply keeps_sub; [intros; reflexivity|intros; reflexivity|] ].

Lemma keeps_GroupMod : keeps GroupMod_Buckets dec_GroupMod.
Proof. apply keeps_andthen; intros; keeps_list. Qed.
Lemma keeps_GroupDescStats : keeps GroupDescStats_Buckets dec_GroupDescStats.
Proof. apply keeps_with_local, keeps_andthen_ignoring; intros; keeps_list. Qed.
Lemma keeps_GroupStats : keeps GroupStats_BucketStats dec_GroupStats.
Proof. apply keeps_with_local, keeps_andthen; intros; keeps_list. Qed.
Lemma keeps_MeterMod : keeps MeterMod_Bands dec_MeterMod.
Proof. keeps_list. Qed.
Lemma keeps_MeterConfig : keeps MeterConfig_Bands dec_MeterConfig.
Proof. apply keeps_with_local, keeps_andthen; intros; keeps_list. Qed.
Lemma keeps_MeterStats : keeps MeterStats_BandStats dec_MeterStats.
Proof. apply keeps_with_local, keeps_andthen_ignoring; intros; keeps_list. Qed.
Lemma keeps_PacketQueue : keeps PacketQueue_Properties dec_PacketQueue.
Proof. apply keeps_with_local, keeps_andthen; intros; keeps_list. Qed.
Lemma keeps_QueueGetConfigReply : keeps QueueGetConfigReply_Queues dec_QueueGetConfigReply.
Proof. apply keeps_andthen; intros; keeps_list. Qed.
Lemma keeps_Hello : keeps Hello_Elements dec_Hello.
Proof. keeps_list. Qed.
