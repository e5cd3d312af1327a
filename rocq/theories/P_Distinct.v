(** C105: bytes tell messages apart. *)
From Verif Require Import FixedFacts FlowFacts LoopFacts TableFacts DataFacts PortsFacts P_Varying DistinctSpec RequestSpec VaryingModel VaryingSpec.
From Coq Require Import Lia.

(** ** General lemmas *)
Lemma by_reading {A} (wf : A -> Prop) enc norm (f : step A) (z : A) :
  (forall x, wf x -> rt f (enc x) (fun _ => norm x)) -> self_delimiting wf enc norm.
Proof.
  intros H x y a b Wx Wy E. pose proof (H x Wx z a) as Rx. pose proof (H y Wy z b) as Ry.
  rewrite E, Ry in Rx. injection Rx as Hn _ Ht. auto.
Qed.

Lemma by_whole {A} (wf : A -> Prop) enc norm (f : step A) (z : A) :
  (forall x, wf x -> whole f (enc x) (fun _ => norm x)) -> told_apart wf enc norm.
Proof.
  intros H x y Wx Wy E. pose proof (H x Wx z) as Rx. pose proof (H y Wy z) as Ry.
  rewrite E, Ry in Rx. injection Rx as Hn. auto.
Qed.

Lemma delimited_told {A} (wf : A -> Prop) enc norm : self_delimiting wf enc norm -> told_apart wf enc norm.
Proof. intros H x y Wx Wy E. apply (H x y [] []); auto. rewrite E. reflexivity. Qed.

Lemma lists {A} (wf : A -> Prop) enc norm : self_delimiting wf enc norm -> (forall x, wf x -> enc x <> []) ->
  told_apart (Forall wf) (fun l => concat (map enc l)) (map norm).
Proof.
  intros H N x. induction x as [|u x IH]; intros [|v y] Wx Wy E; cbn [map concat] in E.
  - reflexivity.
  - symmetry in E. apply app_eq_nil in E. inversion_clear Wy as [|? ? W _]. exfalso. apply (N v W), E.
  - apply app_eq_nil in E. inversion_clear Wx as [|? ? W _]. exfalso. apply (N u W), E.
  - inversion_clear Wx as [|? ? W1 W2]. inversion_clear Wy as [|? ? W3 W4].
    destruct (H u v _ _ W1 W3 E) as [Hn Ht]. cbn [map]. rewrite Hn. f_equal. apply IH; auto.
Qed.

(** A header followed by a list: the header is read back, and so is the list. *)
Lemma behind n (l : list bytes) buf : length (concat l) = n -> skipn n (concat (l ++ [buf])) = buf.
Proof. intro L. rewrite concat_app. cbn [concat]. rewrite app_nil_r. apply skipn_app_len, L. Qed.

Lemma long_nonempty (b : bytes) n : length b = n -> n <> 0 -> b <> [].
Proof. intros L H ->. cbn in L. auto. Qed.

Ltac hlen := cbn [concat]; unfold u8, u16, u32, u64, pad; rewrite ?app_length, ?be_enc_length, ?zeros_length; reflexivity.

Lemma app_same {A} (x y a b : list A) : length x = length y -> x ++ a = y ++ b -> x = y /\ a = b.
Proof.
  intros L E. split; [rewrite <- (firstn_app_len (length x) x a eq_refl), E; apply firstn_app_len; auto|].
  rewrite <- (skipn_app_len (length x) x a eq_refl), E. apply skipn_app_len; auto.
Qed.

(** ** Elements *)
Lemma delimited_Bucket : self_delimiting wf_Bucket enc_Bucket (fun m => m).
Proof. exact (by_reading _ _ _ dec_Bucket zero_Bucket rt_Bucket). Qed.

Lemma type_first w t u a b : fits w t -> fits w u -> be_enc w t ++ a = be_enc w u ++ b -> t = u /\ a = b.
Proof.
  intros Ft Fu E. apply app_same in E; [|rewrite !be_enc_length; reflexivity]. destruct E as [E Ea].
  split; [|exact Ea]. apply (be_enc_inj w); assumption.
Qed.

Lemma band_first x : exists tl, enc_MeterBand x = u16 (band_type x) ++ tl.
Proof. destruct x; cbn [enc_MeterBand]; eexists; cbn [concat]; reflexivity. Qed.
Lemma delimited_MeterBand : self_delimiting wf_MeterBand enc_MeterBand (fun m => m).
Proof.
  intros x y a b Wx Wy E.
  assert (T : band_type x = band_type y).
  { destruct (band_first x) as [tx Ex]. destruct (band_first y) as [ty Ey]. rewrite Ex, Ey, <- !app_assoc in E.
    apply type_first in E; [apply E|destruct x; reflexivity|destruct y; reflexivity]. }
  assert (Rx : dec_MeterBand x (enc_MeterBand x ++ a) = Res x 16 None a) by (apply band_rt; [exact Wx|reflexivity]).
  assert (Ry : dec_MeterBand x (enc_MeterBand y ++ b) = Res y 16 None b)
    by (apply band_rt; [exact Wy|destruct x, y; try reflexivity; discriminate T]).
  rewrite E, Ry in Rx. injection Rx as <- <-. auto.
Qed.

Lemma queue_prop_first x : exists tl, enc_QueueProp x = u16 (queue_prop_type x) ++ tl.
Proof. destruct x; cbn [enc_QueueProp]; eexists; cbn [concat]; reflexivity. Qed.
Lemma delimited_QueueProp : self_delimiting wf_QueueProp enc_QueueProp (fun m => m).
Proof.
  intros x y a b Wx Wy E.
  assert (T : queue_prop_type x = queue_prop_type y).
  { destruct (queue_prop_first x) as [tx Ex]. destruct (queue_prop_first y) as [ty Ey]. rewrite Ex, Ey, <- !app_assoc in E.
    apply type_first in E; [apply E|destruct x; reflexivity|destruct y; reflexivity]. }
  assert (Rx : dec_QueueProp x (enc_QueueProp x ++ a) = Res x (queue_prop_size x) None a)
    by (apply queue_prop_rt; [exact Wx|reflexivity]).
  assert (Ry : dec_QueueProp x (enc_QueueProp y ++ b) = Res y (queue_prop_size y) None b)
    by (apply queue_prop_rt; [exact Wy|destruct x, y; try reflexivity; discriminate T]).
  rewrite E, Ry in Rx. injection Rx as <- _ <-. auto.
Qed.

Lemma table_prop_first p : exists tl, enc_TableProp p = u16 (prop_type p) ++ tl.
Proof.
  destruct p; cbn [enc_TableProp]; unfold enc_prop_instructions, enc_prop_tables, enc_prop_actions, enc_prop_xm,
    enc_prop_experimenter, prop_header; cbv zeta; eexists; cbn [concat]; rewrite <- ?app_assoc; reflexivity.
Qed.
Lemma delimited_TableProp : self_delimiting wf_TableProp enc_TableProp (fun p => p).
Proof.
  intros x y a b Wx Wy E.
  assert (T : prop_type x = prop_type y).
  { destruct (table_prop_first x) as [tx Ex]. destruct (table_prop_first y) as [ty Ey]. rewrite Ex, Ey, <- !app_assoc in E.
    apply type_first in E; [apply E| |]; [destruct x as [[]|[]|[]|[]|?|?|[]|[]|[]]|destruct y as [[]|[]|[]|[]|?|?|[]|[]|[]]]; reflexivity. }
  assert (S1 : same_tprop x x) by (destruct x; exact I).
  assert (S2 : same_tprop y x)
    by (destruct x as [[]|[]|[]|[]|?|?|[]|[]|[]], y as [[]|[]|[]|[]|?|?|[]|[]|[]]; try exact I; discriminate T).
  pose proof (prop_rt x x a Wx S1) as Rx. pose proof (prop_rt y x b Wy S2) as Ry.
  rewrite E, Ry in Rx. injection Rx as R _ <-. split; [|reflexivity].
  destruct x as [[]|[]|[]|[]|?|?|[]|[]|[]], y as [[]|[]|[]|[]|?|?|[]|[]|[]]; try discriminate T; try contradiction;
    cbn [prop_read] in R; congruence.
Qed.

(** ** Messages with lists that their own decoders lose *)
Lemma with_list {A B} (wf : A -> Prop) enc (f : step A) (z : A) (get : A -> B) (set : B -> A -> A) :
  (forall x, wf x -> rt f (enc x) (fun old => set (get old) x)) ->
  (forall x y, wf x -> wf y -> enc x = enc y -> get x = get y) ->
  (forall x y, set (get z) x = set (get z) y -> get x = get y -> x = y) ->
  self_delimiting wf enc (fun m => m).
Proof.
  intros H G I x y a b Wx Wy E. pose proof (H x Wx z a) as Rx. pose proof (H y Wy z b) as Ry.
  rewrite E, Ry in Rx. injection Rx as Hn _ Ht. subst b. split; [|reflexivity].
  apply app_inv_tail in E. apply I; [symmetry; exact Hn|apply G; assumption].
Qed.

Lemma with_list_whole {A B} (wf : A -> Prop) enc (f : step A) (z : A) (get : A -> B) (set : B -> A -> A) :
  (forall x, wf x -> whole f (enc x) (fun old => set (get old) x)) ->
  (forall x y, wf x -> wf y -> enc x = enc y -> get x = get y) ->
  (forall x y, set (get z) x = set (get z) y -> get x = get y -> x = y) ->
  told_apart wf enc (fun m => m).
Proof.
  intros H G I x y Wx Wy E. pose proof (H x Wx z) as Rx. pose proof (H y Wy z) as Ry.
  rewrite E, Ry in Rx. injection Rx as Hn. apply I; [symmetry; exact Hn|apply G; assumption].
Qed.

Lemma bucket_nonempty m : wf_Bucket m -> enc_Bucket m <> [].
Proof. intro W. apply (long_nonempty _ (bucket_size m)); [apply bucket_length, W|unfold bucket_size; lia]. Qed.
Lemma buckets_told : told_apart (Forall wf_Bucket) (fun l => concat (map enc_Bucket l)) (fun l => l).
Proof.
  intros x y Wx Wy E. pose proof (lists _ _ _ delimited_Bucket bucket_nonempty x y Wx Wy E) as H.
  rewrite !map_id in H. exact H.
Qed.
Lemma bands_told : told_apart (Forall wf_MeterBand) (fun l => concat (map enc_MeterBand l)) (fun l => l).
Proof.
  assert (N : forall m, wf_MeterBand m -> enc_MeterBand m <> []).
  { intros m _ H. apply (f_equal (@length _)) in H. rewrite (lays_length _ _ _ (band_lays m)) in H. discriminate H. }
  intros x y Wx Wy E. pose proof (lists _ _ _ delimited_MeterBand N x y Wx Wy E) as H. rewrite !map_id in H. exact H.
Qed.
Lemma queue_props_told : told_apart (Forall wf_QueueProp) (fun l => concat (map enc_QueueProp l)) (fun l => l).
Proof.
  assert (N : forall m, wf_QueueProp m -> enc_QueueProp m <> []).
  { intros m _ H. apply (f_equal (@length _)) in H. rewrite (lays_length _ _ _ (queue_prop_lays m)) in H.
    destruct m; discriminate H. }
  intros x y Wx Wy E. pose proof (lists _ _ _ delimited_QueueProp N x y Wx Wy E) as H. rewrite !map_id in H. exact H.
Qed.
Lemma table_props_told : told_apart (Forall wf_TableProp) (fun l => concat (map enc_TableProp l)) (fun l => l).
Proof.
  assert (N : forall m, wf_TableProp m -> enc_TableProp m <> []).
  { intros m _ H. destruct (table_prop_first m) as [tl E]. rewrite E in H. discriminate H. }
  intros x y Wx Wy E. pose proof (lists _ _ _ delimited_TableProp N x y Wx Wy E) as H. rewrite !map_id in H. exact H.
Qed.

Lemma fixed_delimited k : self_delimiting (wf k) (enc k) (normal k).
Proof.
  intros x y a b Wx Wy E. pose proof (roundtrip_all k x x a Wx) as Rx. pose proof (roundtrip_all k y x b Wy) as Ry.
  rewrite E, Ry in Rx. injection Rx as -> ->. auto.
Qed.

Lemma counters_told : told_apart (Forall wf_BucketCounter) (fun l => concat (map enc_BucketCounter l)) (fun l => l).
Proof.
  assert (N : forall m, wf_BucketCounter m -> enc_BucketCounter m <> []).
  { intros m _ H. apply (f_equal (@length _)) in H. unfold enc_BucketCounter, u64 in H. cbn [concat] in H.
    rewrite !app_length, !be_enc_length in H. discriminate H. }
  intros x y Wx Wy E. pose proof (lists _ _ _ (fixed_delimited KBucketCounter) N x y Wx Wy E) as H.
  cbn [normal] in H. rewrite !map_id in H. exact H.
Qed.
Lemma band_stats_told : told_apart (Forall wf_MeterBandStats) (fun l => concat (map enc_MeterBandStats l)) (fun l => l).
Proof.
  assert (N : forall m, wf_MeterBandStats m -> enc_MeterBandStats m <> []).
  { intros m _ H. apply (f_equal (@length _)) in H. unfold enc_MeterBandStats, u64 in H. cbn [concat] in H.
    rewrite !app_length, !be_enc_length in H. discriminate H. }
  intros x y Wx Wy E. pose proof (lists _ _ _ (fixed_delimited KMeterBandStats) N x y Wx Wy E) as H.
  cbn [normal] in H. rewrite !map_id in H. exact H.
Qed.

(** The list is what is behind the header. *)
Lemma delimited_GroupDescStats : self_delimiting wf_GroupDescStats enc_GroupDescStats (fun m => m).
Proof.
  assert (B : forall m, skipn 8 (enc_GroupDescStats m) = concat (map enc_Bucket (GroupDescStats_Buckets m))).
  { intro m. unfold enc_GroupDescStats. cbv zeta. apply (behind 8 [_; _; _; _]). hlen. }
  apply (with_list _ _ dec_GroupDescStats zero_GroupDescStats GroupDescStats_Buckets set_GroupDescStats_Buckets rt_GroupDescStats).
  - intros x y (_ & _ & Wx & _) (_ & _ & Wy & _) E. apply buckets_told; [assumption..|]. rewrite <- !B, E. reflexivity.
  - intros [] [] H G. unfold set_GroupDescStats_Buckets in H. cbn in *. congruence.
Qed.
Lemma delimited_GroupStats : self_delimiting wf_GroupStats enc_GroupStats (fun m => m).
Proof.
  assert (B : forall m, skipn 40 (enc_GroupStats m) = concat (map enc_BucketCounter (GroupStats_BucketStats m))).
  { intro m. unfold enc_GroupStats. cbv zeta. apply (behind 40 [_; _; _; _; _; _; _; _; _]). hlen. }
  apply (with_list _ _ dec_GroupStats zero_GroupStats GroupStats_BucketStats set_GroupStats_BucketStats rt_GroupStats).
  - intros x y (_ & _ & _ & _ & _ & _ & Wx & _) (_ & _ & _ & _ & _ & _ & Wy & _) E. apply counters_told; [assumption..|]. rewrite <- !B, E. reflexivity.
  - intros [] [] H G. unfold set_GroupStats_BucketStats in H. cbn in *. congruence.
Qed.
Lemma delimited_MeterConfig : self_delimiting wf_MeterConfig enc_MeterConfig (fun m => m).
Proof.
  assert (B : forall m, skipn 8 (enc_MeterConfig m) = concat (map enc_MeterBand (MeterConfig_Bands m))).
  { intro m. unfold enc_MeterConfig. cbv zeta. apply (behind 8 [_; _; _]). hlen. }
  apply (with_list _ _ dec_MeterConfig zero_MeterConfig MeterConfig_Bands set_MeterConfig_Bands rt_MeterConfig).
  - intros x y (_ & _ & Wx & _) (_ & _ & Wy & _) E. apply bands_told; [assumption..|]. rewrite <- !B, E. reflexivity.
  - intros [] [] H G. unfold set_MeterConfig_Bands in H. cbn in *. congruence.
Qed.
Lemma delimited_MeterStats : self_delimiting wf_MeterStats enc_MeterStats (fun m => m).
Proof.
  assert (B : forall m, skipn 40 (enc_MeterStats m) = concat (map enc_MeterBandStats (MeterStats_BandStats m))).
  { intro m. unfold enc_MeterStats. cbv zeta. apply (behind 40 [_; _; _; _; _; _; _; _]). hlen. }
  apply (with_list _ _ dec_MeterStats zero_MeterStats MeterStats_BandStats set_MeterStats_BandStats rt_MeterStats).
  - intros x y (_ & _ & _ & _ & _ & _ & Wx & _) (_ & _ & _ & _ & _ & _ & Wy & _) E. apply band_stats_told; [assumption..|]. rewrite <- !B, E. reflexivity.
  - intros [] [] H G. unfold set_MeterStats_BandStats in H. cbn in *. congruence.
Qed.
Lemma delimited_PacketQueue : self_delimiting wf_PacketQueue enc_PacketQueue (fun m => m).
Proof.
  assert (B : forall m, skipn 16 (enc_PacketQueue m) = concat (map enc_QueueProp (PacketQueue_Properties m))).
  { intro m. unfold enc_PacketQueue, enc_QueueProps. cbv zeta. apply (behind 16 [_; _; _; _]). hlen. }
  apply (with_list _ _ dec_PacketQueue zero_PacketQueue PacketQueue_Properties set_PacketQueue_Properties rt_PacketQueue).
  - intros x y (_ & _ & Wx & _) (_ & _ & Wy & _) E. apply queue_props_told; [assumption..|]. rewrite <- !B, E. reflexivity.
  - intros [] [] H G. unfold set_PacketQueue_Properties in H. cbn in *. congruence.
Qed.
Lemma packet_queues_told : told_apart (Forall wf_PacketQueue) (fun l => concat (map enc_PacketQueue l)) (fun l => l).
Proof.
  assert (N : forall m, wf_PacketQueue m -> enc_PacketQueue m <> []).
  { intros m _ H. apply (f_equal (@length _)) in H. rewrite (lays_length _ _ _ (packetqueue_lays m)) in H. discriminate H. }
  intros x y Wx Wy E. pose proof (lists _ _ _ delimited_PacketQueue N x y Wx Wy E) as H. rewrite !map_id in H. exact H.
Qed.
Lemma told_GroupMod : told_apart wf_GroupMod enc_GroupMod (fun m => m).
Proof.
  assert (B : forall m, skipn 8 (enc_GroupMod m) = concat (map enc_Bucket (GroupMod_Buckets m))).
  { intro m. unfold enc_GroupMod. cbv zeta. apply (behind 8 [_; _; _; _]). hlen. }
  apply (with_list_whole _ _ dec_GroupMod zero_GroupMod GroupMod_Buckets set_GroupMod_Buckets whole_GroupMod).
  - intros x y (_ & _ & _ & Wx) (_ & _ & _ & Wy) E. apply buckets_told; [assumption..|]. rewrite <- !B, E. reflexivity.
  - intros [] [] H G. unfold set_GroupMod_Buckets in H. cbn in *. congruence.
Qed.
Lemma told_MeterMod : told_apart wf_MeterMod enc_MeterMod (fun m => m).
Proof.
  assert (B : forall m, skipn 8 (enc_MeterMod m) = concat (map enc_MeterBand (MeterMod_Bands m))).
  { intro m. unfold enc_MeterMod. cbv zeta. apply (behind 8 [_; _; _]). hlen. }
  apply (with_list_whole _ _ dec_MeterMod zero_MeterMod MeterMod_Bands set_MeterMod_Bands whole_MeterMod).
  - intros x y (_ & _ & _ & Wx) (_ & _ & _ & Wy) E. apply bands_told; [assumption..|]. rewrite <- !B, E. reflexivity.
  - intros [] [] H G. unfold set_MeterMod_Bands in H. cbn in *. congruence.
Qed.
Lemma told_QueueGetConfigReply : told_apart wf_QueueGetConfigReply enc_QueueGetConfigReply (fun m => m).
Proof.
  assert (B : forall m, skipn 8 (enc_QueueGetConfigReply m) = concat (map enc_PacketQueue (QueueGetConfigReply_Queues m))).
  { intro m. unfold enc_QueueGetConfigReply. cbv zeta. apply (behind 8 [_; _]). hlen. }
  apply (with_list_whole _ _ dec_QueueGetConfigReply zero_QueueGetConfigReply QueueGetConfigReply_Queues set_QueueGetConfigReply_Queues whole_QueueGetConfigReply).
  - intros x y (_ & Wx) (_ & Wy) E. apply packet_queues_told; [assumption..|]. rewrite <- !B, E. reflexivity.
  - intros [] [] H G. unfold set_QueueGetConfigReply_Queues in H. cbn in *. congruence.
Qed.

Lemma delimited_TableFeatures : self_delimiting wf_TableFeatures enc_TableFeatures named32.
Proof.
  assert (B : forall m, skipn 64 (enc_TableFeatures m) = concat (map enc_TableProp (TableFeatures_Properties m))).
  { intro m. unfold enc_TableFeatures. cbv zeta. apply (behind 64 [_; _; _; _; _; _; _; _]).
    cbn [concat]; unfold u8, u16, u32, u64, pad; rewrite ?app_length, ?be_enc_length, ?zeros_length, fixtext_length; reflexivity. }
  intros x y a b Wx Wy E.
  destruct (by_reading _ _ _ dec_TableFeatures zero_TableFeatures rt_TableFeatures x y a b Wx Wy E) as [H <-].
  split; [|reflexivity]. apply app_inv_tail in E.
  assert (P : TableFeatures_Properties x = TableFeatures_Properties y).
  { destruct Wx as (_ & _ & _ & _ & _ & Wx & _). destruct Wy as (_ & _ & _ & _ & _ & Wy & _).
    apply table_props_told; [assumption..|]. rewrite <- !B, E. reflexivity. }
  unfold features_arrive in H. injection H as H1 H2 H3 H4 H5 H6 _. unfold named32.
  rewrite P, H1, H3, H4, H5, H6. f_equal. exact H2.
Qed.

Lemma delimited_HelloElem : self_delimiting wf_HelloElem enc_HelloElem filled_maps.
Proof.
  apply (by_reading _ _ _ dec_HelloElem zero_HelloElem). intros x W s tl. rewrite (rt_HelloElem x W). f_equal.
  unfold padded, filled_maps. f_equal. destruct (Nat.even (length (HelloElem_Bitmaps x))); [reflexivity|apply app_nil_r].
Qed.

(** ** Messages sent alone *)

(** C105: a frame, whatever follows it, tells version, type, transaction and body. *)
Theorem C105_frames : forall e1 e2 v1 t1 x1 b1 v2 t2 x2 b2 a1 a2,
  is_frame e1 v1 t1 x1 b1 -> is_frame e2 v2 t2 x2 b2 -> msg_ok (v1, t1, x1, b1) -> msg_ok (v2, t2, x2, b2) ->
  e1 ++ a1 = e2 ++ a2 -> (v1, t1, x1, b1) = (v2, t2, x2, b2) /\ a1 = a2.
Proof.
  intros e1 e2 v1 t1 x1 b1 v2 t2 x2 b2 a1 a2 F1 F2 ((R1 & R2 & R3) & L1) ((S1 & S2 & S3) & L2) E.
  apply frame_eq in F1. apply frame_eq in F2. subst e1 e2. rewrite <- !app_assoc in E.
  destruct (fixed_delimited KHeader (MkHeader v1 t1 (8 + lenN b1) x1) (MkHeader v2 t2 (8 + lenN b2) x2) (b1 ++ a1) (b2 ++ a2)) as [H T].
  - repeat split; try assumption. change (8 + lenN b1 < 65536)%N. lia.
  - repeat split; try assumption. change (8 + lenN b2 < 65536)%N. lia.
  - exact E.
  - cbn [normal] in H. pose proof (f_equal Header_Length H) as HL. cbn [Header_Length] in HL. injection H as -> -> _ ->.
    destruct (app_same b1 b2 a1 a2) as [-> ->]; [unfold lenN in HL; lia|exact T|auto].
Qed.
Print Assumptions C105_frames.

(** C105: messages of fixed size tell all their members, up to cut or filled texts,
    whatever follows them. *)
Theorem C105_fixed : forall k, self_delimiting (wf k) (enc k) (normal k).
Proof. exact fixed_delimited. Qed.
Print Assumptions C105_fixed.

(** C105: matches, action lists, instruction lists, flow and packet messages tell
    everything. *)
Theorem C105_varying : forall k, told_apart (vwf k) (venc k) (fun m => m).
Proof.
  intros []; cbn [vmsg vwf venc].
  - exact (by_whole _ _ _ dec_Match zero_Match (fun x W => rt_whole _ _ _ (rt_Match x W))).
  - exact (by_whole _ _ _ dec_Actions [] whole_Actions).
  - intros x y Wx Wy E. pose proof (whole_Instructions x Wx []) as Rx. pose proof (whole_Instructions y Wy []) as Ry.
    rewrite E, Ry in Rx. injection Rx as Rx. auto.
  - exact (delimited_told _ _ _ delimited_Bucket).
  - exact (by_whole _ _ _ dec_FlowMod zero_FlowMod whole_FlowMod).
  - exact (by_whole _ _ _ dec_FlowRemoved zero_FlowRemoved (fun x W => rt_whole _ _ _ (rt_FlowRemoved x W))).
  - exact (by_whole _ _ _ dec_FlowStatsRequest zero_FlowStatsRequest (fun x W => rt_whole _ _ _ (rt_FlowStatsRequest x W))).
  - exact (by_whole _ _ _ dec_AggregateStatsRequest zero_AggregateStatsRequest (fun x W => rt_whole _ _ _ (rt_AggregateStatsRequest x W))).
  - exact (by_whole _ _ _ dec_FlowStats zero_FlowStats (fun x W => rt_whole _ _ _ (rt_FlowStats x W))).
  - exact (by_whole _ _ _ dec_PacketIn zero_PacketIn whole_PacketIn).
  - exact (by_whole _ _ _ dec_PacketOut zero_PacketOut whole_PacketOut).
Qed.
Print Assumptions C105_varying.

(** C105: group, meter and queue messages tell their lists, although reading them
    back loses the lists (C51); hello messages tell their bitmaps up to the empty
    bitmap that fills an element. *)
Theorem C105_lost_lists :
  told_apart wf_GroupMod enc_GroupMod (fun m => m)
  /\ told_apart wf_MeterMod enc_MeterMod (fun m => m)
  /\ told_apart wf_QueueGetConfigReply enc_QueueGetConfigReply (fun m => m)
  /\ forall x y, wf_Hello x -> wf_Hello y -> enc_Hello x = enc_Hello y ->
       map filled_maps (Hello_Elements x) = map filled_maps (Hello_Elements y).
Proof.
  split; [exact told_GroupMod|]. split; [exact told_MeterMod|]. split; [exact told_QueueGetConfigReply|].
  intros x y. apply (lists wf_HelloElem enc_HelloElem filled_maps delimited_HelloElem).
  intros m _ H. rewrite enc_padded in H. discriminate H.
Qed.
Print Assumptions C105_lost_lists.

(** C105: error messages and multipart requests tell theirs. *)
Theorem C105_data :
  told_apart wf_Error enc_Error (fun m => m)
  /\ told_apart wf_ErrorExperimenter enc_ErrorExperimenter (fun m => m)
  /\ forall x y e, wf_MultipartRequest x -> wf_MultipartRequest y ->
       fst (write_MultipartRequest x) = inl e -> fst (write_MultipartRequest y) = inl e ->
       MultipartRequest_Type x = MultipartRequest_Type y /\ MultipartRequest_Flags x = MultipartRequest_Flags y
       /\ mcontent (MultipartRequest_Body x) = mcontent (MultipartRequest_Body y).
Proof.
  split; [exact (by_whole _ _ _ dec_Error zero_Error whole_Error)|].
  split; [exact (by_whole _ _ _ dec_ErrorExperimenter zero_ErrorExperimenter whole_ErrorExperimenter)|].
  assert (H : forall x e, fst (write_MultipartRequest x) = inl e -> exists b, mcontent (MultipartRequest_Body x) = Some b
            /\ e = concat [u16 (MultipartRequest_Type x); u16 (MultipartRequest_Flags x); pad 4; b]).
  { intros x e. unfold write_MultipartRequest.
    destruct (MultipartRequest_Body x) as [|w ? ? ?|b|r]; cbn [mcontent fst]; intro H.
    - injection H as <-. eauto.
    - destruct (perr w); [discriminate|]. injection H as <-. eauto.
    - injection H as <-. eauto.
    - discriminate. }
  intros x y e (F1 & F2) (G1 & G2) Hx Hy. destruct (H x e Hx) as (bx & Mx & Ex). destruct (H y e Hy) as (by' & My & Ey).
  pose proof (whole_Multipart _ _ bx F1 F2 (MkMultipartRequest 0 0 MNil)) as Rx.
  pose proof (whole_Multipart _ _ by' G1 G2 (MkMultipartRequest 0 0 MNil)) as Ry.
  rewrite <- Ex in Rx. rewrite <- Ey, Rx in Ry. injection Ry as -> -> ->. rewrite Mx, My. auto.
Qed.
Print Assumptions C105_data.

(** ** Entries of lists and of multipart messages *)

(** C105: entries that may stand one behind another delimit themselves. *)
Theorem C105_entries :
  self_delimiting wf_XM enc_XM (fun m => m)
  /\ self_delimiting wf_Match enc_Match (fun m => m)
  /\ self_delimiting wf_Bucket enc_Bucket (fun m => m)
  /\ self_delimiting wf_MeterBand enc_MeterBand (fun m => m)
  /\ self_delimiting wf_QueueProp enc_QueueProp (fun m => m)
  /\ self_delimiting wf_PacketQueue enc_PacketQueue (fun m => m)
  /\ self_delimiting wf_TableProp enc_TableProp (fun m => m)
  /\ self_delimiting wf_HelloElem enc_HelloElem filled_maps
  /\ self_delimiting wf_FlowStats enc_FlowStats (fun m => m)
  /\ self_delimiting wf_GroupDescStats enc_GroupDescStats (fun m => m)
  /\ self_delimiting wf_GroupStats enc_GroupStats (fun m => m)
  /\ self_delimiting wf_MeterConfig enc_MeterConfig (fun m => m)
  /\ self_delimiting wf_MeterStats enc_MeterStats (fun m => m)
  /\ self_delimiting wf_TableFeatures enc_TableFeatures named32.
Proof.
  split; [exact (by_reading _ _ _ dec_XM zero_XM rt_XM)|].
  split; [exact (by_reading _ _ _ dec_Match zero_Match rt_Match)|].
  split; [exact delimited_Bucket|]. split; [exact delimited_MeterBand|]. split; [exact delimited_QueueProp|].
  split; [exact delimited_PacketQueue|]. split; [exact delimited_TableProp|]. split; [exact delimited_HelloElem|].
  split; [exact (by_reading _ _ _ dec_FlowStats zero_FlowStats rt_FlowStats)|].
  split; [exact delimited_GroupDescStats|]. split; [exact delimited_GroupStats|]. split; [exact delimited_MeterConfig|].
  split; [exact delimited_MeterStats|exact delimited_TableFeatures].
Qed.
Print Assumptions C105_entries.

(** C105: hence so do lists of them, however long: the number of entries and each
    entry are told. *)
Theorem C105_lists : forall A (wf : A -> Prop) enc norm, self_delimiting wf enc norm ->
  (forall x, wf x -> enc x <> []) -> told_apart (Forall wf) (fun l => concat (map enc l)) (map norm).
Proof. intros A wf enc norm. apply lists. Qed.
Print Assumptions C105_lists.

(** ** Cases *)
Definition a_bucket (w : N) : Bucket := MkBucket w 7 4294967295 [AOutput 1 65535].
Lemma a_bucket_wf w : fits 2 w -> wf_Bucket (a_bucket w).
Proof. intro F. repeat split; try assumption; try reflexivity. repeat constructor. Qed.

(** Three group modifications that differ in their buckets only: different bytes,
    although all are read back alike. *)
Example C105_lost_lists_ex :
  let l := [MkGroupMod 0 1 7 [a_bucket 1; a_bucket 2]; MkGroupMod 0 1 7 [a_bucket 2; a_bucket 1]; MkGroupMod 0 1 7 [a_bucket 1]] in
  Forall wf_GroupMod l /\ NoDup (map enc_GroupMod l)
  /\ map (fun m => val (dec_GroupMod zero_GroupMod (enc_GroupMod m))) l = repeat (MkGroupMod 0 1 7 []) 3.
Proof.
  split; [|split].
  - repeat apply Forall_cons; try apply Forall_nil;
      (split; [reflexivity|]; split; [reflexivity|]; split; [reflexivity|]; repeat apply Forall_cons; try apply Forall_nil; apply a_bucket_wf; reflexivity).
  - vm_compute. repeat constructor; cbn [In]; intros H; repeat (destruct H as [H|H]; [discriminate H|]); exact H.
  - vm_compute. reflexivity.
Qed.

Example C105_frames_ex : exists e, is_frame e 4 14 9 [x01; x02] /\ msg_ok (4, 14, 9, [x01; x02])%N /\ length e = 10.
Proof.
  exists (enc_Header (MkHeader 4 14 10 9) ++ [x01; x02]). split; [apply frame_eq; reflexivity|].
  split; [|reflexivity]. split; [repeat split; reflexivity|vm_compute; discriminate].
Qed.

(** C105: two different hello messages with the same bytes. *)
Theorem C105_hello_refuted : exists x y, wf_Hello x /\ wf_Hello y /\ x <> y /\ enc_Hello x = enc_Hello y.
Proof.
  exists (MkHello [MkHelloElem [18; 1]]%N), (MkHello [MkHelloElem [18; 1; 0]]%N).
  split; [repeat constructor|]. split; [repeat constructor|]. split; [discriminate|reflexivity].
Qed.
Print Assumptions C105_hello_refuted.

(** C105: without a mask of the size of the value, two different match fields with
    the same bytes: the limits of the members do not suffice. *)
Theorem C105_mask_refuted : exists x y, x <> y /\ enc_XM x = enc_XM y
  /\ XM_Mask x <> [] /\ XM_Mask y <> [] /\ XM_Class x = XM_Class y /\ XM_Type x = XM_Type y.
Proof.
  exists (MkXM 32768 11 [x0a; x00; x00] [xff]), (MkXM 32768 11 [x0a; x00] [x00; xff]).
  repeat split; try discriminate.
Qed.
Print Assumptions C105_mask_refuted.

(** C105: flow modifications, packet-ins and packet-outs must not stand one behind
    another: followed by other bytes they are not told apart. *)
Theorem C105_not_delimited_refuted :
  ~ self_delimiting wf_PacketOut enc_PacketOut (fun m => m) /\ ~ self_delimiting wf_FlowMod enc_FlowMod (fun m => m)
  /\ ~ self_delimiting wf_PacketIn enc_PacketIn (fun m => m).
Proof.
  split; [|split].
  - intro H. specialize (H (MkPacketOut 0 1 [] []) (MkPacketOut 0 1 [] [x07]) [x07] []).
    destruct H as [H _]; [| |reflexivity|discriminate H];
      (split; [reflexivity|]; split; [reflexivity|]; split; [constructor|reflexivity]).
  - intro H.
    set (m := fun l => MkFlowMod 0 0 0 0 0 0 0 0 0 0 0 (MkMatch 1 []) l).
    assert (W : forall l, Forall wf_Instruction l -> wf_FlowMod (m l)).
    { intros l W. unfold wf_FlowMod, m. cbn. repeat (split; [reflexivity|]). split; [|exact W].
      split; [reflexivity|]. split; [constructor|reflexivity]. }
    specialize (H (m []) (m [IGotoTable 1]) (enc_Instructions [IGotoTable 1]) []).
    destruct H as [H _]; [apply W; constructor|apply W; constructor; [reflexivity|constructor]|vm_compute; reflexivity|discriminate H].
  - intro H. set (m := fun d => MkPacketIn 0 0 0 0 0 (MkMatch 1 []) d).
    assert (W : forall d, wf_PacketIn (m d)).
    { intro d. unfold wf_PacketIn, m. cbn. repeat (split; [reflexivity|]). split; [constructor|reflexivity]. }
    specialize (H (m []) (m [x07]) [x07] []).
    destruct H as [H _]; [apply W|apply W|vm_compute; reflexivity|discriminate H].
Qed.
Print Assumptions C105_not_delimited_refuted.

(** Two action lists with the same actions in another order; two port lists cut
    differently; two errors. *)
Example C105_varying_ex :
  vwf VActions [ADecNetworkTTL; AOutput 7 0] /\ venc VActions [ADecNetworkTTL; AOutput 7 0] <> venc VActions [AOutput 7 0; ADecNetworkTTL].
Proof. split; [repeat constructor|vm_compute; discriminate]. Qed.

Example C105_fixed_ex :
  wf KRoleRequest (MkRoleRequest 2 5) /\ enc KRoleRequest (MkRoleRequest 2 5) <> enc KRoleRequest (MkRoleRequest 2 6).
Proof. split; [repeat split; reflexivity|vm_compute; discriminate]. Qed.

Example C105_entries_ex :
  let x := PropQueueExperimenter 1 [x00; x01] in let y := PropQueueExperimenter 1 [x00] in
  wf_QueueProp x /\ wf_QueueProp y /\ enc_QueueProp x <> enc_QueueProp y ++ [x01].
Proof. repeat split; vm_compute; discriminate. Qed.

Example C105_data_ex :
  let x := MkError 1 6 [x04] in let y := MkError 1 6 [x04; x0e] in wf_Error x /\ wf_Error y /\ enc_Error x <> enc_Error y.
Proof. repeat split; vm_compute; discriminate. Qed.
