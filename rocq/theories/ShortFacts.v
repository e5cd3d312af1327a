(** What the decoders of group, meter, queue and hello messages report for the
    beginnings of encodings. *)
From Verif Require Export ListFacts ShortSpec TruncFacts.
Ltac Zify.zify_post_hook ::= Z.div_mod_to_equations.

Lemma snaps_readslice {A S} (zero : A) (rd : step A) (enc : A -> bytes) (v : A -> nat -> finding) l :
  rd zero [] = Res zero 0 (Some EOF) [] ->
  (forall a, In a l -> 1 <= length (enc a)
     /\ (forall tl, fail (rd zero (enc a ++ tl)) = None /\ rest (rd zero (enc a ++ tl)) = tl)
     /\ forall n, n <= length (enc a) -> fail (rd zero (firstn n (enc a))) = told (v a n)
          /\ (v a n <> Broken -> rest (rd zero (firstn n (enc a))) = [])) ->
  snaps (S := S) (readslice zero rd) (concat (map enc l)) (until_end (map (fun a => (length (enc a), v a)) l)).
Proof.
  intros Z H s n Hn. unfold readslice, readfunc.
  assert (Len : length (firstn n (concat (map enc l))) = n) by (rewrite firstn_length; lia). rewrite Len.
  assert (G : forall fuel n, n <= length (concat (map enc l)) -> n < fuel ->
    fail (readfunc_loop fuel zero rd (fun _ s => s) s (firstn n (concat (map enc l))))
    = told (until_end (map (fun a => (length (enc a), v a)) l) n)
    /\ (until_end (map (fun a => (length (enc a), v a)) l) n = Fine ->
        rest (readfunc_loop fuel zero rd (fun _ s => s) s (firstn n (concat (map enc l)))) = [])).
  { clear n Hn Len. induction l as [|a l IH]; intros [|fuel] n Hn Hf; try lia.
    - cbn [map concat]. rewrite firstn_nil. cbn [readfunc_loop]. rewrite Z. cbn. auto.
    - cbn [map concat until_end] in *. rewrite app_length in Hn. destruct (H a (or_introl eq_refl)) as (L & P & V).
      set (bs := concat (map enc l)) in *. cbn [readfunc_loop].
      destruct (Nat.leb_spec (length (enc a)) n) as [G|G].
      + rewrite firstn_behind by exact G. specialize (P (firstn (n - length (enc a)) bs)).
        destruct (rd zero (enc a ++ firstn (n - length (enc a)) bs)) as [w k e r]. cbn [fail rest] in P.
        destruct P as [-> ->]. cbn [fail rest val cnt]. apply IH; [|lia|lia]. intros b Hb. apply H. right. exact Hb.
      + rewrite firstn_before by exact G. specialize (V n (Nat.lt_le_incl _ _ G)).
        destruct (rd zero (firstn n (enc a))) as [w k e r] eqn:X. cbn [fail rest] in V. destruct V as [V R].
        destruct (v a n) eqn:VV; cbn [told] in V; subst e; cbn [fail rest val cnt skip_eof told];
          [|split; [reflexivity|intros _; apply R; discriminate]|split; [reflexivity|discriminate]].
        rewrite R by discriminate.
        destruct fuel as [|fuel]; [|cbn [readfunc_loop]; rewrite Z; cbn; auto].
        destruct n; [|lia]. cbn [firstn] in X. rewrite Z in X. discriminate. }
  destruct (G (Datatypes.S n) n Hn) as [E R]; [lia|]. auto.
Qed.

Lemma snaps_lost {S} (f : step S) bs v : snaps f bs v -> snaps (lost f) bs v.
Proof. intros H s n Hn. apply (H s n Hn). Qed.

(** A read that does not report a broken message leaves nothing. *)
Definition clears {S} (f : step S) (bs : bytes) (v : nat -> finding) : Prop :=
  forall s n, n <= length bs -> v n <> Broken -> rest (f s (firstn n bs)) = [].

Lemma clears_plain {S} ws (f : step S) bs : plain ws f -> length bs = list_sum ws -> clears f bs (fields ws).
Proof.
  intros P L s n Hn _. destruct (P s (firstn n bs)) as [A B]. rewrite firstn_length in A, B.
  destruct (Nat.lt_ge_cases n (list_sum ws)) as [K|K].
  - destruct A as [_ ->]; [lia|reflexivity].
  - destruct B as [_ ->]; [lia|]. apply skipn_all2. rewrite firstn_length. lia.
Qed.

Lemma clears_andthen {S} (a : step S) b g bs1 bs2 ws v2 :
  rt a bs1 g -> plain ws a -> length bs1 = list_sum ws -> (forall s, snaps (b (length bs1) (g s)) bs2 v2) ->
  (forall n, v2 n <> Ended) -> clears (andthen a b) (bs1 ++ bs2) (followed (length bs1) (fields ws) v2).
Proof.
  intros Ha P L S2 E s n Hn B. unfold followed in B. rewrite app_length in Hn.
  destruct (Nat.ltb_spec n (length bs1)) as [K|K].
  - rewrite firstn_before by exact K. destruct (P s (firstn n bs1)) as [PS _].
    destruct PS as [F R]; [rewrite firstn_length; lia|].
    destruct (a s (firstn n bs1)) as [v k e r] eqn:X. cbn [fail rest] in F, R. subst r.
    rewrite firstn_length in F. replace (min n (length bs1)) with n in F by lia.
    pose proof (fields_short ws n ltac:(lia)) as FS. destruct (fields ws n); [congruence| |congruence].
    cbn in F. subst e. rewrite (andthen_err _ _ _ _ _ _ _ _ X). reflexivity.
  - rewrite firstn_behind by exact K. rewrite (andthen_ok _ _ _ _ _ _ _ (Ha s _)). cbn [rest].
    destruct (S2 s (g s) (n - length bs1)) as [_ R]; [lia|]. apply R.
    specialize (E (n - length bs1)). destruct (v2 (n - length bs1)); congruence.
Qed.
Lemma clears_local {L S} (l : L) (f : step (L * S)) bs v : clears f bs v -> clears (with_local l f) bs v.
Proof. intros H s n Hn. apply (H (l, s) n Hn). Qed.

Lemma elements_not_ended l : forall n, elements l n <> Ended.
Proof.
  induction l as [|[k v] l IH]; intros n; cbn [elements]; [discriminate|].
  destruct (k <=? n); [apply IH|]. destruct (n <? 2); [discriminate|]. destruct (v n); discriminate.
Qed.
Lemma until_end_not_ended l : forall n, until_end l n <> Ended.
Proof.
  induction l as [|[k v] l IH]; intros n; cbn [until_end]; [discriminate|].
  destruct (k <=? n); [apply IH|]. destruct (v n); discriminate.
Qed.

Lemma ignoring_snaps {S} (a : step S) b g bs1 bs2 v2 ws :
  rt a bs1 g -> plain ws a -> list_sum ws = length bs1 -> (forall s, snaps (b (length bs1) (g s)) bs2 v2) ->
  (forall n h s, fail (b n h s []) = None /\ rest (b n h s []) = []) -> v2 0 = Fine ->
  snaps (andthen_ignoring a b) (bs1 ++ bs2) (followed (length bs1) (fun _ => Fine) v2).
Proof.
  intros Ha P L S2 C V0 s n Hn. unfold followed. rewrite app_length in Hn. unfold andthen_ignoring.
  destruct (Nat.ltb_spec n (length bs1)) as [K|K].
  - rewrite firstn_before by exact K. destruct (P s (firstn n bs1)) as [PS _].
    destruct PS as [E R]; [rewrite firstn_length; lia|]. cbn [fail rest]. rewrite R, V0.
    destruct (C (cnt (a s (firstn n bs1))) (val (a s (firstn n bs1))) (val (a s (firstn n bs1)))) as [-> ->]. auto.
  - rewrite firstn_behind by exact K. rewrite !Ha. cbn [fail rest val cnt]. apply S2. lia.
Qed.

Ltac front_length :=
  match goal with |- snaps _ (?x ++ _) (followed ?n _ _) => rewrite (followed_eq n (length x)); [|reflexivity] end.
Ltac front_rt := repeat first
  [ apply rt_concat_nil
  | eapply rt_concat_cons; [first [apply rt_fu, uwrap_fits | apply rt_sub, rt_fu; assumption | apply rt_fu; assumption | apply rt_zeros]|] ].

(** ** Buckets and counters *)
Lemma bucket_cut_eq m : cut_finding VBucket m = bucket_cut m. Proof. reflexivity. Qed.

Lemma clears_Bucket m : wf_Bucket m -> clears dec_Bucket (enc_Bucket m) (bucket_cut m).
Proof.
  unfold enc_Bucket, dec_Bucket. cbv zeta. intros (W1 & W2 & W3 & WA & WS).
  rewrite actions_length by exact WA. split_last 5. apply clears_local. unfold bucket_cut.
  match goal with |- clears _ (?x ++ _) (followed ?n _ _) => rewrite (followed_eq n (length x)); [|reflexivity] end.
  eapply clears_andthen.
  - eapply rt_concat_cons; [apply rt_fu, uwrap_fits|]. flow_rt.
  - plainly.
  - reflexivity.
  - intros s. apply snaps_limited.
    + cbn [fst snd]. rewrite actions_length by exact WA. apply limit_le, (sub16_limit _ 16), WS.
    + apply snaps_pre, snaps_sub, snaps_sub, snaps_Actions, WA.
  - intro n. apply elements_not_ended.
Qed.

Lemma snaps_buckets {S} l : Forall wf_Bucket l ->
  snaps (S := S) (readslice zero_Bucket dec_Bucket) (concat (map enc_Bucket l)) (buckets_cut l).
Proof.
  intro W. unfold buckets_cut. rewrite Forall_forall in W.
  replace (map (fun b => (bucket_size b, bucket_cut b)) l) with (map (fun b => (length (enc_Bucket b), bucket_cut b)) l).
  2: { apply map_ext_in. intros a H. rewrite bucket_length by auto. reflexivity. }
  apply snaps_readslice; [vm_compute; reflexivity|]. intros a Ha. specialize (W a Ha).
  rewrite bucket_length by exact W. split; [unfold bucket_size; lia|]. split.
  - intros tl. rewrite (rt_Bucket a W). auto.
  - intros n Hn. rewrite <- bucket_length in Hn by exact W. split.
    + apply (snaps_Bucket a W zero_Bucket n Hn).
    + apply (clears_Bucket a W zero_Bucket n Hn).
Qed.

Lemma snaps_counters {S} l : Forall wf_BucketCounter l ->
  snaps (S := S) (readslice zero_BucketCounter dec_BucketCounter) (concat (map enc_BucketCounter l)) (counters_cut l).
Proof.
  intro W. unfold counters_cut. rewrite Forall_forall in W.
  change (map (fun _ : BucketCounter => (16, fields [8; 8])) l)
    with (map (fun a : BucketCounter => (length (enc_BucketCounter a), fields [8; 8])) l).
  apply (snaps_readslice _ _ _ (fun _ => fields [8; 8])); [vm_compute; reflexivity|]. intros a Ha. specialize (W a Ha).
  assert (P : plain [8; 8] dec_BucketCounter) by (unfold dec_BucketCounter; plainly).
  split; [unfold enc_BucketCounter, u64; cbn [concat]; rewrite !app_length, !be_enc_length; lia|]. split.
  - intros tl. pose proof (rt_all KBucketCounter a W zero_BucketCounter tl) as R. cbn [dec enc] in R. rewrite R. auto.
  - intros n Hn. split.
    + apply (plain_snaps _ _ (enc_BucketCounter a) P eq_refl zero_BucketCounter n Hn).
    + apply (clears_plain _ _ (enc_BucketCounter a) P eq_refl zero_BucketCounter n Hn).
Qed.

Lemma snaps_band_stats {S} l : Forall wf_MeterBandStats l ->
  snaps (S := S) (readslice zero_MeterBandStats dec_MeterBandStats) (concat (map enc_MeterBandStats l)) (counters_cut l).
Proof.
  intro W. unfold counters_cut. rewrite Forall_forall in W.
  change (map (fun _ : MeterBandStats => (16, fields [8; 8])) l)
    with (map (fun a : MeterBandStats => (length (enc_MeterBandStats a), fields [8; 8])) l).
  apply (snaps_readslice _ _ _ (fun _ => fields [8; 8])); [vm_compute; reflexivity|]. intros a Ha. specialize (W a Ha).
  assert (P : plain [8; 8] dec_MeterBandStats) by (unfold dec_MeterBandStats; plainly).
  split; [unfold enc_MeterBandStats, u64; cbn [concat]; rewrite !app_length, !be_enc_length; lia|]. split.
  - intros tl. pose proof (rt_all KMeterBandStats a W zero_MeterBandStats tl) as R. cbn [dec enc] in R. rewrite R. auto.
  - intros n Hn. split.
    + apply (plain_snaps _ _ (enc_MeterBandStats a) P eq_refl zero_MeterBandStats n Hn).
    + apply (clears_plain _ _ (enc_MeterBandStats a) P eq_refl zero_MeterBandStats n Hn).
Qed.

(** ** Bands *)
Lemma snaps_bands l : Forall wf_MeterBand l -> snaps dec_MeterBands (enc_MeterBands l) (bands_cut l).
Proof.
  intro W. unfold dec_MeterBands, enc_MeterBands, bands_cut. apply snaps_lost.
  replace (map (fun x => (16, band_cut x)) l) with (map (fun a => (length (enc_MeterBand a), band_cut a)) l).
  2: { apply map_ext. intros a. rewrite band_length. reflexivity. }
  apply snaps_scan. rewrite Forall_forall in W. intros a Ha. specialize (W a Ha).
  destruct (make_band_tag a) as (z & M & K). exists z. split; [exact M|]. rewrite band_length. split; [lia|]. split.
  - intro tl. rewrite band_rt by assumption. auto.
  - intros n Hn. rewrite <- (band_length a) in Hn. pose proof (band_length a) as L.
    destruct a, z; try discriminate K; cbn [dec_MeterBand band_cut] in *;
      eapply (plain_snaps _ _ (enc_MeterBand _)); [plainly|exact L|exact Hn|plainly|exact L|exact Hn|plainly|exact L|exact Hn].
Qed.

(** ** Queues *)
Lemma snaps_experimenter e d z : wf_QueueProp (PropQueueExperimenter e d) -> same_prop (PropQueueExperimenter e d) z ->
  forall n, n <= length (enc_QueueProp (PropQueueExperimenter e d)) ->
  fail (dec_QueueProp z (firstn n (enc_QueueProp (PropQueueExperimenter e d)))) = told (queue_prop_cut (PropQueueExperimenter e d) n)
  /\ (queue_prop_cut (PropQueueExperimenter e d) n = Fine ->
      rest (dec_QueueProp z (firstn n (enc_QueueProp (PropQueueExperimenter e d)))) = []).
Proof.
  intros [W1 W2] K. apply fits4_intro in W1. destruct z as [r0|r0|e0 d0]; try discriminate K.
  rewrite (queue_prop_joined (PropQueueExperimenter e d)). cbn [dec_QueueProp queue_prop_cut].
  match goal with |- forall n, n <= length ?bs -> fail (?f _ _) = told (?v n) /\ _ => enough (X : snaps f bs v) by exact (X (PropQueueExperimenter e0 d0)) end.
  apply snaps_local. front_length. eapply snaps_andthen.
  - eapply rt_concat_cons; [apply rt_take; reflexivity|].
    eapply rt_concat_cons; [apply rt_zeros|].
    eapply rt_concat_cons; [apply rt_sub, rt_fu, W1|].
    eapply rt_concat_cons; [apply rt_zeros|]. apply rt_concat_nil.
  - apply plain_snaps; [plainly|reflexivity].
  - intros s. apply snaps_limited; [|apply snaps_sub, snaps_readall].
    cbn [fst snd]. rewrite skip_u16.
    rewrite (uwrap_small 2 (N.of_nat (length d))) by (unfold fits; change (256 ^ N.of_nat 2)%N with 65536%N; lia).
    replace (16 + N.of_nat (length d))%N with (N.of_nat (16 + length d)) by lia.
    rewrite (uwrap_small 2 (uwrap 2 _)) by apply uwrap_fits. apply limit_le, (sub16_limit _ 16), W2.
  - left. intros n G. apply fields_short. exact G.
Qed.

Lemma snaps_queue_props l : Forall wf_QueueProp l ->
  snaps dec_QueueProps (enc_QueueProps l) (elements (map (fun x => (queue_prop_size x, queue_prop_cut x)) l)).
Proof.
  intro W. unfold dec_QueueProps, enc_QueueProps. apply snaps_lost.
  replace (map (fun x => (queue_prop_size x, queue_prop_cut x)) l) with (map (fun a => (length (enc_QueueProp a), queue_prop_cut a)) l).
  2: { apply map_ext. intros a. rewrite queue_prop_length. reflexivity. }
  apply snaps_scan. rewrite Forall_forall in W. intros a Ha. specialize (W a Ha).
  destruct (make_queue_prop_tag a) as (z & M & K). exists z. split; [exact M|]. rewrite queue_prop_length.
  split; [destruct a; cbn; lia|]. split.
  - intro tl. rewrite queue_prop_rt by assumption. auto.
  - intros n Hn. rewrite <- (queue_prop_length a) in Hn. pose proof (queue_prop_length a) as L.
    destruct a as [r|r|e d]; [| |apply snaps_experimenter; assumption];
      destruct z; try discriminate K; cbn [dec_QueueProp queue_prop_cut queue_prop_size] in *;
      eapply (plain_snaps _ _ (enc_QueueProp _)); [plainly|exact L|exact Hn|plainly|exact L|exact Hn].
Qed.

Lemma packetqueue_length m : length (enc_PacketQueue m) = packetqueue_size m.
Proof. apply (lays_length _ _ _ (packetqueue_lays m)). Qed.

Lemma PacketQueue_both m : wf_PacketQueue m ->
  snaps dec_PacketQueue (enc_PacketQueue m) (queue_cut m) /\ clears dec_PacketQueue (enc_PacketQueue m) (queue_cut m).
Proof.
  unfold enc_PacketQueue, dec_PacketQueue. cbv zeta. intros (W1 & W2 & W & WS).
  rewrite (lays_length _ _ _ (queue_props_lays _)), (Nat.add_comm _ 16). unfold queue_cut.
  assert (LE : (Z.of_nat (length (enc_QueueProps (PacketQueue_Properties m)))
     <= Z.of_N (sub16 (uwrap 2 (N.of_nat (16 + queue_props_size (PacketQueue_Properties m)))) 16))%Z).
  { rewrite (lays_length _ _ _ (queue_props_lays _)). apply limit_le, (sub16_limit _ 16), WS. }
  split.
  - split_last 4. apply snaps_local. front_length. eapply snaps_andthen.
    + front_rt.
    + apply plain_snaps; [plainly|reflexivity].
    + intros s. cbn [fst snd]. apply snaps_limited; [exact LE|]. apply snaps_sub, snaps_sub, snaps_queue_props, W.
    + left. intros n G. apply fields_short. exact G.
  - split_last 4. apply clears_local.
    match goal with |- clears _ (?x ++ _) (followed ?n _ _) => rewrite (followed_eq n (length x)); [|reflexivity] end.
    eapply clears_andthen.
    + front_rt.
    + plainly.
    + reflexivity.
    + intros s. cbn [fst snd]. apply snaps_limited; [exact LE|]. apply snaps_sub, snaps_sub, snaps_queue_props, W.
    + intro n. apply elements_not_ended.
Qed.

Lemma snaps_queues {S} l : Forall wf_PacketQueue l ->
  snaps (S := S) (readslice zero_PacketQueue dec_PacketQueue) (concat (map enc_PacketQueue l))
    (until_end (map (fun q => (packetqueue_size q, queue_cut q)) l)).
Proof.
  intro W. rewrite Forall_forall in W.
  replace (map (fun q => (packetqueue_size q, queue_cut q)) l) with (map (fun b => (length (enc_PacketQueue b), queue_cut b)) l).
  2: { apply map_ext_in. intros a H. rewrite packetqueue_length. reflexivity. }
  apply snaps_readslice; [vm_compute; reflexivity|]. intros a Ha. specialize (W a Ha).
  rewrite packetqueue_length. split; [unfold packetqueue_size; lia|]. split.
  - intros tl. rewrite (rt_PacketQueue a W). auto.
  - intros n Hn. rewrite <- packetqueue_length in Hn. destruct (PacketQueue_both a W) as [A B]. split.
    + apply (A zero_PacketQueue n Hn).
    + apply (B zero_PacketQueue n Hn).
Qed.

(** ** Hello *)
Lemma snaps_HelloElem m : wf_HelloElem m -> snaps dec_HelloElem (enc_HelloElem m) (hello_elem_cut m).
Proof.
  intros [W WS]. unfold hello_elem_cut.
  apply (snaps_ext _ _ (followed 4 (fields [4]) (fields [hello_elem_size m - 4]))).
  { intros n _. unfold followed. cbn [fields]. destruct (Nat.ltb_spec n 4), (Nat.leb_spec 4 n); try lia; [|reflexivity].
    destruct (n =? 0); reflexivity. }
  rewrite enc_padded. unfold dec_HelloElem.
  assert (U : uwrap 2 (N.of_nat (hello_elem_size m)) = N.of_nat (hello_elem_size m)) by (apply uwrap_small; exact WS).
  assert (K : sub16 (N.of_nat (hello_elem_size m)) 4 = N.of_nat (4 * length (HelloElem_Bitmaps (padded m)))).
  { rewrite sub16_small by (rewrite padded_size in *; lia). rewrite padded_size. lia. }
  apply snaps_local. front_length. eapply snaps_andthen.
  - rewrite <- (concat_one (u16 1 ++ _)). eapply rt_concat_cons; [apply rt_take; reflexivity|apply rt_concat_nil].
  - apply plain_snaps; [plainly|reflexivity].
  - intros s. cbn [fst snd]. rewrite skip_u16, U, K.
    replace (N.to_nat (N.of_nat (4 * length (HelloElem_Bitmaps (padded m))) / 4))
      with (length (HelloElem_Bitmaps (padded m))) by lia.
    replace (hello_elem_size m - 4) with (4 * length (HelloElem_Bitmaps (padded m))) by (rewrite padded_size; lia).
    apply snaps_limited; [rewrite uarr_length; lia|]. apply snaps_pre, plain_snaps; [apply plain_take|].
    rewrite uarr_length. unfold list_sum. cbn [fold_right]. lia.
  - left. intros n G. apply fields_short. exact G.
Qed.

Lemma snaps_HelloElems l : Forall wf_HelloElem l ->
  snaps dec_HelloElems (enc_HelloElems l) (elements (map (fun e => (hello_elem_size e, hello_elem_cut e)) l)).
Proof.
  intro W. unfold dec_HelloElems, enc_HelloElems. apply snaps_lost.
  replace (map (fun e => (hello_elem_size e, hello_elem_cut e)) l) with (map (fun a => (length (enc_HelloElem a), hello_elem_cut a)) l).
  2: { apply map_ext. intros a. rewrite hello_elem_length. reflexivity. }
  apply snaps_scan. rewrite Forall_forall in W. intros a Ha. specialize (W a Ha).
  exists zero_HelloElem. split; [reflexivity|]. rewrite hello_elem_length. split; [rewrite padded_size; lia|]. split.
  - intro tl. rewrite (rt_HelloElem a W). auto.
  - intros n Hn. rewrite <- hello_elem_length in Hn. apply (snaps_HelloElem a W zero_HelloElem n Hn).
Qed.

(** ** Messages *)
Lemma slice_nothing {A S} (zero : A) rd z (s : S) : rd zero [] = Res zero 0 (Some EOF) [] ->
  fail (limited z (readslice zero rd) s []) = None /\ rest (limited z (readslice zero rd) s []) = [].
Proof.
  intros H. unfold limited. rewrite firstn_nil, skipn_nil. unfold readslice, readfunc. cbn [length readfunc_loop].
  rewrite H. split; reflexivity.
Qed.
Lemma until_end_0 l : Forall (fun x : nat * (nat -> finding) => 0 < fst x /\ snd x 0 = Ended) l -> until_end l 0 = Fine.
Proof.
  intros [|[k v] l' [K V] _]; [reflexivity|]. cbn [until_end fst snd] in *.
  destruct (Nat.leb_spec k 0); [lia|]. rewrite V. reflexivity.
Qed.

Lemma short_snaps k m : lwf k m -> snaps (ldec k) (lenc k m) (short_finding k m).
Proof.
  destruct k; cbn [lwf lenc ldec lmsg] in *; unfold short_finding; cbn [blind lfront list_cut]; intro W.
  - unfold wf_GroupMod in W. split_wf W. unfold enc_GroupMod, dec_GroupMod. split_last 4. front_length.
    eapply snaps_andthen.
    + flow_rt.
    + apply plain_snaps; [plainly|reflexivity].
    + intros s. apply snaps_buckets. assumption.
    + left. intros n G. apply fields_short. exact G.
  - destruct W as (W1 & W2 & W & WS). unfold enc_GroupDescStats, dec_GroupDescStats. cbv zeta.
    rewrite buckets_length by exact W. split_last 4. apply snaps_local. front_length.
    eapply (ignoring_snaps _ _ _ _ _ _ [2; 1; 1; 4]).
    + eapply rt_concat_cons; [apply rt_fu, uwrap_fits|]. flow_rt.
    + plainly.
    + reflexivity.
    + intros s. cbn [fst snd]. apply snaps_limited; [|apply snaps_buckets, W].
      rewrite buckets_length by exact W. apply limit_le, (sub16_limit _ 8), WS.
    + intros. apply slice_nothing. vm_compute. reflexivity.
    + unfold buckets_cut. apply until_end_0, Forall_map, Forall_forall. intros b _. cbn. split; [unfold bucket_size; lia|reflexivity].
  - destruct W as (W1 & W2 & W3 & W4 & W5 & W6 & W & WS). unfold enc_GroupStats, dec_GroupStats. cbv zeta.
    rewrite (lays_length _ _ _ (counters_lays _)). split_last 9. apply snaps_local. front_length.
    eapply snaps_andthen.
    + eapply rt_concat_cons; [apply rt_fu, uwrap_fits|]. flow_rt.
    + apply plain_snaps; [plainly|reflexivity].
    + intros s. cbn [fst snd]. apply snaps_limited; [|apply snaps_counters, W].
      rewrite (lays_length _ _ _ (counters_lays _)). apply limit_le, (sub16_limit _ 40), WS.
    + left. intros n G. apply fields_short. exact G.
  - unfold wf_MeterMod in W. split_wf W. unfold enc_MeterMod, dec_MeterMod.
    match goal with |- snaps (seqr [?a; ?b; ?c; ?d]) (concat [?x; ?y; ?z; ?w]) _ =>
      change (seqr [a; b; c; d]) with (seqr ([a; b; c] ++ [d]));
      change (concat [x; y; z; w]) with (concat ([x; y; z] ++ [w])); rewrite concat_app, (concat_one w) end.
    front_length. apply snaps_seqr.
    + eapply plain_passes; [plainly|reflexivity].
    + apply plain_snaps; [plainly|reflexivity].
    + apply snaps_one, snaps_sub, snaps_bands. assumption.
  - destruct W as (W1 & W2 & W & WS). unfold enc_MeterConfig, dec_MeterConfig. cbv zeta.
    rewrite (lays_length _ _ _ (bands_lays _)). split_last 3. apply snaps_local. front_length.
    eapply snaps_andthen.
    + eapply rt_concat_cons; [apply rt_fu, uwrap_fits|]. flow_rt.
    + apply plain_snaps; [plainly|reflexivity].
    + intros s. cbn [fst snd]. apply snaps_limited; [|apply snaps_sub, snaps_sub, snaps_bands, W].
      rewrite (lays_length _ _ _ (bands_lays _)). apply limit_le, (sub16_limit _ 8), WS.
    + left. intros n G. apply fields_short. exact G.
  - destruct W as (W1 & W2 & W3 & W4 & W5 & W6 & W & WS). unfold enc_MeterStats, dec_MeterStats. cbv zeta.
    rewrite (lays_length _ _ _ (band_stats_lays _)). split_last 8. apply snaps_local. front_length.
    eapply (ignoring_snaps _ _ _ _ _ _ [4; 2; 6; 4; 8; 8; 4; 4]).
    + eapply rt_concat_cons; [apply rt_sub, rt_fu, W1|]. eapply rt_concat_cons; [apply rt_fu, uwrap_fits|]. flow_rt.
    + plainly.
    + reflexivity.
    + intros s. cbn [fst snd]. apply snaps_limited; [|apply snaps_band_stats, W].
      rewrite (lays_length _ _ _ (band_stats_lays _)). apply limit_le, (sub16_limit _ 40), WS.
    + intros. apply slice_nothing. vm_compute. reflexivity.
    + unfold counters_cut. apply until_end_0, Forall_map, Forall_forall. intros b _. cbn. split; [lia|reflexivity].
  - apply (PacketQueue_both m W).
  - destruct W as [W1 W]. unfold enc_QueueGetConfigReply, dec_QueueGetConfigReply. split_last 2. front_length.
    eapply snaps_andthen.
    + flow_rt.
    + apply plain_snaps; [plainly|reflexivity].
    + intros s. apply snaps_queues, W.
    + left. intros n G. apply fields_short. exact G.
  - unfold enc_Hello, dec_Hello.
    apply (snaps_ext _ _ (elements (map (fun e => (hello_elem_size e, hello_elem_cut e)) (Hello_Elements m)))).
    { intros n _. unfold followed. cbn [list_sum fold_right]. cbn. rewrite Nat.sub_0_r. reflexivity. }
    apply snaps_one, snaps_sub, snaps_HelloElems, W.
Qed.
