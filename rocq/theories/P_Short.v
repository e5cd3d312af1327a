(** C111: which truncations of group, meter, queue and hello messages are reported. *)
From Verif Require Import ShortFacts.

(** Wherever a well-formed message is cut, into whatever value its beginning is
    read: the layout alone says what is reported. *)
Theorem C111_reported : forall k (m old : lmsg k) n, lwf k m -> n <= length (lenc k m) ->
  fail (ldec k old (firstn n (lenc k m))) = told (short_finding k m n).
Proof. intros k m old n W Hn. apply (short_snaps k m W old n Hn). Qed.
Print Assumptions C111_reported.

Lemma list_cut_0 k m : blind k = true -> list_cut k m 0 = Fine.
Proof.
  destruct k; try discriminate; intros _; cbn [list_cut]; unfold buckets_cut, counters_cut;
    apply until_end_0, Forall_map, Forall_forall; intros b _; cbn; (split; [unfold bucket_size; lia|reflexivity]).
Qed.

Lemma lenc_front k m : lwf k m -> list_sum (lfront k) <= length (lenc k m).
Proof.
  destruct k; cbn [lwf lenc lfront lmsg] in *; intro W;
    unfold enc_GroupMod, enc_GroupDescStats, enc_GroupStats, enc_MeterMod, enc_MeterConfig, enc_MeterStats,
      enc_PacketQueue, enc_QueueGetConfigReply; cbv zeta; cbn [concat]; try (cbn; lia);
    rewrite ?app_length; unfold u8, u16, u32, u64, pad; rewrite ?be_enc_length, ?zeros_length; cbn [list_sum fold_right]; cbn; lia.
Qed.

(** In front of the list a cut is reported, except in group descriptions and
    meter statistics, where no cut is. *)
Theorem C111_front : forall k (m old : lmsg k) n, lwf k m -> n < list_sum (lfront k) ->
  let e := fail (ldec k old (firstn n (lenc k m))) in
  if blind k then e = None else e = Some EOF \/ e = Some UnexpectedEOF.
Proof.
  intros k m old n W Hn e. pose proof (lenc_front k m W). unfold e. rewrite C111_reported by (assumption || lia).
  unfold short_finding, followed. destruct (Nat.ltb_spec n (list_sum (lfront k))); [|lia].
  destruct (blind k) eqn:B.
  - rewrite list_cut_0 by exact B. reflexivity.
  - pose proof (fields_short (lfront k) n Hn). destruct (fields (lfront k) n); [contradiction|cbn; auto..].
Qed.
Print Assumptions C111_front.

Lemma elements_at {A} (sz : A -> nat) (v : A -> nat -> finding) l : (forall a, In a l -> 0 < sz a) -> forall j,
  elements (map (fun a => (sz a, v a)) l) (list_sum (firstn j (map sz l))) = Fine.
Proof.
  induction l as [|a l IH]; intros H j; [reflexivity|]. destruct j as [|j].
  - cbn [map elements firstn]. change (list_sum []) with 0. specialize (H a (or_introl eq_refl)).
    destruct (Nat.leb_spec (sz a) 0); [lia|reflexivity].
  - cbn [map elements firstn]. change (list_sum (sz a :: firstn j (map sz l))) with (sz a + list_sum (firstn j (map sz l))).
    destruct (Nat.leb_spec (sz a) (sz a + list_sum (firstn j (map sz l)))); [|lia].
    rewrite Nat.add_comm, Nat.add_sub. apply IH. intros b Hb. apply H. right. exact Hb.
Qed.
Lemma until_end_at {A} (sz : A -> nat) (v : A -> nat -> finding) l : (forall a, In a l -> 0 < sz a /\ v a 0 = Ended) -> forall j,
  until_end (map (fun a => (sz a, v a)) l) (list_sum (firstn j (map sz l))) = Fine.
Proof.
  induction l as [|a l IH]; intros H j; [reflexivity|]. destruct j as [|j].
  - cbn [map until_end firstn]. change (list_sum []) with 0. destruct (H a (or_introl eq_refl)) as [H1 H2].
    destruct (Nat.leb_spec (sz a) 0); [lia|]. rewrite H2. reflexivity.
  - cbn [map until_end firstn]. change (list_sum (sz a :: firstn j (map sz l))) with (sz a + list_sum (firstn j (map sz l))).
    destruct (Nat.leb_spec (sz a) (sz a + list_sum (firstn j (map sz l)))); [|lia].
    rewrite Nat.add_comm, Nat.add_sub. apply IH. intros b Hb. apply H. right. exact Hb.
Qed.

Lemma list_sum_firstn l j : list_sum (firstn j l) <= list_sum l.
Proof.
  revert j. induction l as [|a l IH]; intros [|j]; cbn [firstn]; try (cbn; lia).
  change (a + list_sum (firstn j l) <= a + list_sum l). specialize (IH j). lia.
Qed.
Lemma list_sum_16 {A} (l : list A) : list_sum (map (fun _ => 16) l) = 16 * length l.
Proof. induction l as [|a l IH]; [reflexivity|]. cbn [map length]. change (16 + list_sum (map (fun _ => 16) l) = 16 * S (length l)). lia. Qed.

Lemma lenc_length k m : lwf k m -> length (lenc k m) = list_sum (lfront k) + list_sum (elem_sizes k m).
Proof.
  destruct k; cbn [lwf lenc lmsg elem_sizes] in *; intro W.
  - rewrite (lays_length _ _ _ (groupmod_lays m W)). reflexivity.
  - rewrite (lays_length _ _ _ (groupdesc_lays m W)). reflexivity.
  - rewrite (lays_length _ _ _ (groupstats_lays m)), list_sum_16. reflexivity.
  - rewrite (lays_length _ _ _ (metermod_lays m)), list_sum_16. reflexivity.
  - rewrite (lays_length _ _ _ (meterconfig_lays m)), list_sum_16. reflexivity.
  - rewrite (lays_length _ _ _ (meterstats_lays m)), list_sum_16. reflexivity.
  - rewrite (lays_length _ _ _ (packetqueue_lays m)). reflexivity.
  - rewrite (lays_length _ _ _ (queuereply_lays m)). reflexivity.
  - unfold enc_Hello, enc_HelloElems. induction (Hello_Elements m) as [|e l IH]; [reflexivity|].
    cbn [map concat]. rewrite app_length, IH, hello_elem_length. reflexivity.
Qed.

(** A cut behind any number of elements passes for the whole message, although
    several of the messages say how long they are. *)
Theorem C111_elements : forall k (m old : lmsg k) j, lwf k m ->
  let n := list_sum (lfront k) + list_sum (firstn j (elem_sizes k m)) in
  fail (ldec k old (firstn n (lenc k m))) = None.
Proof.
  intros k m old j W n.
  assert (V : short_finding k m n = Fine).
  { unfold short_finding, followed, n. destruct (Nat.ltb_spec (list_sum (lfront k) + list_sum (firstn j (elem_sizes k m))) (list_sum (lfront k))); [lia|].
    rewrite Nat.add_comm, Nat.add_sub.
    destruct k; cbn [list_cut elem_sizes]; unfold buckets_cut, counters_cut, bands_cut.
    - apply (until_end_at bucket_size). intros a _. split; [unfold bucket_size; lia|reflexivity].
    - apply (until_end_at bucket_size). intros a _. split; [unfold bucket_size; lia|reflexivity].
    - apply (until_end_at (fun _ => 16) (fun _ => fields [8; 8])). intros a _. split; [lia|reflexivity].
    - apply (elements_at (fun _ => 16)). intros a _. lia.
    - apply (elements_at (fun _ => 16)). intros a _. lia.
    - apply (until_end_at (fun _ => 16) (fun _ => fields [8; 8])). intros a _. split; [lia|reflexivity].
    - apply elements_at. intros a _. destruct a; cbn; lia.
    - apply (until_end_at packetqueue_size). intros a _. split; [unfold packetqueue_size; lia|reflexivity].
    - apply elements_at. intros a _. rewrite padded_size. lia. }
  rewrite C111_reported, V; [reflexivity|exact W|]. rewrite lenc_length by exact W. unfold n.
  pose proof (list_sum_firstn (elem_sizes k m) j). lia.
Qed.
Print Assumptions C111_elements.

(** A group modification with two buckets and a meter modification with a band:
    cut inside a number, between two members of a bucket (which then passes for
    the end of the list), behind the first bucket; meter statistics cut to a
    single byte. *)
Definition short_group : GroupMod :=
  MkGroupMod 0 1 7 [MkBucket 5 1 2 [AOutput 3 0]; MkBucket 6 1 2 []].
Definition short_stats : MeterStats := MkMeterStats 9 1 2 3 4 5 [MkMeterBandStats 6 7].
Example C111_ex :
  lwf LGroupMod short_group /\ lwf LMeterStats short_stats
  /\ length (enc_GroupMod short_group) = 56
  /\ map (fun n => fail (dec_GroupMod zero_GroupMod (firstn n (enc_GroupMod short_group)))) [7; 9; 10; 12; 25; 32; 40; 41; 50; 56]
     = [Some UnexpectedEOF; Some UnexpectedEOF; None; None; None; None; None; Some UnexpectedEOF; Some UnexpectedEOF; None]
  /\ map (fun n => fail (dec_MeterStats zero_MeterStats (firstn n (enc_MeterStats short_stats)))) [0; 1; 39; 40; 41; 48; 56]
     = [None; None; None; None; Some UnexpectedEOF; None; None].
Proof.
  split; [|split; [|vm_compute; repeat split]].
  - unfold lwf, wf_GroupMod, short_group. cbn. repeat split; repeat constructor; cbn; auto; try lia; reflexivity.
  - unfold lwf, wf_MeterStats, short_stats. cbn. repeat split; repeat constructor; cbn; auto; try lia; reflexivity.
Qed.

(** What users may expect, every truncation being reported, is false. *)
Theorem C111_all_reported_refuted : exists k (m old : lmsg k) n, lwf k m /\ n < length (lenc k m)
  /\ fail (ldec k old (firstn n (lenc k m))) = None.
Proof.
  exists LMeterStats, short_stats, zero_MeterStats, 1. split; [apply C111_ex|]. vm_compute. split; [lia|reflexivity].
Qed.
Print Assumptions C111_all_reported_refuted.
