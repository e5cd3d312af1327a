(** Theorems on lists kept from a message that is read again: C94. *)
From Coq Require Import Lia.
From Verif Require Import SliceModel SliceSpec StepFacts SliceFacts.

(** C94: with the arrays behind the slices made explicit, the readers of lists
    still read the lists that they read elsewhere in the model. *)
Theorem C94_same_list : forall grow,
  same_list dec_Actions (slice_Actions grow) /\
  same_list (pre (fun _ => []) (read_all_xm true)) (slice_fields grow) /\
  same_list (pre (fun _ => []) (scan make_prop dec_TableProp)) (slice_props grow) /\
  same_list dec_Instructions (slice_Instructions grow) /\
  same_list dec_Ports (slice_Ports grow) /\
  same_list dec_MeterBands (slice_bands grow) /\
  same_list dec_QueueProps (slice_queue_props grow) /\
  same_list dec_HelloElems (slice_elems grow) /\
  same_list (readslice zero_Bucket dec_Bucket) (slice_buckets grow) /\
  same_list (readslice zero_BucketCounter dec_BucketCounter) (slice_counters grow) /\
  same_list (readslice zero_MeterBandStats dec_MeterBandStats) (slice_band_stats grow) /\
  same_list (readslice zero_PacketQueue dec_PacketQueue) (slice_queues grow).
Proof.
  intro grow.
  split; [eapply forget_same, scanning_pushing|].
  split; [eapply forget_same, xm_pushing|].
  split; [eapply forget_same, scanning_pushing|].
  split; [eapply pushing_same; [apply scanning_pushing|apply scan_app]|].
  split; [eapply pushing_same; [apply ports_pushing|apply dec_Ports_app]|].
  split; [eapply by_value_same; [apply scanning_pushing|apply scan_app]|].
  split; [eapply by_value_same; [apply scanning_pushing|apply scan_app]|].
  split; [eapply by_value_same; [apply scanning_pushing|apply scan_app]|].
  split; [exact (dropping_same zero_Bucket dec_Bucket grow zero_Bucket)|].
  split; [exact (dropping_same zero_BucketCounter dec_BucketCounter grow zero_BucketCounter)|].
  split; [exact (dropping_same zero_MeterBandStats dec_MeterBandStats grow zero_MeterBandStats)|].
  exact (dropping_same zero_PacketQueue dec_PacketQueue grow zero_PacketQueue).
Qed.
Print Assumptions C94_same_list.

(** The same for the table properties with a list. *)
Theorem C94_same_property : forall grow m,
  (forall k st inp, type_prop k -> proper (cells st) (var st) ->
     let r := slice_types grow (m, st) inp in
     dec_TableProp (k m (holds st)) inp = Res (k (fst (val r)) (holds (snd (val r)))) (cnt r) (fail r) (rest r)) /\
  (forall b k st inp, field_prop b k -> proper (cells st) (var st) ->
     let r := slice_xms grow b (m, st) inp in
     dec_TableProp (k m (holds st)) inp = Res (k (fst (val r)) (holds (snd (val r)))) (cnt r) (fail r) (rest r)).
Proof.
  intros grow m. split.
  - intros k st inp K P. cbn zeta.
    replace (dec_TableProp (k m (holds st)) inp) with (dec_prop_types (k m (holds st)) inp) by (destruct K; reflexivity).
    destruct (types_alike grow k K (k m (holds st)) (m, st) inp (conj eq_refl P)) as ((E & _) & C & F & R).
    rewrite <- E, <- C, <- F, <- R. apply res_eta.
  - intros b k st inp K P. cbn zeta.
    replace (dec_TableProp (k m (holds st)) inp) with (dec_prop_xm (k m (holds st)) inp) by (destruct K; reflexivity).
    destruct (fields_alike grow b k K (k m (holds st)) (m, st) inp (conj eq_refl P)) as ((E & _) & C & F & R).
    rewrite <- E, <- C, <- F, <- R. apply res_eta.
Qed.
Print Assumptions C94_same_property.

(** Reading actions, the fields of a match or the properties of table features
    changes no list that existed. *)
Theorem C94_kept_safe : forall grow,
  keeps_all (slice_Actions grow) /\ keeps_all (slice_fields grow) /\ keeps_all (slice_props grow).
Proof.
  intro grow. split; [eapply forget_keeps, scanning_pushing|]. split; [eapply forget_keeps, xm_pushing|].
  eapply forget_keeps, scanning_pushing.
Qed.
Print Assumptions C94_kept_safe.

(** Reading a table property whose four header bytes come in overwrites the list
    that was taken from it before with what it reads now, complete or not; the
    copy keeps its length. *)
Theorem C94_kept_overwritten : forall grow m,
  (forall st inp, proper (cells st) (var st) -> 4 <= length inp ->
     let st' := snd (val (slice_types grow (m, st) inp)) in
     view (cells st') (var st) = overwritten (holds st') (holds st)) /\
  (forall b st inp, proper (cells st) (var st) -> 4 <= length inp ->
     let st' := snd (val (slice_xms grow b (m, st) inp)) in
     view (cells st') (var st) = overwritten (holds st') (holds st)).
Proof.
  intros grow m. split.
  - intros st inp P L. cbn zeta. unfold slice_types. rewrite list_prop_store.
    destruct (Nat.ltb_spec (length inp) 4); [lia|].
    destruct (readfunc_pushes grow 0%N 0%N dec_bare (truncate st)
      (firstn (N.to_nat (sub16 (be_dec (skipn 2 (firstn 4 inp))) 4)) (skipn 4 inp))) as (l & r & _ & _ & E).
    rewrite E. cbn [val]. rewrite pushes_holds by now apply truncate_proper. rewrite pushes_truncated by exact P. reflexivity.
  - intros b st inp P L. cbn zeta. unfold slice_xms. rewrite list_prop_store.
    destruct (Nat.ltb_spec (length inp) 4); [lia|]. rewrite xm_pushing. cbn [val].
    rewrite pushes_holds by now apply truncate_proper. rewrite pushes_truncated by exact P. reflexivity.
Qed.
Print Assumptions C94_kept_overwritten.

(** Without those four bytes nothing changes; lists on other arrays are never
    changed; nor is anything if the property that is read has no array yet, as
    the properties made while table features are read. *)
Theorem C94_rest_untouched : forall grow m,
  (forall st inp, proper (cells st) (var st) ->
     let st' := snd (val (slice_types grow (m, st) inp)) in
     (length inp < 4 -> st' = st) /\ others_untouched st st' /\ (cap (var st) = 0 -> nothing_touched st st')) /\
  (forall b st inp, proper (cells st) (var st) ->
     let st' := snd (val (slice_xms grow b (m, st) inp)) in
     (length inp < 4 -> st' = st) /\ others_untouched st st' /\ (cap (var st) = 0 -> nothing_touched st st')).
Proof.
  assert (G : forall A grow z (l : list A) st, proper (cells st) (var st) ->
    others_untouched st (pushes grow z l (truncate st)) /\ (cap (var st) = 0 -> nothing_touched st (pushes grow z l (truncate st)))).
  { intros A grow z l st P. split.
    - apply (pushes_elsewhere grow z l (truncate st)), truncate_proper, P.
    - intro C. apply (pushes_no_room grow z l (truncate st)); [apply truncate_proper, P|exact C]. }
  intros grow m. split.
  - intros st inp P. cbn zeta. unfold slice_types. rewrite list_prop_store.
    destruct (Nat.ltb_spec (length inp) 4).
    + split; [reflexivity|]. split; [intros k _ _; reflexivity|intros _ k _; reflexivity].
    + split; [lia|].
      destruct (readfunc_pushes grow 0%N 0%N dec_bare (truncate st)
        (firstn (N.to_nat (sub16 (be_dec (skipn 2 (firstn 4 inp))) 4)) (skipn 4 inp))) as (l & r & _ & _ & E).
      rewrite E. cbn [val]. apply G, P.
  - intros b st inp P. cbn zeta. unfold slice_xms. rewrite list_prop_store.
    destruct (Nat.ltb_spec (length inp) 4).
    + split; [reflexivity|]. split; [intros k _ _; reflexivity|intros _ k _; reflexivity].
    + split; [lia|]. rewrite xm_pushing. cbn [val]. apply G, P.
Qed.
Print Assumptions C94_rest_untouched.

(** The readers that append to what the receiver has, and those whose appends
    are lost, change no list that ends where that of the receiver ends or before:
    a plain copy of it is safe. *)
Theorem C94_copy_kept : forall grow,
  keeps_shorter (slice_Instructions grow) /\ keeps_shorter (slice_Ports grow) /\
  keeps_shorter (slice_bands grow) /\ keeps_shorter (slice_queue_props grow) /\ keeps_shorter (slice_elems grow) /\
  keeps_shorter (slice_buckets grow) /\ keeps_shorter (slice_counters grow) /\
  keeps_shorter (slice_band_stats grow) /\ keeps_shorter (slice_queues grow).
Proof.
  intro grow.
  split; [eapply pushing_shorter, scanning_pushing|].
  split; [eapply pushing_shorter, ports_pushing|].
  split; [eapply by_value_shorter, pushing_shorter, scanning_pushing|].
  split; [eapply by_value_shorter, pushing_shorter, scanning_pushing|].
  split; [eapply by_value_shorter, pushing_shorter, scanning_pushing|].
  split; [exact (dropping_shorter zero_Bucket dec_Bucket grow zero_Bucket)|].
  split; [exact (dropping_shorter zero_BucketCounter dec_BucketCounter grow zero_BucketCounter)|].
  split; [exact (dropping_shorter zero_MeterBandStats dec_MeterBandStats grow zero_MeterBandStats)|].
  exact (dropping_shorter zero_PacketQueue dec_PacketQueue grow zero_PacketQueue).
Qed.
Print Assumptions C94_copy_kept.

(** A longer list that begins with that of the receiver (the receiver was cut
    down from it) is overwritten behind it with what is read, even by the readers
    whose receiver keeps its list; those that read elements of a fixed size put
    only the last of them there. *)
Theorem C94_longer_overwritten : forall grow,
  writes_behind (slice_Instructions grow) (fun inp => val (dec_Instructions [] inp)) /\
  writes_behind (slice_Ports grow) (fun inp => val (dec_Ports [] inp)) /\
  writes_behind (slice_bands grow) (fun inp => val (scan make_band dec_MeterBand [] inp)) /\
  writes_behind (slice_queue_props grow) (fun inp => val (scan make_queue_prop dec_QueueProp [] inp)) /\
  writes_behind (slice_elems grow) (fun inp => val (scan make_hello_elem dec_HelloElem [] inp)) /\
  writes_behind (slice_buckets grow) (fun inp => last_only (val (readfunc zero_Bucket dec_Bucket (fun a l => l ++ [a]) [] inp))) /\
  writes_behind (slice_counters grow)
    (fun inp => last_only (val (readfunc zero_BucketCounter dec_BucketCounter (fun a l => l ++ [a]) [] inp))) /\
  writes_behind (slice_band_stats grow)
    (fun inp => last_only (val (readfunc zero_MeterBandStats dec_MeterBandStats (fun a l => l ++ [a]) [] inp))) /\
  writes_behind (slice_queues grow)
    (fun inp => last_only (val (readfunc zero_PacketQueue dec_PacketQueue (fun a l => l ++ [a]) [] inp))).
Proof.
  intro grow.
  split; [eapply pushing_behind, scanning_pushing|].
  split; [eapply pushing_behind, ports_pushing|].
  split; [eapply by_value_behind, pushing_behind, scanning_pushing|].
  split; [eapply by_value_behind, pushing_behind, scanning_pushing|].
  split; [eapply by_value_behind, pushing_behind, scanning_pushing|].
  split; [exact (dropping_behind zero_Bucket dec_Bucket grow zero_Bucket)|].
  split; [exact (dropping_behind zero_BucketCounter dec_BucketCounter grow zero_BucketCounter)|].
  split; [exact (dropping_behind zero_MeterBandStats dec_MeterBandStats grow zero_MeterBandStats)|].
  exact (dropping_behind zero_PacketQueue dec_PacketQueue grow zero_PacketQueue).
Qed.
Print Assumptions C94_longer_overwritten.

(** A property read into a zero value and then again: the list taken in between
    changes. *)
Definition two_types : bytes := map byte_of_N [0; 4; 0; 12; 0; 25; 0; 4; 0; 22; 0; 4; 0; 0; 0; 0]%N.
Definition one_type : bytes := map byte_of_N [0; 4; 0; 8; 0; 0; 0; 4]%N.

Definition after_first : list_prop N := val (slice_types (fun n => 2 * n) (false, MkStore [] nil_slice) two_types).
Definition after_second : list_prop N := val (slice_types (fun n => 2 * n) after_first one_type).

Example C94_kept_ex :
  holds (snd after_first) = [25; 22]%N /\ holds (snd after_second) = [0]%N /\
  view (cells (snd after_second)) (var (snd after_first)) = [0; 22]%N.
Proof. vm_compute. auto. Qed.

(** The same wire bytes put into a fresh property leave the first list alone. *)
Example C94_fresh_ex :
  let st := snd (val (slice_types (fun n => 2 * n) (false, MkStore (cells (snd after_first)) nil_slice) one_type)) in
  holds st = [0]%N /\ view (cells st) (var (snd after_first)) = [25; 22]%N.
Proof. vm_compute. auto. Qed.

(** Two bytes change nothing; a header and a part of an element do. *)
Example C94_short_ex :
  snd (val (slice_types (fun n => 2 * n) after_first [byte_of_N 0; byte_of_N 4])) = snd after_first /\
  let st := snd (val (slice_types (fun n => 2 * n) after_first (firstn 10 two_types))) in
  holds st = [25]%N.
Proof. vm_compute. auto. Qed.

(** A meter modification cut down to its first band, read again: the second band
    of the list it was cut down from is overwritten. *)
Definition a_band (r : N) : bytes := map byte_of_N [0; 1; 0; 16; 0; 0; 0; r; 0; 0; 0; 2; 0; 0; 0; 0]%N.
Definition bands_st : store MeterBand := MkStore [[BandDrop 5 2; BandDrop 6 2]] (MkSlice 0 0 1 2).
Example C94_longer_ex :
  let st := val (slice_bands (fun n => n) bands_st (a_band 9)) in
  holds st = [BandDrop 5 2] /\ view (cells st) (MkSlice 0 0 2 2) = [BandDrop 5 2; BandDrop 9 2].
Proof. vm_compute. auto. Qed.

(** A band that ends early is there with what was read of it and zeros, after two, eight,
    twelve and thirteen bytes of each kind. *)
Definition cut_band (t : N) (n : nat) : list MeterBand :=
  let st := val (slice_bands (fun n => n) bands_st
    (firstn n (map byte_of_N [t / 256; t mod 256; 0; 16; 0; 0; 0; 7; 0; 0; 0; 8; 9; 0; 0; 1]%N))) in
  view (cells st) (MkSlice 0 0 2 2).
Example C94_cut_ex :
  map (cut_band 1) [1; 2; 8; 12; 13]
  = map (cons (BandDrop 5 2)) [[BandDrop 6 2]; [BandDrop 0 0]; [BandDrop 7 0]; [BandDrop 7 8]; [BandDrop 7 8]]
  /\ map (cut_band 2) [1; 2; 8; 12; 13]
  = map (cons (BandDrop 5 2)) [[BandDrop 6 2]; [BandDSCPRemark 0 0 0]; [BandDSCPRemark 7 0 0]; [BandDSCPRemark 7 8 0]; [BandDSCPRemark 7 8 9]]
  /\ map (cut_band 65535) [1; 2; 8; 12; 13]
  = map (cons (BandDrop 5 2)) [[BandDrop 6 2]; [BandExperimenter 0 0 0]; [BandExperimenter 7 0 0]; [BandExperimenter 7 8 0]; [BandExperimenter 7 8 0]].
Proof. vm_compute. auto. Qed.

(** The same for properties of queues, after two, ten and sixteen bytes, and for elements of
    a hello message, after two and eight of the twelve announced. *)
Definition cut_prop (t : N) (n : nat) : list QueueProp :=
  let st := val (slice_queue_props (fun n => n) (MkStore [[PropMinRate 5; PropMinRate 6]] (MkSlice 0 0 1 2))
    (firstn n (map byte_of_N [t / 256; t mod 256; 0; 18; 0; 0; 0; 0; 0; 7; 0; 8; 0; 0; 0; 0; 3; 4]%N))) in
  view (cells st) (MkSlice 0 0 2 2).
Definition cut_elem (n : nat) : list HelloElem :=
  let st := val (slice_elems (fun n => n) (MkStore [[MkHelloElem [5]; MkHelloElem [6]]%N] (MkSlice 0 0 1 2))
    (firstn n (map byte_of_N [0; 1; 0; 12; 0; 0; 0; 7; 0; 0; 0; 8]%N))) in
  view (cells st) (MkSlice 0 0 2 2).
Example C94_cut_props_ex :
  map (cut_prop 1) [2; 10; 16] = map (cons (PropMinRate 5)) [[PropMinRate 0]; [PropMinRate 7]; [PropMinRate 7]]
  /\ map (cut_prop 2) [2; 10; 16] = map (cons (PropMinRate 5)) [[PropMaxRate 0]; [PropMaxRate 7]; [PropMaxRate 7]]
  /\ map (cut_prop 65535) [2; 10; 16; 18]
     = map (cons (PropMinRate 5)) [[PropQueueExperimenter 0 []]; [PropQueueExperimenter 0 []];
         [PropQueueExperimenter 458760 []]; [PropQueueExperimenter 458760 [byte_of_N 3; byte_of_N 4]]]
  /\ map cut_elem [1; 2; 8; 12] = map (cons (MkHelloElem [5%N])) [[MkHelloElem [6%N]]; [MkHelloElem []]; [MkHelloElem [0; 0]%N]; [MkHelloElem [7; 8]%N]].
Proof. vm_compute. auto. Qed.

(** So not every list that was taken from a table property stays what it was. *)
Theorem C94_refuted : exists grow m st inp k,
  proper (cells st) (var st) /\ proper (cells st) k /\
  fail (slice_types grow (m, st) inp) = None /\
  view (cells (snd (val (slice_types grow (m, st) inp)))) k <> view (cells st) k.
Proof.
  exists (fun n => 2 * n), false, (snd after_first), one_type, (var (snd after_first)).
  assert (P : proper (cells (snd after_first)) (var (snd after_first))).
  { vm_compute. split; [auto|right; split; auto]. }
  split; [exact P|]. split; [exact P|]. split; [vm_compute; reflexivity|]. vm_compute. discriminate.
Qed.
Print Assumptions C94_refuted.
