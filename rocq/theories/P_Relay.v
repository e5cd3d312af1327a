(** C81: relaying fixed-size messages, and padding. *)
From Verif Require Import RelayFacts.

(** Any bytes, from any sender, decode to the message whose fields stand at the
    protocol's offsets; nothing of the old receiver is left. *)
Theorem C81_any_bytes : forall k (old : msg k) inp, size k <= length inp ->
  exists m, dec k old inp = Res m (size k) None (skipn (size k) inp)
         /\ wf k m /\ shown inp (layout k m).
Proof.
  intros k old inp L. destruct (reads_all k old inp L) as (m & D & W & _ & SH). exists m. auto.
Qed.
Print Assumptions C81_any_bytes.

(** Encoding what was decoded gives the received bytes back, with zeros for the
    padding. *)
Theorem C81_relay : forall k (old : msg k) inp m n e r, size k <= length inp ->
  dec k old inp = Res m n e r ->
  length (enc k m) = size k
  /\ (forall p, meaningful (layout k m) p -> nth_error (enc k m) p = nth_error inp p)
  /\ (forall p, p < size k -> ~ meaningful (layout k m) p -> nth_error (enc k m) p = Some x00).
Proof. exact relay_all. Qed.
Print Assumptions C81_relay.

(** Byte for byte when the sender filled the padding with zeros. *)
Theorem C81_relay_exact : forall k (old : msg k) inp, size k <= length inp ->
  (forall p, p < size k -> ~ meaningful (layout k old) p -> nth_error inp p = Some x00) ->
  enc k (val (dec k old inp)) = firstn (size k) inp.
Proof. exact relay_exact_all. Qed.
Print Assumptions C81_relay_exact.

(** Messages that differ only in the padding decode alike, into any receivers. *)
Theorem C81_padding_ignored : forall k (o1 o2 any : msg k) i1 i2,
  size k <= length i1 -> size k <= length i2 ->
  (forall p, meaningful (layout k any) p -> nth_error i1 p = nth_error i2 p) ->
  val (dec k o1 i1) = val (dec k o2 i2).
Proof. exact padding_ignored_all. Qed.
Print Assumptions C81_padding_ignored.

(** A relay of a relay changes nothing more. *)
Theorem C81_relay_stable : forall k (o1 o2 : msg k) inp tl, size k <= length inp ->
  let m := val (dec k o1 inp) in dec k o2 (enc k m ++ tl) = Res m (size k) None tl.
Proof.
  intros k o1 o2 inp tl L. destruct (reads_all k o1 inp L) as (m & D & W & N & _).
  rewrite D. cbn [val]. rewrite (roundtrip_all k m o2 tl W), N. reflexivity.
Qed.
Print Assumptions C81_relay_stable.

Example C81_ex :
  let inp := [x02; xaa; xbb; xcc; x00; x00; x00; x4d; x99] in
  let same := [x02; x00; x00; x00; x00; x00; x00; x4d] in
  dec KTableMod (MkTableMod 200 9) inp = Res (MkTableMod 2 77) 8 None [x99]
  /\ enc KTableMod (MkTableMod 2 77) = same
  /\ val (dec KTableMod zero_TableMod same) = MkTableMod 2 77
  /\ meaningful (layout KTableMod zero_TableMod) 5
  /\ ~ meaningful (layout KTableMod zero_TableMod) 2.
Proof.
  cbv zeta. do 3 (split; [vm_compute; reflexivity|]). split.
  - exists 4, (Num 4 0%N). cbn. split; [auto|]. split; [reflexivity|]. split; repeat constructor.
  - intros (o & i & I1 & I2 & I3). cbn in I1.
    destruct I1 as [E|[E|[E|[]]]]; injection E as <- <-; try discriminate I2; cbn in I3;
      destruct I3 as [I3 I4].
    + apply PeanoNat.Nat.ltb_lt in I4. discriminate I4.
    + apply PeanoNat.Nat.leb_le in I3. discriminate I3.
Qed.
