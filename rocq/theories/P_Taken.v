(** C111: what is read from the beginning of a message that carries a list. *)
From Verif Require Import ShortFacts TakenSpec P_Seen P_Short.
From Coq Require Import Lia.

(** A read that leaves the state alone. *)
Definition idle {S} (f : step S) : Prop := forall s inp, val (f s inp) = s.

Lemma idle_lost {S} (f : step S) : idle (lost f).
Proof. intros s inp. reflexivity. Qed.
Lemma idle_readslice {A S} (zero : A) rd : idle (S := S) (readslice zero rd).
Proof.
  intros s inp. unfold readslice, readfunc. generalize (Datatypes.S (length inp)) as fuel. intro fuel. revert inp.
  induction fuel as [|fuel IH]; intro inp; [reflexivity|]. cbn [readfunc_loop].
  destruct (rd zero inp) as [v c [e|] r]; cbn [fail val rest]; [reflexivity|]. apply IH.
Qed.
Lemma idle_limited {S} z (f : step S) : idle f -> idle (limited z f).
Proof. intros H s inp. unfold limited. cbn [val]. apply H. Qed.
Lemma idle_sub {S A} (get : S -> A) set f : (forall s, set (get s) s = s) -> idle f -> idle (sub get set f).
Proof. intros E H s inp. unfold sub. cbn [val]. rewrite H. apply E. Qed.

Lemma val_andthen {S} (a : step S) b s inp : (forall n h, idle (b n h)) -> val (andthen a b s inp) = val (a s inp).
Proof. intro H. unfold andthen. destruct (a s inp) as [v c [e|] r]; cbn [fail val cnt rest]; [reflexivity|]. apply H. Qed.
Lemma val_ignoring {S} (a : step S) b s inp : (forall n h, idle (b n h)) -> val (andthen_ignoring a b s inp) = val (a s inp).
Proof. intro H. unfold andthen_ignoring. cbn [val]. apply H. Qed.
Lemma val_local {L S} (l : L) (f : step (L * S)) s inp : val (with_local l f s inp) = snd (val (f (l, s) inp)).
Proof. reflexivity. Qed.
Lemma val_idle {S} (f : step S) s inp : idle f -> val (seqr [f] s inp) = s.
Proof. intro H. specialize (H s inp). cbn [seqr]. destruct (f s inp) as [v c [e|] r]; cbn [fail val] in *; exact H. Qed.

Lemma val_part {S} k (set : N -> S -> S) fs l s x tl n : fits k x ->
  val (seqr (sub snd (fun m (s : N * S) => (fst s, m)) (fu k set) :: fs) (l, s) (firstn n (be_enc k x ++ tl)))
  = if k <=? n then val (seqr fs (l, set x s) (firstn (n - k) tl)) else (l, s).
Proof.
  intro H. cbn [seqr]. unfold sub. cbn [fst snd]. unfold fu. destruct (Nat.leb_spec k n) as [K|K].
  - rewrite firstn_behind by (rewrite be_enc_length; lia). rewrite take_long by (rewrite app_length, be_enc_length; lia). cbn [fail val rest cnt].
    rewrite be_enc_length, firstn_app, be_enc_length, Nat.sub_diag, app_nil_r.
    replace (firstn k (be_enc k x)) with (be_enc k x) by (symmetry; apply firstn_all2; rewrite be_enc_length; lia).
    rewrite be_dec_enc_fits by exact H.
    replace (skipn k (be_enc k x ++ firstn (n - k) tl)) with (firstn (n - k) tl); [reflexivity|].
    rewrite skipn_app, skipn_all2 by (rewrite be_enc_length; lia). rewrite be_enc_length, Nat.sub_diag. reflexivity.
  - rewrite firstn_before by (rewrite be_enc_length; lia). rewrite take_short by (rewrite firstn_length; lia). reflexivity.
Qed.

Lemma val_len {S} k fs l (s : S) x tl n : fits k x ->
  val (seqr (fu k (fun v (s : N * S) => (v, snd s)) :: fs) (l, s) (firstn n (be_enc k x ++ tl)))
  = if k <=? n then val (seqr fs (x, s) (firstn (n - k) tl)) else (l, s).
Proof. intro H. apply (val_fu k (fun v (s : N * S) => (v, snd s)) fs (l, s) x tl n H). Qed.

Ltac parts := repeat first
  [ rewrite val_nil | rewrite val_part by first [assumption|apply uwrap_fits] | rewrite val_len by apply uwrap_fits
  | rewrite val_fu by assumption
  | unfold fpad at 1; rewrite val_take by (rewrite ?be_enc_length, ?zeros_length; reflexivity) ].

Ltac idles := intros; cbv beta; repeat first [apply idle_lost | apply idle_readslice | apply idle_limited | apply idle_sub; [intros [? ?]; reflexivity|] | apply idle_sub; [intros []; reflexivity|]].


(** C111: the value after reading the first [n] bytes, with an error or without. *)
Theorem C111_read : forall k (m old : lmsg k) n, lwf k m -> n <= length (lenc k m) ->
  val (ldec k old (firstn n (lenc k m))) = left_by k m n old.
Proof.
  intros k m old n W _. destruct k; cbn [lwf lenc ldec lmsg left_by] in *.
  - unfold wf_GroupMod in W. split_wf W. unfold enc_GroupMod, dec_GroupMod. rewrite val_andthen by idles.
    cbn [concat]. unfold u8, u16, u32, pad. parts. destruct old. do 8 (destruct n as [|n]; [reflexivity|]). reflexivity.
  - destruct W as (W1 & W2 & W & WS). unfold enc_GroupDescStats, dec_GroupDescStats. cbv zeta. rewrite val_local, val_ignoring by idles.
    cbn [concat]. unfold u8, u16, u32, pad. parts. destruct old. do 8 (destruct n as [|n]; [reflexivity|]). reflexivity.
  - destruct W as (W1 & W2 & W3 & W4 & W5 & W6 & W & WS). unfold enc_GroupStats, dec_GroupStats. cbv zeta. rewrite val_local, val_andthen by idles.
    cbn [concat]. unfold u8, u16, u32, u64, pad. parts. destruct old. do 40 (destruct n as [|n]; [reflexivity|]). reflexivity.
  - unfold wf_MeterMod in W. split_wf W. unfold enc_MeterMod, dec_MeterMod. 
    cbn [concat]. unfold u8, u16, u32, u64, pad. parts. rewrite val_idle by idles. destruct old. do 8 (destruct n as [|n]; [reflexivity|]). reflexivity.
  - destruct W as (W1 & W2 & W & WS). unfold enc_MeterConfig, dec_MeterConfig. cbv zeta. rewrite val_local, val_andthen by idles.
    cbn [concat]. unfold u8, u16, u32, u64, pad. parts. destruct old. do 8 (destruct n as [|n]; [reflexivity|]). reflexivity.
  - destruct W as (W1 & W2 & W3 & W4 & W5 & W6 & W & WS). unfold enc_MeterStats, dec_MeterStats. cbv zeta. rewrite val_local, val_ignoring by idles.
    cbn [concat]. unfold u8, u16, u32, u64, pad. parts. destruct old. do 40 (destruct n as [|n]; [reflexivity|]). reflexivity.
  - destruct W as (W1 & W2 & W & WS). unfold enc_PacketQueue, dec_PacketQueue. cbv zeta. rewrite val_local, val_andthen by idles.
    cbn [concat]. unfold u8, u16, u32, u64, pad. parts. destruct old. do 16 (destruct n as [|n]; [reflexivity|]). reflexivity.
  - destruct W as (W1 & W). unfold enc_QueueGetConfigReply, dec_QueueGetConfigReply. rewrite val_andthen by idles.
    cbn [concat]. unfold u8, u16, u32, u64, pad. parts. destruct old. do 8 (destruct n as [|n]; [reflexivity|]). reflexivity.
  - unfold dec_Hello. apply val_idle. idles.
Qed.
Print Assumptions C111_read.

(** A group description cut into its header is mixed with the previous contents of
    the receiver, and no error tells. *)
Theorem C111_mixed : forall (m old : GroupDescStats) n, wf_GroupDescStats m -> 3 <= n -> n < 8 ->
  let r := dec_GroupDescStats old (firstn n (enc_GroupDescStats m)) in
  fail r = None
  /\ val r = MkGroupDescStats (GroupDescStats_Type m) (GroupDescStats_Group old) (GroupDescStats_Buckets old).
Proof.
  intros m old n W H3 H8 r. split.
  - exact (C111_front LGroupDescStats m old n W H8).
  - unfold r. pose proof (lenc_front LGroupDescStats m W) as L. change (list_sum (lfront LGroupDescStats)) with 8 in L. cbn [lenc] in L.
    pose proof (C111_read LGroupDescStats m old n W ltac:(cbn [lenc]; lia)) as R. etransitivity; [exact R|]. cbn [left_by]. unfold since.
    destruct (Nat.leb_spec 3 n); [|lia]. destruct (Nat.leb_spec 8 n); [lia|reflexivity].
Qed.
Print Assumptions C111_mixed.

(** Statistics of meter 9 cut in the middle, read where those of meter 5 were: the
    counters of meter 5 count as those of meter 9. *)
Example C111_read_ex :
  let old := MkMeterStats 5 11 12 13 14 15 [MkMeterBandStats 1 2] in
  left_by LMeterStats short_stats 20 old
    = MkMeterStats (MeterStats_Meter short_stats) (MeterStats_FlowCount short_stats) 12 13 14 15 [MkMeterBandStats 1 2]
  /\ dec_MeterStats old (firstn 20 (enc_MeterStats short_stats))
    = Res (left_by LMeterStats short_stats 20 old) 20 None [].
Proof. vm_compute. split; reflexivity. Qed.

Example C111_mixed_ex :
  let m := MkGroupDescStats 2 7 [MkBucket 1 2 3 [AOutput 1 2]] in
  wf_GroupDescStats m
  /\ dec_GroupDescStats (MkGroupDescStats 1 6 []) (firstn 6 (enc_GroupDescStats m)) = Res (MkGroupDescStats 2 6 []) 6 None [].
Proof.
  split; [|vm_compute; reflexivity]. unfold wf_GroupDescStats. cbn. repeat split; repeat constructor; cbn; auto; try lia; reflexivity.
Qed.
