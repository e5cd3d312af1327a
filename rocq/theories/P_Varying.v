(** C87: messages of varying size from senders that leave anything in the padding. *)
From Verif Require Import FillFacts VaryingModel VaryingSpec.
From Verif Require RequestFacts.

Lemma vlays k m : vwf k m -> lays (venc k m) (vsize k m) (vlayout k m).
Proof.
  destruct k; cbn [vwf venc vsize vlayout]; intro W; rewrite <- ?Nat.add_assoc.
  - apply match_lays, W.
  - apply actions_lays, W.
  - apply instructions_lays, W.
  - apply bucket_lays, W.
  - apply flowmod_lays, W.
  - apply flowremoved_lays, W.
  - apply flowstatsrequest_lays, W.
  - apply aggregatestatsrequest_lays, W.
  - apply flowstats_lays, W.
  - apply packetin_lays, W.
  - apply packetout_lays, W.
Qed.

Lemma vwhole k m : vwf k m -> wholef (vdec k) (vlayout k m) (fun old => vafter k old m).
Proof.
  destruct k; cbn [vwf vlayout vdec vafter]; intros W bs F.
  - apply rt_whole, (rtf_Match m W bs F).
  - apply (wholef_Actions 0 m W bs F).
  - apply (wholef_Instructions 0 m W bs F).
  - apply rt_whole, (rtf_Bucket m W bs F).
  - apply (wholef_FlowMod m W bs F).
  - apply rt_whole, (rtf_FlowRemoved m W bs F).
  - apply rt_whole, (rtf_FlowStatsRequest m W bs F).
  - apply rt_whole, (rtf_AggregateStatsRequest m W bs F).
  - apply rt_whole, (rtf_FlowStats m W bs F).
  - apply (wholef_PacketIn m W bs F).
  - apply (wholef_PacketOut m W bs F).
Qed.

(** Bytes that carry every item of the layout of [m] are read as [m], whatever
    stands in the padding. *)
Theorem C87_padding_ignored : forall k (m old : vmsg k) inp, vwf k m ->
  length inp = vsize k m -> shown inp (vlayout k m) ->
  vdec k old inp = Res (vafter k old m) (vsize k m) None [].
Proof.
  intros k m old inp W L SH. rewrite <- L. apply (vwhole k m W).
  apply (lays_filled (venc k m) (vsize k m)); auto using vlays.
Qed.
Print Assumptions C87_padding_ignored.

(** Encoding what was read gives the received bytes, with zeros for the padding. *)
Theorem C87_relay : forall k (m : vmsg k) inp, vwf k m ->
  length inp = vsize k m -> shown inp (vlayout k m) ->
  let out := venc k (val (vdec k (vzero k) inp)) in
  length out = length inp
  /\ (forall p, meaningful (vlayout k m) p -> nth_error out p = nth_error inp p)
  /\ (forall p, p < length inp -> ~ meaningful (vlayout k m) p -> nth_error out p = Some x00).
Proof.
  intros k m inp W L SH out.
  assert (E : out = venc k m).
  { unfold out. rewrite (C87_padding_ignored k m (vzero k) inp W L SH). cbn [val]. destruct k; reflexivity. }
  rewrite E. destruct (lays_laid_out _ _ _ (vlays k m W)) as (LN & T & C).
  split; [congruence|]. split.
  - intros p (off & i & I1 & I2 & I3). apply option_to_N_inj.
    assert (Hp : p - off < width i) by lia.
    pose proof (C off i I1 _ Hp) as E1. pose proof (SH off i I1 I2 _ Hp) as E2.
    replace (off + (p - off)) with p in * by lia. congruence.
  - intros p Hp Hm. rewrite L in Hp.
    destruct (RequestFacts.tiles_cover _ 0 (vsize k m) p T) as (off & i & I1 & I2); [lia|].
    assert (PI : padding i = true).
    { destruct (padding i) eqn:Ep; [reflexivity|]. exfalso. apply Hm. exists off, i. auto. }
    destruct i; try discriminate PI. cbn [width] in I2.
    assert (Hw : p - off < w) by lia.
    pose proof (C off _ I1 (p - off) Hw) as E1. cbn [item_byte] in E1.
    replace (off + (p - off)) with p in E1 by lia.
    apply option_to_N_inj. rewrite E1. reflexivity.
Qed.
Print Assumptions C87_relay.

(** Two receptions that differ only in the padding cannot be told apart. *)
Theorem C87_same_value : forall k (m m' old : vmsg k) i1 i2, vwf k m -> vwf k m' ->
  length i1 = vsize k m -> shown i1 (vlayout k m) ->
  length i2 = vsize k m' -> shown i2 (vlayout k m') ->
  (vdec k old i1 = vdec k old i2 <-> venc k m = venc k m').
Proof.
  intros k m m' old i1 i2 W W' L1 S1 L2 S2.
  rewrite (C87_padding_ignored k m old i1 W L1 S1), (C87_padding_ignored k m' old i2 W' L2 S2).
  assert (R : forall x, vwf k x -> vdec k old (venc k x) = Res (vafter k old x) (vsize k x) None []).
  { intros x Wx. destruct (lays_laid_out _ _ _ (vlays k x Wx)) as (LN & T & C).
    apply C87_padding_ignored; [exact Wx|exact LN|]. intros off i Hi _. apply C, Hi. }
  split; intro E.
  - injection E as E1 E2. assert (m = m') as ->; [|reflexivity].
    destruct k; cbn [vafter] in E1; try exact E1. apply app_inv_head in E1. exact E1.
  - rewrite <- (R m W), <- (R m' W'), E. reflexivity.
Qed.
Print Assumptions C87_same_value.

(** A flow modification with every padding byte set, and its relay. *)
Example C87_ex :
  let m := MkFlowMod 1 0 2 0 3 4 5 6 7 8 1 (MkMatch 1 [MkXM 32768 5 [x08; x00] []])
             [IApplyActions [ASetField (MkXM 32768 6 [x10; x05] []); AOutput 7 65535]; IGotoTable 4] in
  let inp := firstn 38 (enc_FlowMod m) ++ [xaa; xaa] ++ firstn 10 (skipn 40 (enc_FlowMod m))
             ++ repeat xbb 6 ++ firstn 4 (skipn 56 (enc_FlowMod m)) ++ repeat xcc 4
             ++ firstn 10 (skipn 64 (enc_FlowMod m)) ++ repeat xdd 6
             ++ firstn 10 (skipn 80 (enc_FlowMod m)) ++ repeat xee 6
             ++ firstn 5 (skipn 96 (enc_FlowMod m)) ++ repeat xff 3 in
  vwf VFlowMod m /\ length inp = vsize VFlowMod m /\ shown inp (vlayout VFlowMod m)
  /\ vdec VFlowMod zero_FlowMod inp = Res m 104 None []
  /\ inp <> enc_FlowMod m.
Proof.
  cbv zeta. split.
  { cbn [vwf]. unfold wf_FlowMod, wf_Match. cbn. repeat constructor; cbn; auto; lia. }
  split; [vm_compute; reflexivity|]. split; [apply shownb_ok; vm_compute; reflexivity|].
  split; [vm_compute; reflexivity|vm_compute; discriminate].
Qed.
