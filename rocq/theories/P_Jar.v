(** C91: cookie jars, and what a cookie matcher makes of other messages. *)
From Verif Require Import JarFacts.
Ltac Zify.zify_post_hook ::= Z.div_mod_to_equations.

(** NewCookieMatcher for each of the six messages with a cookie. *)
Theorem C91_new_matcher : Forall well_matched placed_jars.
Proof.
  assert (K : forall A (J : jar A) (wf : A -> Prop) off,
    (forall m c, wf m -> fits 8 c -> wf (jset J c m)) -> (forall m c, jget J (jset J c m) = c) ->
    (forall m, jset J (jget J m) m = m) -> (forall m, cookie_at J off m) ->
    (forall n, wf n -> whole (jdec J) (jenc J n) (fun _ => n)) -> well_matched (PlacedJar A J wf off)).
  { intros A J wf off WS GS SG AT WH low high m FL FH W. unfold new_cookie_matcher. rewrite (new_cookie_eq low high FL).
    set (c := (high * 4294967296 + low)%N) in *.
    assert (FC : fits 8 c) by (unfold c, fits; change (256 ^ N.of_nat 8)%N with 18446744073709551616%N; lia). clearbody c.
    split; [apply WS; assumption|]. split; [apply GS|]. split; [|split].
    - rewrite <- (SG m) at 1. apply cookie_at_same, AT.
    - intros r H. destruct (cookie_whole (jdec J) (jzero J) (jget J) c r _ _ (WH _ (WS _ _ W FC)) H) as [r' E].
      exists r'. rewrite E, GS, N.eqb_refl. reflexivity.
    - intros n r Wn H. exact (cookie_whole (jdec J) (jzero J) (jget J) c r _ _ (WH _ Wn) H). }
  assert (WF : forall m c, wf_FlowStats m -> fits 8 c -> wf_FlowStats (set_FlowStats_Cookie c m)).
  { intros m c W F. unfold wf_FlowStats in *.
    repeat match goal with H : _ /\ _ |- _ => destruct H end. repeat match goal with |- _ /\ _ => split end; assumption. }
  unfold placed_jars. repeat apply Forall_cons; try apply Forall_nil.
  - apply K; [|reflexivity|intros []; reflexivity|exact at_PacketIn|exact whole_PacketIn].
    intros m c W F. unfold wf_PacketIn in *. repeat match goal with H : _ /\ _ |- _ => destruct H end. repeat match goal with |- _ /\ _ => split end; assumption.
  - apply K; [|reflexivity|intros []; reflexivity|exact at_AggregateStatsRequest|intros n W; apply rt_whole, rt_AggregateStatsRequest, W].
    intros m c W F. unfold wf_AggregateStatsRequest in *. repeat match goal with H : _ /\ _ |- _ => destruct H end. repeat match goal with |- _ /\ _ => split end; assumption.
  - apply K; [|reflexivity|intros []; reflexivity|exact at_FlowMod|exact whole_FlowMod].
    intros m c W F. unfold wf_FlowMod in *. repeat match goal with H : _ /\ _ |- _ => destruct H end. repeat match goal with |- _ /\ _ => split end; assumption.
  - apply K; [|reflexivity|intros []; reflexivity|exact at_FlowRemoved|intros n W; apply rt_whole, rt_FlowRemoved, W].
    intros m c W F. unfold wf_FlowRemoved in *. repeat match goal with H : _ /\ _ |- _ => destruct H end. repeat match goal with |- _ /\ _ => split end; assumption.
  - apply K; [|reflexivity|intros []; reflexivity|exact at_FlowStatsRequest|intros n W; apply rt_whole, rt_FlowStatsRequest, W].
    intros m c W F. unfold wf_FlowStatsRequest in *. repeat match goal with H : _ /\ _ |- _ => destruct H end. repeat match goal with |- _ /\ _ => split end; assumption.
  - apply K; [exact WF|reflexivity|intros []; reflexivity|exact at_FlowStats|intros n W; apply rt_whole, rt_FlowStats, W].
Qed.
Print Assumptions C91_new_matcher.

(** Each matcher looks at one place of the body only. *)
Theorem C91_place : Forall looks_at_place placed_jars.
Proof.
  assert (K : forall A (J : jar A) (wf : A -> Prop) off, reads_at (jdec J) (jget J) off -> looks_at_place (PlacedJar A J wf off)).
  { intros A J wf off R want r x r' H E. destruct (accepted_at _ _ _ _ _ _ _ _ R H E) as [L V]. split; [exact L|]. symmetry. exact V. }
  unfold placed_jars. repeat apply Forall_cons; try apply Forall_nil; apply K.
  - exact pos_PacketIn.
  - exact pos_AggregateStatsRequest.
  - exact pos_FlowMod.
  - exact pos_FlowRemoved.
  - exact pos_FlowStatsRequest.
  - exact pos_FlowStats.
Qed.
Print Assumptions C91_place.

(** It does not look at the header: the type of the message is not checked. *)
Theorem C91_type_blind : forall decode want r h,
  cookie_match decode want (set_header h r)
  = match cookie_match decode want r with Says b r' => Says b (set_header h r') | Panics => Panics end.
Proof.
  intros decode want r h. unfold cookie_match. change (Request_Body (set_header h r)) with (Request_Body r).
  destruct (Request_Body r) as [|w rb re o|x|rd]; [reflexivity| | |].
  - destruct (readall_body (BCopy w rb re o)) as [x [e|]]; [reflexivity|]. destruct (decode x) as [c|[]]; reflexivity.
  - destruct (decode x) as [c|[]]; reflexivity.
  - destruct (readall_body (BReader rd)) as [x [e|]]; [reflexivity|]. destruct (decode x) as [c|[]]; reflexivity.
Qed.
Print Assumptions C91_type_blind.

(** A matcher made for flow modifications also decides flow-removed messages by
    their cookie, and the other way round; likewise the two statistics requests. *)
Theorem C91_siblings : forall want r,
  let reads bs := readall_body (Request_Body r) = (bs, None) in
  let decides reader c := exists r', cookie_match reader want r = Says (c =? want)%N r' in
  (forall m, wf_FlowRemoved m -> reads (enc_FlowRemoved m) -> decides cookie_FlowMod (FlowRemoved_Cookie m))
  /\ (forall m, wf_FlowMod m -> reads (enc_FlowMod m) -> decides cookie_FlowRemoved (FlowMod_Cookie m))
  /\ (forall m, wf_AggregateStatsRequest m -> reads (enc_AggregateStatsRequest m) ->
        decides cookie_FlowStatsRequest (AggregateStatsRequest_Cookie m))
  /\ (forall m, wf_FlowStatsRequest m -> reads (enc_FlowStatsRequest m) ->
        decides cookie_AggregateStatsRequest (FlowStatsRequest_Cookie m)).
Proof.
  intros want r reads decides. split; [|split; [|split]]; intros m W H; eexists.
  - unfold cookie_FlowMod. rewrite (decided_at _ _ _ 0 want r _ pos_FlowMod H) by apply removed_as_mod, W.
    pose proof (own_num jar_FlowRemoved 0 m ltac:(destruct m; reflexivity) (at_FlowRemoved m) (proj1 W)) as N.
    cbn [jar_FlowRemoved jenc jget] in N. rewrite N. reflexivity.
  - unfold cookie_FlowRemoved. rewrite (decided_at _ _ _ 0 want r _ pos_FlowRemoved H) by apply mod_as_removed, W.
    pose proof (own_num jar_FlowMod 0 m ltac:(destruct m; reflexivity) (at_FlowMod m) (proj1 W)) as N.
    cbn [jar_FlowMod jenc jget] in N. rewrite N. reflexivity.
  - unfold cookie_FlowStatsRequest. rewrite (decided_at _ _ _ 16 want r _ pos_FlowStatsRequest H) by apply aggregate_as_flow, W.
    assert (F : fits 8 (AggregateStatsRequest_Cookie m)) by apply W.
    pose proof (own_num jar_AggregateStatsRequest 16 m ltac:(destruct m; reflexivity) (at_AggregateStatsRequest m) F) as N.
    cbn [jar_AggregateStatsRequest jenc jget] in N. rewrite N. reflexivity.
  - unfold cookie_AggregateStatsRequest. rewrite (decided_at _ _ _ 16 want r _ pos_AggregateStatsRequest H) by apply flow_as_aggregate, W.
    assert (F : fits 8 (FlowStatsRequest_Cookie m)) by apply W.
    pose proof (own_num jar_FlowStatsRequest 16 m ltac:(destruct m; reflexivity) (at_FlowStatsRequest m) F) as N.
    cbn [jar_FlowStatsRequest jenc jget] in N. rewrite N. reflexivity.
Qed.
Print Assumptions C91_siblings.

(** A packet-in is accepted by such a matcher only if its buffer, length, reason
    and table happen to spell the cookie; its own cookie is not looked at. *)
Theorem C91_packet_in : forall want r m r', wf_PacketIn m -> readall_body (Request_Body r) = (enc_PacketIn m, None) ->
  cookie_match cookie_FlowMod want r = Says true r' \/ cookie_match cookie_FlowRemoved want r = Says true r' ->
  want = (PacketIn_Buffer m * 4294967296 + PacketIn_Length m * 65536 + PacketIn_Reason m * 256 + PacketIn_Table m)%N.
Proof.
  intros want r m r' W H D. rewrite <- (num_PacketIn m W). unfold cookie_FlowMod, cookie_FlowRemoved in D.
  destruct D as [D|D]; symmetry.
  - exact (proj2 (accepted_at _ _ _ 0 want r _ r' pos_FlowMod H D)).
  - exact (proj2 (accepted_at _ _ _ 0 want r _ r' pos_FlowRemoved H D)).
Qed.
Print Assumptions C91_packet_in.

(** The statistics requests travel behind the header of a multipart request, the
    flow statistics behind that of a multipart reply.  There a matcher does not
    find the cookie: what it accepts as cookie is another part of the message. *)
Theorem C91_multipart : forall want r r' t f,
  let reads bs := readall_body (Request_Body r) = (be_enc 2 t ++ be_enc 2 f ++ zeros 4 ++ bs, None) in
  (forall m, wf_FlowStatsRequest m -> reads (enc_FlowStatsRequest m) ->
     cookie_match cookie_FlowStatsRequest want r = Says true r' ->
     want = FlowStatsRequest_OutGroup m * 4294967296)%N
  /\ (forall m, wf_AggregateStatsRequest m -> reads (enc_AggregateStatsRequest m) ->
     cookie_match cookie_AggregateStatsRequest want r = Says true r' ->
     want = AggregateStatsRequest_OutGroup m * 4294967296)%N
  /\ (forall m, wf_FlowStats m -> reads (enc_FlowStats m) ->
     cookie_match cookie_FlowStats want r = Says true r' ->
     want = FlowStats_HardTimeout m * 281474976710656 + FlowStats_Flags m * 4294967296)%N.
Proof.
  intros want r r' t f reads. unfold cookie_FlowStatsRequest, cookie_AggregateStatsRequest, cookie_FlowStats.
  split; [|split]; intros m W H D.
  - rewrite <- (num_FlowStatsRequest t f m W). symmetry. exact (proj2 (accepted_at _ _ _ 16 want r _ r' pos_FlowStatsRequest H D)).
  - rewrite <- (num_AggregateStatsRequest t f m W). symmetry. exact (proj2 (accepted_at _ _ _ 16 want r _ r' pos_AggregateStatsRequest H D)).
  - rewrite <- (num_FlowStats t f m W). symmetry. exact (proj2 (accepted_at _ _ _ 24 want r _ r' pos_FlowStats H D)).
Qed.
Print Assumptions C91_multipart.

(** So a cookie matcher neither finds the messages with its cookie nor keeps to them. *)
Theorem C91_cookie_refuted :
  let got x := MkRequest (MkHeader 4 10 0 0) (BBuf x) 1 3 0 in
  let quiet x := set_body (BBuf []) (got x) in
  (exists p, PacketIn_Cookie p = 77%N /\ cookie_match cookie_FlowMod 77 (got (enc_PacketIn p)) = Says false (quiet (enc_PacketIn p)))
  /\ (exists p, PacketIn_Cookie p <> 77%N /\ cookie_match cookie_FlowRemoved 77 (got (enc_PacketIn p)) = Says true (quiet (enc_PacketIn p)))
  /\ (exists q, FlowStatsRequest_Cookie q = 77%N
        /\ let x := be_enc 2 1 ++ be_enc 2 0 ++ zeros 4 ++ enc_FlowStatsRequest q in
           cookie_match cookie_FlowStatsRequest 77 (got x) = Says false (quiet x)).
Proof.
  cbv zeta. split; [|split].
  - exists (MkPacketIn 0 0 0 0 77 (MkMatch 1 []) []). split; vm_compute; reflexivity.
  - exists (MkPacketIn 0 0 0 77 5 (MkMatch 1 []) ([x00; x00; x00; x00; x00; x00] ++ repeat x00 8 ++ [x00; x01; x00; x04; x00; x00; x00; x00])).
    split; [vm_compute; discriminate|vm_compute; reflexivity].
  - exists (MkFlowStatsRequest 0 0 9 77 0 (MkMatch 1 [])). split; vm_compute; reflexivity.
Qed.
Print Assumptions C91_cookie_refuted.

Example C91_ex :
  let m := MkFlowRemoved 1 2 3 4 5 6 7 8 9 10 (MkMatch 1 [MkXM 32768 0 [x00; x00; x00; x03] []]) in
  let '(m', matcher) := new_cookie_matcher jar_FlowRemoved 5 7 m in
  let r x := MkRequest (MkHeader 4 11 0 0) (BBuf x) 1 3 0 in
  wf_FlowRemoved m /\ FlowRemoved_Cookie m' = 30064771077%N
  /\ matcher (r (enc_FlowRemoved m')) = Says true (r [])
  /\ matcher (r (enc_FlowRemoved m)) = Says false (r []).
Proof.
  split; [repeat split; try (cbn; lia); repeat constructor; cbn; auto; lia|].
  repeat split; vm_compute; reflexivity.
Qed.
