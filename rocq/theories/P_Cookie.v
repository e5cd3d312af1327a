(** C28: the decision of a CookieMatcher. *)
From Verif Require Import CookieFacts.

(** The six readers of the library. *)
Definition cookie_messages : list (bytes -> N + err) :=
  [cookie_PacketIn; cookie_AggregateStatsRequest; cookie_FlowMod; cookie_FlowRemoved; cookie_FlowStatsRequest;
   cookie_FlowStats].

(** C28: accepted exactly when the body decodes and carries the cookie, for any
    message type. *)
Theorem C28_accepts_iff : forall A (dec : step A) zero cookie want r x,
  readall_body (Request_Body r) = (x, None) ->
  (exists r', cookie_match (read_cookie dec zero cookie) want r = Says true r')
  <-> exists m n tl, dec zero x = Res m n None tl /\ cookie m = want.
Proof. intros. apply decision. assumption. Qed.
Print Assumptions C28_accepts_iff.

(** C28: a body that cannot be read is not accepted. *)
Theorem C28_unreadable_rejected : forall decode want r x e,
  Request_Body r <> BNil -> readall_body (Request_Body r) = (x, Some e) ->
  exists r', cookie_match decode want r = Says false r'.
Proof. intros decode want r x e N H. rewrite (cookie_match_err _ _ _ _ _ N H). eauto. Qed.
Print Assumptions C28_unreadable_rejected.

(** C28: a message of the library, sent by the peer, is accepted exactly when its
    cookie is the configured one. *)
Theorem C28_sent_message : forall want r,
  let reads bs := readall_body (Request_Body r) = (bs, None) in
  let decides reader c := exists r', cookie_match reader want r = Says (c =? want)%N r' in
  (forall m, wf_PacketIn m -> reads (enc_PacketIn m) -> decides cookie_PacketIn (PacketIn_Cookie m))
  /\ (forall m, wf_AggregateStatsRequest m -> reads (enc_AggregateStatsRequest m) ->
        decides cookie_AggregateStatsRequest (AggregateStatsRequest_Cookie m))
  /\ (forall m, wf_FlowMod m -> reads (enc_FlowMod m) -> decides cookie_FlowMod (FlowMod_Cookie m))
  /\ (forall m, wf_FlowRemoved m -> reads (enc_FlowRemoved m) -> decides cookie_FlowRemoved (FlowRemoved_Cookie m))
  /\ (forall m, wf_FlowStatsRequest m -> reads (enc_FlowStatsRequest m) ->
        decides cookie_FlowStatsRequest (FlowStatsRequest_Cookie m))
  /\ (forall m, wf_FlowStats m -> reads (enc_FlowStats m) -> decides cookie_FlowStats (FlowStats_Cookie m)).
Proof.
  intros want r reads decides.
  repeat (split; [intros m W H; refine (cookie_whole _ _ _ want r _ m _ H)|]);
    try (intros m W H; refine (cookie_whole _ _ _ want r _ m _ H)).
  - apply whole_PacketIn, W.
  - apply rt_whole, rt_AggregateStatsRequest, W.
  - apply whole_FlowMod, W.
  - apply rt_whole, rt_FlowRemoved, W.
  - apply rt_whole, rt_FlowStatsRequest, W.
  - apply rt_whole, rt_FlowStats, W.
Qed.
Print Assumptions C28_sent_message.

Example C28_sent_message_ex :
  let m := MkFlowRemoved 77 2 3 4 5 6 7 8 9 10 (MkMatch 1 [MkXM 32768 0 [x00; x00; x00; x03] []]) in
  let r := MkRequest (MkHeader 4 11 0 0) (BBuf (enc_FlowRemoved m)) 1 3 0 in
  wf_FlowRemoved m /\ cookie_match cookie_FlowRemoved 77 r = Says true (set_body (BBuf []) r)
  /\ cookie_match cookie_FlowRemoved 78 r = Says false (set_body (BBuf []) r).
Proof.
  split; [|split; vm_compute; reflexivity]. repeat split; try (cbn; lia); repeat constructor; cbn; auto; lia.
Qed.

(** C28: the cookie of NewCookieMatcher is the one put into the jar: a 64-bit value
    made of both random halves. *)
Theorem C28_new_cookie : forall low high, fits 4 low -> fits 4 high ->
  fits 8 (new_cookie low high)
  /\ (new_cookie low high mod 4294967296 = low)%N /\ (new_cookie low high / 4294967296 = high)%N.
Proof.
  intros low high L H. split; [apply new_cookie_fits; assumption|]. rewrite new_cookie_eq by exact L.
  unfold fits in L. change (256 ^ N.of_nat 4)%N with 4294967296%N in L.
  split; symmetry; [apply N.mod_unique with high|apply N.div_unique with low]; lia.
Qed.
Print Assumptions C28_new_cookie.

Example C28_new_cookie_ex : new_cookie 5 7 = 30064771077%N.
Proof. reflexivity. Qed.

(** C28: four of the six messages never make the matcher panic, whatever the body. *)
Theorem C28_never_panics : forall reader want r,
  In reader [cookie_PacketIn; cookie_AggregateStatsRequest; cookie_FlowRemoved; cookie_FlowStatsRequest] ->
  Request_Body r <> BNil -> exists b r', cookie_match reader want r = Says b r'.
Proof.
  intros reader want r H N. destruct (cookie_match reader want r) as [b r'|] eqn:E; [eauto|exfalso]. revert E.
  pose proof panic_unusual as U.
  destruct H as [<-|[<-|[<-|[<-|[]]]]]; apply calm; try exact N.
  - apply never_PacketIn, U.
  - apply never_AggregateStatsRequest, U.
  - apply never_FlowRemoved, U.
  - apply never_FlowStatsRequest, U.
Qed.
Print Assumptions C28_never_panics.

Example C28_never_panics_ex :
  let r := MkRequest (MkHeader 4 11 0 0) (BBuf [x00; x1b; xff]) 1 3 0 in
  cookie_match cookie_FlowRemoved 0 r = Says false (set_body (BBuf []) r).
Proof. vm_compute. reflexivity. Qed.

(** C28: decoding always ends. *)
Theorem C28_decision_ends : forall reader x, In reader cookie_messages -> reader x <> inr EFuel.
Proof.
  pose proof fuel_unusual as U.
  assert (K : forall A (dec : step A) zero cookie x, never EFuel dec -> read_cookie dec zero cookie x <> inr EFuel).
  { intros A dec zero cookie x P. unfold read_cookie. specialize (P zero x).
    destruct (fail (dec zero x)) as [e|]; congruence. }
  intros reader x H. destruct H as [<-|[<-|[<-|[<-|[<-|[<-|[]]]]]]]; apply K.
  - apply never_PacketIn, U.
  - apply never_AggregateStatsRequest, U.
  - apply neverfuel_FlowMod.
  - apply never_FlowRemoved, U.
  - apply never_FlowStatsRequest, U.
  - apply neverfuel_FlowStats.
Qed.
Print Assumptions C28_decision_ends.

(** C28: any flow modification followed by an apply or write instruction that
    contains a pop PBB action makes the matcher panic, whatever the cookie. *)
Theorem C28_flowmod_panics : forall want r m acts b tl t, wf_FlowMod m -> Forall wf_Action acts ->
  2 <= length b -> num 0 2 b = 27%N -> (t = 3 \/ t = 4)%N -> (N.of_nat (actions_size acts + length b) < 65536)%N ->
  readall_body (Request_Body r)
  = (enc_FlowMod m ++ be_enc 2 t ++ be_enc 2 (N.of_nat (8 + (actions_size acts + length b))) ++ zeros 4
      ++ (enc_Actions acts ++ b) ++ tl, None) ->
  cookie_match cookie_FlowMod want r = Panics.
Proof.
  intros want r m acts b tl t W WA L P T S H.
  destruct (decision dec_FlowMod zero_FlowMod FlowMod_Cookie want r _ H) as [D _]. apply D.
  apply flowmod_panic; assumption.
Qed.
Print Assumptions C28_flowmod_panics.

(** Two messages make the matcher panic. *)
Theorem C28_no_panic_refuted : forall want, exists x y,
  let r z := MkRequest (MkHeader 4 11 0 0) (BBuf z) 1 3 0 in
  cookie_match cookie_FlowMod want (r x) = Panics /\ cookie_match cookie_FlowStats want (r y) = Panics.
Proof.
  intro want.
  exists (enc_FlowMod (set_FlowMod_Match (MkMatch 1 []) zero_FlowMod) ++ be_enc 2 4 ++ be_enc 2 16 ++ zeros 4 ++ be_enc 2 27 ++ be_enc 2 8 ++ zeros 4).
  exists (be_enc 2 72 ++ zeros 46 ++ enc_Match (MkMatch 1 []) ++ be_enc 2 4 ++ be_enc 2 16 ++ zeros 4 ++ be_enc 2 27 ++ be_enc 2 8 ++ zeros 4).
  cbv zeta. split; vm_compute; reflexivity.
Qed.
Print Assumptions C28_no_panic_refuted.

(** A request without body panics, whatever the reader. *)
Theorem C28_nil_body_panics : forall decode want r, Request_Body r = BNil -> cookie_match decode want r = Panics.
Proof. intros decode want r H. unfold cookie_match. rewrite H. reflexivity. Qed.
Print Assumptions C28_nil_body_panics.

(** C29: a payload that fails after writing something is not accepted, but the failure is
    forgotten: the request is left with at most 512 bytes of what was written, and that is
    what the next matcher decides on. *)
Theorem C29_failed_payload : forall decode want t w e, perr w = Some e -> pbytes w <> [] ->
  exists r', cookie_match decode want (new_request t (Some w)) = Says false r'
  /\ Request_Body r' = BBuf (firstn 512 (pbytes w)) /\ Request_Header r' = Request_Header (new_request t (Some w))
  /\ forall decode' want', decode' (firstn 512 (pbytes w)) <> inr EPanic ->
     exists r'', cookie_match decode' want' r'
       = Says (match decode' (firstn 512 (pbytes w)) with inl c => (c =? want')%N | inr _ => false end) r''.
Proof.
  intros decode want t w e E P. unfold cookie_match at 1. cbn [new_request Request_Body readall_body copy_write]. rewrite E.
  destruct (pbytes w) as [|x l]; [congruence|]. set (b := firstn 512 (x :: l)). clearbody b.
  eexists. split; [reflexivity|]. split; [reflexivity|]. split; [reflexivity|]. intros decode' want' N.
  unfold cookie_match. cbn [set_body Request_Body]. destruct (decode' b) as [c|e'] eqn:D; [eauto|].
  destruct e'; try congruence; eauto.
Qed.
Print Assumptions C29_failed_payload.

(** C29: a payload that fails without writing anything is decided on as an empty body. *)
Theorem C29_silent_payload : forall decode want t w e, perr w = Some e -> pbytes w = [] -> decode [] <> inr EPanic ->
  exists r', cookie_match decode want (new_request t (Some w))
    = Says (match decode [] with inl c => (c =? want)%N | inr _ => false end) r' /\ Request_Body r' = BBuf [].
Proof.
  intros decode want t w e E P N. unfold cookie_match. cbn [new_request Request_Body readall_body copy_write]. rewrite E, P.
  destruct (decode []) as [c|e'] eqn:D; [eauto|]. destruct e'; try congruence; eauto.
Qed.
Print Assumptions C29_silent_payload.

(** So the same matcher can refuse a request and accept it when asked again. *)
Theorem C29_failed_payload_stays_refused_refuted : exists t w want r' r'', perr w <> None
  /\ cookie_match cookie_FlowRemoved want (new_request t (Some w)) = Says false r'
  /\ cookie_match cookie_FlowRemoved want r' = Says true r''.
Proof.
  pose (x := be_enc 8 7 ++ zeros 32 ++ [x00; x01; x00; x04; x00; x00; x00; x00]). pose (r := new_request 11 (Some (MkPayload x (Some UnexpectedEOF)))).
  exists 11%N, (MkPayload x (Some UnexpectedEOF)), 7%N, (set_body (BBuf x) r), (set_body (BBuf []) r).
  split; [discriminate|]. split; vm_compute; reflexivity.
Qed.
Print Assumptions C29_failed_payload_stays_refused_refuted.

Example C29_failed_payload_ex :
  let r := new_request 10 (Some (MkPayload (zeros 500 ++ be_enc 8 1 ++ be_enc 8 2) (Some UnexpectedEOF))) in
  let q := new_request 10 (Some (MkPayload [] (Some UnexpectedEOF))) in
  cookie_match cookie_PacketIn 3 r = Says false (set_body (BBuf (zeros 500 ++ be_enc 8 1 ++ zeros 4)) r)
  /\ cookie_match cookie_PacketIn 0 q = Says false (set_body (BBuf []) q).
Proof. vm_compute. split; reflexivity. Qed.
