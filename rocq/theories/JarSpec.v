(** The messages with a cookie and where OpenFlow 1.3 puts it. *)
From Verif Require Export JarModel FlowSpec.

(** A jar whose messages satisfying [wf] carry the cookie at [off]. *)
Inductive placed_jar := PlacedJar A (J : jar A) (wf : A -> Prop) (off : nat).

Definition placed_jars : list placed_jar :=
  [PlacedJar _ jar_PacketIn wf_PacketIn 8;
   PlacedJar _ jar_AggregateStatsRequest wf_AggregateStatsRequest 16;
   PlacedJar _ jar_FlowMod wf_FlowMod 0;
   PlacedJar _ jar_FlowRemoved wf_FlowRemoved 0;
   PlacedJar _ jar_FlowStatsRequest wf_FlowStatsRequest 16;
   PlacedJar _ jar_FlowStats wf_FlowStats 24].

(** [x] and [y] differ at most in the [w] bytes at [off]. *)
Definition same_but (off w : nat) (x y : bytes) : Prop :=
  length x = length y /\ firstn off x = firstn off y /\ skipn (off + w) x = skipn (off + w) y.

(** NewCookieMatcher changes nothing of the message but the eight bytes of its
    cookie; the matcher accepts the message and decides every other message of
    the type by its cookie. *)
Definition well_matched (p : placed_jar) : Prop :=
  let '(PlacedJar A J wf off) := p in
  forall low high m, (low < 4294967296)%N -> (high < 4294967296)%N -> wf m ->
  let '(m', matcher) := new_cookie_matcher J low high m in
  wf m' /\ jget J m' = (high * 4294967296 + low)%N
  /\ same_but off 8 (jenc J m) (jenc J m')
  /\ (forall r, readall_body (Request_Body r) = (jenc J m', None) -> exists r', matcher r = Says true r')
  /\ forall n r, wf n -> readall_body (Request_Body r) = (jenc J n, None) ->
       exists r', matcher r = Says (jget J n =? high * 4294967296 + low)%N r'.

(** A matcher for cookie [want] accepts only bodies with [want] at the place of
    the cookie, whatever the message was meant to be. *)
Definition looks_at_place (p : placed_jar) : Prop :=
  let '(PlacedJar A J wf off) := p in
  forall want r x r', readall_body (Request_Body r) = (x, None) ->
  cookie_match (read_cookie (jdec J) (jzero J) (jget J)) want r = Says true r' ->
  off + 8 <= length x /\ want = be_dec (firstn 8 (skipn off x)).
