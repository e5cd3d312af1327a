(** Model of NewCookieMatcher (cookie.go:50-65) over the messages of ofp that
    can be cookie jars. *)
From Verif Require Export CookieModel.

(** A type of messages with the methods of CookieJar (cookie.go:12-16), WriteTo
    and ReadFrom. *)
Record jar A := MkJar { jenc : A -> bytes; jdec : step A; jzero : A; jget : A -> N; jset : N -> A -> A }.
Arguments jenc {A}. Arguments jdec {A}. Arguments jzero {A}. Arguments jget {A}. Arguments jset {A}.

(** NewCookieMatcher: [low] and [high] are the values of rand.Uint32; returns the
    message as the caller sees it afterwards and the matcher. *)
Definition new_cookie_matcher {A} (J : jar A) (low high : N) (m : A) : A * (Request -> verdict) :=
  let c := new_cookie low high in
  (jset J c m, cookie_match (read_cookie (jdec J) (jzero J) (jget J)) c).

(** Cookies and SetCookies: ofp/packet.go:94-101, ofp/aggregate.go:54-62,
    ofp/flow.go:214-221, 310-317, 381-389, 450-458. *)
Definition jar_PacketIn := MkJar _ enc_PacketIn dec_PacketIn zero_PacketIn PacketIn_Cookie set_PacketIn_Cookie.
Definition jar_AggregateStatsRequest :=
  MkJar _ enc_AggregateStatsRequest dec_AggregateStatsRequest zero_AggregateStatsRequest
    AggregateStatsRequest_Cookie set_AggregateStatsRequest_Cookie.
Definition jar_FlowMod := MkJar _ enc_FlowMod dec_FlowMod zero_FlowMod FlowMod_Cookie set_FlowMod_Cookie.
Definition jar_FlowRemoved :=
  MkJar _ enc_FlowRemoved dec_FlowRemoved zero_FlowRemoved FlowRemoved_Cookie set_FlowRemoved_Cookie.
Definition jar_FlowStatsRequest :=
  MkJar _ enc_FlowStatsRequest dec_FlowStatsRequest zero_FlowStatsRequest
    FlowStatsRequest_Cookie set_FlowStatsRequest_Cookie.
Definition jar_FlowStats := MkJar _ enc_FlowStats dec_FlowStats zero_FlowStats FlowStats_Cookie set_FlowStats_Cookie.
