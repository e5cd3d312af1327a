(** Model of the cookie readers of cookie.go over the messages of ofp that carry
    a cookie. *)
From Verif Require Export FlowModel MuxModel.

(** CookieReaderOf and ReadCookie, cookie.go:103-123: a zero value of the type is
    decoded from the body; bytes left over are not looked at.  [cookie] is the
    method Cookies of the type. *)
Definition read_cookie {A} (dec : step A) (zero : A) (cookie : A -> N) (x : bytes) : N + err :=
  let r := dec zero x in
  match fail r with None => inl (cookie (val r)) | Some e => inr e end.

(** The readers of the types with a method Cookies: ofp/packet.go:94,
    ofp/aggregate.go:54, ofp/flow.go:214, 310, 381, 450. *)
Definition cookie_PacketIn := read_cookie dec_PacketIn zero_PacketIn PacketIn_Cookie.
Definition cookie_AggregateStatsRequest :=
  read_cookie dec_AggregateStatsRequest zero_AggregateStatsRequest AggregateStatsRequest_Cookie.
Definition cookie_FlowMod := read_cookie dec_FlowMod zero_FlowMod FlowMod_Cookie.
Definition cookie_FlowRemoved := read_cookie dec_FlowRemoved zero_FlowRemoved FlowRemoved_Cookie.
Definition cookie_FlowStatsRequest :=
  read_cookie dec_FlowStatsRequest zero_FlowStatsRequest FlowStatsRequest_Cookie.
Definition cookie_FlowStats := read_cookie dec_FlowStats zero_FlowStats FlowStats_Cookie.
