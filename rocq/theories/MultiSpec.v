(** Matchers put together from others. *)
From Verif Require Import MuxModel MuxSpec CookieModel.

(** A matcher that decides by the header, as TypeMatcher and TransactionMatcher do. *)
Definition by_header (m : Request -> verdict) : Prop := exists f, forall r, m r = Says (f (Request_Header r)) r.

(** The readers of cookies in the library. *)
Definition library_reader (d : bytes -> N + err) : Prop :=
  In d [cookie_PacketIn; cookie_AggregateStatsRequest; cookie_FlowMod; cookie_FlowRemoved; cookie_FlowStatsRequest; cookie_FlowStats].

(** A part: decides by the header or is a CookieMatcher. *)
Definition part (m : Request -> verdict) : Prop := by_header m \/ exists d w, forall r, m r = cookie_match d w r.

Definition yes (m : Request -> verdict) (r : Request) : bool := match m r with Says b _ => b | Panics => false end.

(** The entry has a MultiMatcher of parts that decide by the header and one CookieMatcher. *)
Definition tracks (fs : nat -> Request -> verdict) (e : entry) (front : list (Request -> verdict)) (d : bytes -> N + err) (w : N)
    (back : list (Request -> verdict)) : Prop :=
  exists p, ekey e = KPtr p /\ library_reader d /\ Forall by_header front /\ Forall by_header back
    /\ forall q, fs p q = multi_match (front ++ cookie_match d w :: back) q.

(** No matcher that is registered touches request [r]. *)
Definition untouched_by (fs : nat -> Request -> verdict) (prog : nat -> list mop) (r : Request) : Prop :=
  forall i k h once, In (OHandle (Some k) h once) (prog i) -> exists b, asked fs k r = Says b r.
