(** Requests sent to a server and replies dispatched to the callbacks that wait. *)
From Verif Require Import RequestSpec MuxModel MuxSpec PairSpec SessionModel.

(** The dispatch of [r] by thread [i] was completed. *)
Definition dispatched (s : mux) (i : nat) (r : Request) : Prop :=
  exists snap c r', In (i, Served r snap c r') (mresults s).

(** The message a thread is dispatching. *)
Definition in_hand (m : mpc) : option Request :=
  match m with MScan _ _ r _ => Some r | MTaking _ _ r _ => Some r | _ => None end.

(** No dispatch has begun. *)
Definition quiet (s : mux) : Prop :=
  (forall i, in_hand (mat (mthreads s i)) = None) /\ forall i r, ~ dispatched s i r.

(** All threads have done all they had to do. *)
Definition finished (s : mux) : Prop := forall i, mat (mthreads s i) = MIdle /\ mtodo (mthreads s i) = [].

(** [q] is a request with the header TransactionMatcher returned for [hdr], and content [b]. *)
Definition asks (draw : nat -> N) (hdr : nat -> Header) (p : nat) (q : Request) (b : bytes) : Prop :=
  Request_Header q = fst (transaction_matcher (draw p) (hdr p))
  /\ content (Request_Body q) = (b, None) /\ (lenN b <= 65527)%N
  /\ ranges (Header_Version (hdr p)) (Header_Type (hdr p)) (awaited draw hdr p).

(** The handler answers [q] with one reply of version [v] (0: that of the request),
    type [t] and content [b], under the transaction of the request. *)
Definition answers_with (f : Request -> list (Header * option payload)) (q : Request) (v t : N) (b : bytes) : Prop :=
  exists hd pl, f q = [(hd, pl)] /\ Header_Version hd = v /\ Header_Type hd = t /\ Header_Transaction hd = xid q
    /\ content (BCopy pl [] None false) = (b, None) /\ (lenN b <= 65527)%N /\ fits 1 v /\ fits 1 t.
