(** Requests whose replies are awaited by one-shot handlers. *)
From Verif Require Import MuxModel MuxSpec.

Definition xid (r : Request) : N := Header_Transaction (Request_Header r).

(** The messages handed to the handlers registered under the matcher [k]. *)
Definition given (k : mkey) (s : mux) : list Request :=
  flat_map (fun x => match snd x with
                     | Served r _ (Chosen e) _ => if same_key (ekey e) k then [r] else []
                     | _ => [] end) (mresults s).

(** A message with transaction [x] was dispatched while [e] was registered. *)
Definition arrived (e : entry) (x : N) (s : mux) : Prop :=
  exists i r snap c r', In (i, Served r snap c r') (mresults s) /\ xid r = x /\ In e snap.

(** [e] waits for transaction [x], and nothing else does. *)
Definition waits (fs : nat -> Request -> verdict) (s : mux) (e : entry) (x : N) : Prop :=
  In e (registrations s) /\ eonce e = true /\ count (ekey e) (registrations s) = 1
  /\ (forall r, accepts fs e r <-> xid r = x)
  /\ forall e' r, In e' (registrations s) -> accepts fs e' r -> xid r = x -> e' = e.

(** Pointer matcher [p] was made by TransactionMatcher for the header [hdr p], the
    random number generator giving [draw p]; the transaction it stands for is
    the one in the header afterwards. *)
Definition from_header (draw : nat -> N) (hdr : nat -> Header) (fs : nat -> Request -> verdict) (p : nat) : Prop :=
  forall r, fs p r = snd (transaction_matcher (draw p) (hdr p)) r.
Definition awaited (draw : nat -> N) (hdr : nat -> Header) (p : nat) : N :=
  Header_Transaction (fst (transaction_matcher (draw p) (hdr p))).
