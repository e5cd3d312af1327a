(** What a server promises, in terms of its trace of visible actions. *)
From Verif Require Import ServerModel.

Definition conn_of (e : event) : nat :=
  match e with EState c _ => c | ECall c _ _ => c | EReturn c _ => c | EFlush c => c | EClose c => c end.

(** The visible actions on connection [c]. *)
Definition story (c : nat) (s : server) : list event := filter (fun e => conn_of e =? c) (trace s).

(** The whole story of a request, of a connection that is served until its
    stream ends, of one that is turned away. *)
Definition request_story (c : nat) (q : Request) : list event :=
  [EState c (if (Header_Type (Request_Header q) =? 0)%N then StateHandshake else StateActive);
   ECall c (MkWriter c (Header_Version (Request_Header q)) (Header_Transaction (Request_Header q))) q; EReturn c q; EFlush c; EState c StateIdle].
Definition served_story (c : nat) (ms : list Request) : list event :=
  EState c StateNew :: flat_map (request_story c) ms ++ [EState c StateClosed; EClose c].
Definition rejected_story (c : nat) : list event := [EState c StateNew; EState c StateClosed; EClose c].

(** The state callbacks in a story. *)
Definition states (l : list event) : list cstate :=
  flat_map (fun e => match e with EState _ x => [x] | _ => [] end) l.

(** The documented life cycle as an automaton: [None] is "not connected yet". *)
Definition life (p : option cstate) (x : cstate) : bool :=
  match p, x with
  | None, StateNew => true
  | Some StateNew, (StateHandshake | StateActive | StateClosed) => true
  | Some (StateHandshake | StateActive), StateIdle => true
  | Some StateIdle, (StateHandshake | StateActive | StateClosed) => true
  | _, _ => false
  end.
Fixpoint lives (p : option cstate) (l : list cstate) : bool :=
  match l with [] => true | x :: l' => life p x && lives (Some x) l' end.

(** The requests given to the handler for connection [c], in order. *)
Definition calls (l : list event) : list Request := flat_map (fun e => match e with ECall _ _ q => [q] | _ => [] end) l.

(** Connections that are being served: their serve goroutine runs and has not
    seen the end of the stream. *)
Definition being_served (x : cn) : bool :=
  match cserve x with VWait | VReq _ _ => true | _ => false end.
Definition served (s : server) : nat := length (filter being_served (cns s)).

(** Connections counted by the server: from the decision to serve them until
    their stream has ended and the counter was lowered. *)
Definition counted (x : cn) : bool := match cserve x with VWait | VReq _ _ | VDec => true | _ => false end.
Definition spawning (p : accepting) : bool := match p with LSpawn _ => true | _ => false end.
Definition accounted (s : server) : nat := length (filter counted (cns s)) + length (filter spawning (loops s)).

(** [sch] consists of moves other than accepting a new connection, each of which
    does something. *)
Definition arrival (m : move) (s : server) : bool :=
  match m with
  | MLoop k _ => match nth_error (loops s) k with Some LIdle => true | _ => false end
  | _ => false
  end.
Fixpoint productive (sch : list move) (s : server) : Prop :=
  match sch with
  | [] => True
  | m :: l => arrival m s = false /\ (exists s', sstep m s = Some s' /\ productive l s')
  end.

(** Nothing is left to do but to wait for new connections. *)
Definition settled (s : server) : Prop := forall m, arrival m s = false -> sstep m s = None.

(** The messages peer [c] sends. *)
Definition sent (c : nat) (s : server) (ms : list Request) : Prop :=
  exists x, nth_error (cns s) c = Some x /\ cmsgs x = ms.

(** One list begins another. *)
Definition begins {A} (a b : list A) : Prop := exists t, a ++ t = b.
