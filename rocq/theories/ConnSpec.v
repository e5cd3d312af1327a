(** What a shared connection promises, in terms of programs, results and wire. *)
From Verif Require Import WireSpec RequestSpec.
From Verif Require Import ConnModel.

Definition prefix {A} (a b : list A) : Prop := exists c, b = a ++ c.

(** The message an operation contributes: the frame of a request that
    serialises, the reply bytes, nothing for a flush or a failing request. *)
Definition message (o : op) : list bytes :=
  match o with
  | OSend r => match outgoing r with inl p => [p] | inr _ => [] end
  | OReply p => [p]
  | OFlush => []
  end.

(** The messages of goroutine [i] in an order of messages tagged by goroutine. *)
Definition own (i : nat) (order : list (nat * bytes)) : list bytes :=
  map snd (filter (fun x => fst x =? i) order).

Definition flushing (o : op) : bool := match o with OSend _ => false | _ => true end.

(** The bytes on the wire and the failure state of the buffer of a connection. *)
Definition on_wire (c : conn) : bytes := wire (btr (cbw c)).
Definition failure (c : conn) : option err := berr (cbw c).
(** Bytes accepted and not yet on the wire. *)
Definition unsent (c : conn) : bytes := bbuf (cbw c).

(** Operations whose failure comes from the connection. *)
Definition touching (o : op) : Prop := o = OFlush \/ message o <> [].

(** Goroutine [i] has something left to do. *)
Definition busy (s : sys) (i : nat) : Prop := todo (threads s i) <> [] \/ at_ (threads s i) <> Idle.

(** The operation of a goroutine as an event of a sequential history. *)
Definition as_event (o : op) : event :=
  match o with OSend r => Sending r | OFlush => Flushing | OReply p => Replying p end.

(** [f] is the frame of request [r]. *)
Definition frame_for (f : bytes) (r : Request) : Prop :=
  let h := Request_Header r in
  exists b, content (Request_Body r) = (b, None)
    /\ is_frame f (Header_Version h) (Header_Type h) (Header_Transaction h) b.

(** Time passed in a history, and whether it contains a Send. *)
Definition elapsed (l : list event) : Z :=
  fold_right (fun v z => match v with Passing d => (Z.abs d + z)%Z | _ => z end) 0%Z l.
Definition is_sending (v : event) : bool := match v with Sending _ => true | _ => false end.
Definition is_passing (v : event) : bool := match v with Passing _ => true | _ => false end.
