(** How the multiplexer with its lock relates to the multiplexer without. *)
From Verif Require Import MuxModel.
From Verif Require Import LockModel.

(** The same operations on the multiplexer of MuxModel: matcher [p] is a pointer, its
    handler has the same number, [ask r] is the request meant by the number [r]. *)
Definition same_op (ask : nat -> Request) (o : lop) : mop :=
  match o with LRegister p once => OHandle (Some (KPtr p)) (Some p) once | LServe r => OServe (ask r) end.

Definition same_entry (e : MuxModel.entry) (x : entry) : Prop := e = MkEntry (KPtr (fst x)) (fst x) (snd x) (eid e).

(** The matcher is among the entries. *)
Definition present (p : nat) (es : list entry) : Prop := exists once, In (p, once) es.

(** The same outcome. *)
Definition same_end (y : nat * outcome) (z : nat * done) : Prop :=
  fst y = fst z /\
  match snd z with
  | Found None => exists r snap, snd y = Served r snap NoMatch r
  | Found (Some x) => snd x = false /\ exists r snap e, snd y = Served r snap (Chosen e) r /\ same_entry e x
  | Wrote (Add p once) before =>
      present p before /\ snd y = Registered Duplicate
      \/ ~ present p before /\ exists e, snd y = Registered (RegOk e) /\ same_entry e (p, once)
  | Wrote (Remove p) before => exists r snap,
      present p before /\ (exists e, snd y = Served r snap (Chosen e) r /\ same_entry e (p, true))
      \/ ~ present p before /\ snd y = Served r snap Lost r
  end.
