(** Independent statement of what reading a message may lead to. *)
From Verif Require Import Encoding.

(** The errors a decoder of messages may report: no data, too little data, an
    element of an unknown type. *)
Definition reportable (e : err) : Prop :=
  e = EOF \/ e = UnexpectedEOF \/ exists t, e = EUnknown t.

(** The type of a pop PBB action, 27, somewhere among the bytes. *)
Definition mentions_pop_pbb (b : bytes) : Prop := exists p q, b = p ++ [x00; x1b] ++ q.

(** A decoder of some type of values. *)
Inductive decoder := Decoder (A : Type) (rd : step A).

(** Whatever value it is given and whatever the bytes, the decoder returns, leaves
    a tail of the bytes and reports no other errors. *)
Definition orderly (r : decoder) : Prop :=
  let '(Decoder A rd) := r in
  forall old inp, (exists used, inp = used ++ rest (rd old inp))
    /\ (fail (rd old inp) = None \/ exists e, fail (rd old inp) = Some e /\ reportable e).

(** The same but for a panic, which takes the type of a pop PBB action in the bytes. *)
Definition nearly_orderly (r : decoder) : Prop :=
  let '(Decoder A rd) := r in
  forall old inp, (exists used, inp = used ++ rest (rd old inp))
    /\ (fail (rd old inp) = None \/ exists e, fail (rd old inp) = Some e
          /\ (reportable e \/ (e = EPanic /\ mentions_pop_pbb inp))).

