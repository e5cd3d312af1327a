(** Which bytes of a message carry meaning: all but the padding of its layout
    table.  Independent of encoders and decoders. *)
From Verif Require Import Bytes WireSpec.

Definition padding (i : item) : bool := match i with Zero _ => true | _ => false end.

(** Every item of table [t] but the padding stands in [inp] at its offset. *)
Definition shown (inp : bytes) (t : list (nat * item)) : Prop :=
  forall off i, In (off, i) t -> padding i = false -> carries inp off i.

(** Position [p] belongs to an item of the table that is not padding. *)
Definition meaningful (t : list (nat * item)) (p : nat) : Prop :=
  exists off i, In (off, i) t /\ padding i = false /\ off <= p < off + width i.
