(** What OpenFlow 1.3 says about the length fields of actions and
    instructions, independently of the decoders: every element is as long as it
    declares to be, and an experimenter action may hold data of its vendor
    (section 7.2.5, [ofp_action_header] and [ofp_action_experimenter_header]). *)
From Verif Require Import Bytes ActionModel InstructionModel FlowModel ActionSpec.

(** The elements of a list as the protocol divides it: each a multiple of
    eight bytes, as long as its own length field says. *)
Definition framed (segs : list bytes) : Prop :=
  Forall (fun s => 8 <= length s /\ length s mod 8 = 0 /\ num 2 2 s = N.of_nat (length s)) segs.

(** An experimenter action of vendor [e] with data [d]. *)
Definition vendor (e : N) (d : bytes) : bytes :=
  be_enc 2 65535 ++ be_enc 2 (N.of_nat (8 + length d)) ++ be_enc 4 e ++ d.

(** The element with another number in its length field. *)
Definition relen (n : N) (b : bytes) : bytes := firstn 2 b ++ be_enc 2 n ++ skipn 4 b.

(** Actions of a fixed size: all but set field. *)
Definition fixed_action (a : Action) : Prop := match a with ASetField _ => False | _ => True end.

(** Instructions without actions. *)
Definition fixed_instruction (i : Instruction) : Prop :=
  match i with IApplyActions _ | IWriteActions _ => False | _ => True end.

(** A packet-out message and an apply actions instruction around the bytes
    of an action list. *)
Definition packet_out_of (buffer port : N) (acts frame : bytes) : bytes :=
  be_enc 4 buffer ++ be_enc 4 port ++ be_enc 2 (N.of_nat (length acts)) ++ zeros 6 ++ acts ++ frame.
Definition apply_of (acts : bytes) : bytes :=
  be_enc 2 4 ++ be_enc 2 (N.of_nat (8 + length acts)) ++ zeros 4 ++ acts.
