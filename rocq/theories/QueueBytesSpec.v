(** What arbitrary bytes say as the description of a queue, independently of the decoders
    (OpenFlow 1.3, section 7.2.2). *)
From Verif Require Import Bytes Encoding WireSpec MatchSpec ActionSpec MeterBytesSpec.

(** What a length field [n] leaves behind a head of sixteen bytes. *)
Definition beyond16 (n : N) : nat := N.to_nat ((n + 65520) mod 65536).

Definition known_props : list N := [1; 2; 65535]%N.

(** The bytes a property takes: rates have sixteen whatever their length field says. *)
Definition prop_size (b : bytes) : nat := if (num 0 2 b =? 65535)%N then 16 + beyond16 (num 2 2 b) else 16.
Definition whole_prop (seg : bytes) : Prop := 16 <= length seg /\ In (num 0 2 seg) known_props /\ length seg = prop_size seg.

(** Where members of a property of type [t] end. *)
Definition prop_stops (t : N) : list nat := if (t =? 65535)%N then [4; 8; 12] else [8; 10].

(** The report [v] about the properties in [b]: complete ones, then less than a type, an
    unknown type, a property that breaks off within its sixteen bytes, or one that breaks
    off within its experimenter data. *)
Definition props_report (b : bytes) (v : option err) : Prop :=
  exists segs t, b = concat segs ++ t /\ Forall whole_prop segs /\
  ((length t < 2 /\ v = None)
   \/ (2 <= length t /\ ~ In (num 0 2 t) known_props /\ v = Some (EUnknown (num 0 2 t)))
   \/ (2 <= length t < 16 /\ In (num 0 2 t) known_props
       /\ v = if existsb (Nat.eqb (length t)) (prop_stops (num 0 2 t)) then None else Some UnexpectedEOF)
   \/ (16 <= length t < prop_size t /\ In (num 0 2 t) known_props /\ v = None)).
