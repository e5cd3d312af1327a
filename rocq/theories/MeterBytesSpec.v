(** What arbitrary bytes say as a meter modification or a meter configuration,
    independently of the decoders (OpenFlow 1.3, sections 7.3.4.5 and 7.3.5.13). *)
From Verif Require Import Bytes Encoding WireSpec MatchSpec ActionSpec.

Definition known_bands : list N := [1; 2; 65535]%N.

(** A complete band; its length field is not looked at. *)
Definition whole_band (seg : bytes) : Prop := length seg = 16 /\ In (num 0 2 seg) known_bands.

(** Where members of a band of type [t] end. *)
Definition band_stops (t : N) : list nat := if (t =? 2)%N then [4; 8; 12; 13] else [4; 8; 12].

(** The report [v] about the bands in [b]: complete bands, then less than a type, an
    unknown type, or a band that breaks off, which is not reported where a member ends. *)
Definition bands_report (b : bytes) (v : option err) : Prop :=
  exists segs t, b = concat segs ++ t /\ Forall whole_band segs /\
  ((length t < 2 /\ v = None)
   \/ (2 <= length t /\ ~ In (num 0 2 t) known_bands /\ v = Some (EUnknown (num 0 2 t)))
   \/ (2 <= length t < 16 /\ In (num 0 2 t) known_bands
       /\ v = if existsb (Nat.eqb (length t)) (band_stops (num 0 2 t)) then None else Some UnexpectedEOF)).

(** The member of [w] bytes at [off], or what was there before if the bytes end first. *)
Definition member (inp : bytes) (off w : nat) (old : N) : N := if off + w <=? length inp then num off w inp else old.

(** The report about a head that breaks off. *)
Definition head_report (stops : list nat) (inp : bytes) : option err :=
  if existsb (Nat.eqb (length inp)) stops then Some EOF else Some UnexpectedEOF.

(** The bytes a configuration with length field [n] reserves for its bands. *)
Definition bands_room (n : N) : nat := N.to_nat ((n + 65528) mod 65536).
