(** What OpenFlow 1.3 (section 7.2.5) says about actions, independently of the
    encoders and decoders. *)
From Verif Require Import Bytes WireSpec MatchSpec ActionModel.

(** Parameter ranges of the action structures. *)
Definition wf_Action (a : Action) : Prop :=
  match a with
  | AOutput p m => (p < 4294967296 /\ m < 65536)%N
  | ASetMPLSTTL x | ASetNetworkTTL x => (x < 256)%N
  | APushVLAN x | APushMPLS x | APopMPLS x | APushPBB x => (x < 65536)%N
  | ASetQueue x | AGroup x | AExperimenter x => (x < 4294967296)%N
  | ASetField f => wf_XM f
  | _ => True
  end.

(** Bytes of an action, always a multiple of eight. *)
Definition action_size (a : Action) : nat :=
  match a with
  | AOutput _ _ => 16
  | ASetField f => up8 (4 + xm_size f)
  | _ => 8
  end.

Definition actions_size (l : list Action) : nat := list_sum (map action_size l).

(** enum ofp_action_type. *)
Definition ofpat (a : Action) : N :=
  match a with
  | AOutput _ _ => 0 | ACopyTTLOut => 11 | ACopyTTLIn => 12 | ASetMPLSTTL _ => 15
  | ADecMPLSTTL => 16 | APushVLAN _ => 17 | APopVLAN => 18 | APushMPLS _ => 19
  | APopMPLS _ => 20 | ASetQueue _ => 21 | AGroup _ => 22 | ASetNetworkTTL _ => 23
  | ADecNetworkTTL => 24 | ASetField _ => 25 | APushPBB _ => 26 | AExperimenter _ => 65535
  end%N.

Definition shift (k : nat) (t : list (nat * item)) : list (nat * item) :=
  map (fun oi => (k + fst oi, snd oi)) t.

(** struct ofp_action_*: type, length, parameters, padding. *)
Definition action_layout (a : Action) : list (nat * item) :=
  (0, Num 2 (ofpat a)) :: (2, Num 2 (N.of_nat (action_size a))) ::
  match a with
  | AOutput p m => [(4, Num 4 p); (8, Num 2 m); (10, Zero 6)]
  | ASetMPLSTTL x | ASetNetworkTTL x => [(4, Num 1 x); (5, Zero 3)]
  | APushVLAN x | APushMPLS x | APopMPLS x | APushPBB x => [(4, Num 2 x); (6, Zero 2)]
  | ASetQueue x | AGroup x | AExperimenter x => [(4, Num 4 x)]
  | ASetField f =>
      shift 4 (xm_layout f) ++ [(4 + xm_size f, Zero (up8 (4 + xm_size f) - (4 + xm_size f)))]
  | _ => [(4, Zero 4)]
  end.

(** ** Reading arbitrary bytes *)

(** The [w]-byte number at offset [off]. *)
Definition num (off w : nat) (b : bytes) : N := be_dec (firstn w (skipn off b)).

(** The action type numbers OpenFlow 1.3 defines, without pop PBB (27). *)
Definition known_types : list N := [0; 11; 12; 15; 16; 17; 18; 19; 20; 21; 22; 23; 24; 25; 26; 65535]%N.

(** [seg] is one complete action saying [a].  Length fields of fixed-size
    actions and padding are not looked at; a set field action is as long as its
    length field says (modulo 65536) and holds a complete entry. *)
Definition denotes (a : Action) (seg : bytes) : Prop :=
  num 0 2 seg = ofpat a /\
  match a with
  | AOutput p m => length seg = 16 /\ p = num 4 4 seg /\ m = num 8 2 seg
  | ASetMPLSTTL x | ASetNetworkTTL x => length seg = 8 /\ x = num 4 1 seg
  | APushVLAN x | APushMPLS x | APopMPLS x | APushPBB x => length seg = 8 /\ x = num 4 2 seg
  | ASetQueue x | AGroup x | AExperimenter x => length seg = 8 /\ x = num 4 4 seg
  | ASetField f =>
      4 <= length seg /\ (N.of_nat (length seg) < 65540)%N
      /\ (N.of_nat (length seg) mod 65536)%N = num 2 2 seg
      /\ exists entry junk, skipn 4 seg = entry ++ junk /\ represents f entry
  | _ => length seg = 8
  end.

(** The bytes a set field action reserves for its entry, as far as they are there. *)
Definition field_region (b : bytes) : bytes :=
  firstn (N.to_nat ((num 2 2 b + 65532) mod 65536)) (skipn 4 b).

(** Where an action list may break off inside an action without the decoder
    reporting it: between two fields of the action. *)
Definition accepted_cut (b : bytes) : bool :=
  let n := length b in
  let t := num 0 2 b in
  if (t =? 0)%N then existsb (Nat.eqb n) [2; 4; 8; 10]
  else if (t =? 15)%N then existsb (Nat.eqb n) [2; 4; 5]
  else if (t =? 23)%N then existsb (Nat.eqb n) [4; 5]
  else if existsb (N.eqb t) [17; 19; 20; 26]%N then existsb (Nat.eqb n) [4; 6]
  else if existsb (N.eqb t) [21; 22; 65535]%N then existsb (Nat.eqb n) [4]
  else if (t =? 25)%N then
    let r := field_region b in
    (n =? 2)
    || (4 <=? n)
       && (existsb (Nat.eqb (length r)) [0; 2; 3; 4] || (4 + N.to_nat (num 3 1 r) <=? length r))
  else false.
