(** What a read that fails leaves behind: description in terms of the members of
    the protocol structures ([members], CutSpec.v) and the layout tables
    (FixedSpec.v).  Nothing here refers to encoders or decoders. *)
From Verif Require Import Bytes WireSpec FixedModel FixedSpec CutSpec ActionModel TableModel.

(** Whether the member at offset [off] of a structure of members [ws] is complete
    in the first [n] bytes. *)
Fixpoint arrived (ws : list nat) (n off : nat) : bool :=
  match ws with
  | [] => false
  | w :: ws' => (w <=? n) && ((off <? w) || arrived ws' (n - w) (off - w))
  end.

(** Two layout tables blended: the items of [new] whose member arrived, the
    items of [old] elsewhere. *)
Fixpoint blend (ws : list nat) (n : nat) (new old : list (nat * item)) : list (nat * item) :=
  match new, old with
  | x :: new', y :: old' => (if arrived ws n (fst x) then x else y) :: blend ws n new' old'
  | _, _ => []
  end.

(** A port description whose hardware address and name were wiped: six and
    sixteen zero bytes. *)
Definition wiped (p : Port) : Port := set_Port_Name (zeros 16) (set_Port_HWAddr (zeros 6) p).

(** What stands in the members that did not arrive: the old value, except that
    reading a port description starts with wiping its hardware address and
    name; the port description of a port status begins at offset 8. *)
Definition remainder (k : kind) (n : nat) : msg k -> msg k :=
  match k with
  | KPort => wiped
  | KPortStatus => fun m => if 8 <=? n then set_PortStatus_Port (wiped (PortStatus_Port m)) m else m
  | _ => fun m => m
  end.

(** The parameters of the actions of fixed size, offset and width, by type. *)
Definition parameters (t : N) : list (nat * nat) :=
  if (t =? 0)%N then [(4, 4); (8, 2)]
  else if existsb (N.eqb t) [15; 23]%N then [(4, 1)]
  else if existsb (N.eqb t) [17; 19; 20; 26]%N then [(4, 2)]
  else if existsb (N.eqb t) [21; 22; 65535]%N then [(4, 4)]
  else [].

(** The parameters an action has. *)
Definition arguments (a : Action) : list N :=
  match a with
  | AOutput p m => [p; m]
  | ASetMPLSTTL x | APushVLAN x | APushMPLS x | APopMPLS x | ASetQueue x | AGroup x
  | ASetNetworkTTL x | APushPBB x | AExperimenter x => [x]
  | ACopyTTLOut | ACopyTTLIn | ADecMPLSTTL | APopVLAN | ADecNetworkTTL | ASetField _ => []
  end.

(** A table property without content. *)
Definition blank (p : TableProp) : Prop :=
  match p with
  | TInstructions m l | TNextTables m l | TWriteActions m l | TApplyActions m l => m = false /\ l = []
  | TMatch l | TWildcards l => l = []
  | TWriteSetField m l | TApplySetField m l => m = false /\ l = []
  | TExperimenter m e x d => m = false /\ e = 0%N /\ x = 0%N /\ d = []
  end.
