(** The widths of the members of the fixed-size messages: what the protocol's C
    structures declare, an array or a text being one member.  Independent of
    encoders and decoders. *)
From Verif Require Import Bytes FixedSpec FixedModel.

Definition port_members : list nat := [4; 4; 6; 2; 16; 4; 4; 4; 4; 4; 4; 4; 4].

Definition members (k : kind) : list nat :=
  match k with
  | KHeader => [1; 1; 2; 4]
  | KSwitchFeatures => [8; 4; 1; 1; 2; 4; 4]
  | KSwitchConfig => [2; 2]
  | KExperimenter => [4; 4]
  | KRoleRequest => [4; 4; 8]
  | KAsyncConfig => [8; 8; 8]
  | KTableMod => [1; 3; 4]
  | KTableStats => [1; 3; 4; 8; 8]
  | KPortStatsRequest => [4; 4]
  | KPortStats => [4; 4; 8; 8; 8; 8; 8; 8; 8; 8; 8; 8; 8; 8; 4; 4]
  | KQueueStatsRequest => [4; 4]
  | KQueueStats => [4; 4; 8; 8; 8; 4; 4]
  | KQueueGetConfigRequest => [4; 4]
  | KGroupStatsRequest => [4; 4]
  | KBucketCounter => [8; 8]
  | KGroupFeatures => [4; 4; 16; 16]
  | KMeterConfigRequest => [4; 4]
  | KMeterFeatures => [4; 4; 4; 1; 1; 2]
  | KMeterBandStats => [8; 8]
  | KMeterStatsRequest => [4; 4]
  | KAggregateStats => [8; 8; 4; 4]
  | KMultipartReply => [2; 2; 4]
  | KExperimenterMultipartHeader => [4; 4]
  | KPort => port_members
  | KPortStatus => [1; 7] ++ port_members
  | KDescription => [256; 256; 256; 32; 256]
  end.

(** The offsets at which members of widths [ws] begin, from [off]. *)
Fixpoint offsets (off : nat) (ws : list nat) : list nat :=
  match ws with [] => [] | w :: ws' => off :: offsets (off + w) ws' end.

(** A message of members [ws] cut to [n] bytes: between two members it looks like
    the end of the stream, inside a member like a broken message. *)
Definition cut_report (ws : list nat) (n : nat) : bool := existsb (Nat.eqb n) (offsets 0 ws).
