(** What is read when the beginning of a message of varying size is accepted. *)
From Verif Require Import VaryingModel VaryingSpec ActionSpec InstructionSpec MatchSpec SeenSpec.

(** Match entries: those that came whole. *)
Fixpoint fields_kept (l : list XM) (n : nat) : list XM :=
  match l with
  | [] => []
  | x :: l' => if xm_size x <=? n then x :: fields_kept l' (n - xm_size x) else []
  end.

Definition match_kept (m : Match) (n : nat) : Match := MkMatch (Match_Type m) (fields_kept (Match_Fields m) (n - 4)).

(** The first [n] bytes of [m] read into [old]. *)
Definition accepted_as (k : vkind) : vmsg k -> nat -> vmsg k -> vmsg k :=
  match k with
  | VMatch => fun m n _ => match_kept m n
  | VActions => fun l n _ => actions_seen l n
  | VInstructions => fun l n old => old ++ instructions_seen l n
  | VBucket => fun m n _ =>
      MkBucket (Bucket_Weight m) (Bucket_WatchPort m) (Bucket_WatchGroup m) (actions_seen (Bucket_Actions m) (n - 16))
  | VFlowMod => fun m n _ =>
      set_FlowMod_Match (match_kept (FlowMod_Match m) (n - 40))
        (set_FlowMod_Instructions (instructions_seen (FlowMod_Instructions m) (n - 40 - match_size (FlowMod_Match m))) m)
  | VFlowRemoved => fun m n _ => set_FlowRemoved_Match (match_kept (FlowRemoved_Match m) (n - 40)) m
  | VFlowStatsRequest => fun m n _ => set_FlowStatsRequest_Match (match_kept (FlowStatsRequest_Match m) (n - 32)) m
  | VAggregateStatsRequest => fun m n _ =>
      set_AggregateStatsRequest_Match (match_kept (AggregateStatsRequest_Match m) (n - 32)) m
  | VFlowStats => fun m n _ =>
      set_FlowStats_Match (match_kept (FlowStats_Match m) (n - 48))
        (set_FlowStats_Instructions (instructions_seen (FlowStats_Instructions m) (n - 48 - match_size (FlowStats_Match m))) m)
  | VPacketIn => fun m n _ => set_PacketIn_Data (firstn (n - 18 - match_size (PacketIn_Match m)) (PacketIn_Data m)) m
  | VPacketOut => fun m n _ =>
      MkPacketOut (PacketOut_Buffer m) (PacketOut_InPort m) (actions_seen (PacketOut_Actions m) (n - 16))
        (firstn (n - 16 - actions_size (PacketOut_Actions m)) (PacketOut_Data m))
  end.
