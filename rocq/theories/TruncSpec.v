(** What reading the beginning of a message of varying size reports: nothing, the
    end of the stream, or a broken message.  Stated with the layout of the message
    only: widths of members, sizes of entries and elements.  Independent of
    encoders and decoders. *)
From Verif Require Import VaryingModel ActionSpec InstructionSpec MatchSpec VaryingSpec.

Inductive finding := Fine | Ended | Broken.

(** The first [n] bytes of members of widths [ws]: between two members it looks
    like the end of the stream, inside a member like a broken message. *)
Fixpoint fields (ws : list nat) (n : nat) : finding :=
  match ws with
  | [] => Fine
  | w :: ws' => if w <=? n then fields ws' (n - w) else if n =? 0 then Ended else Broken
  end.

(** The first [n] bytes of a part of [k] bytes followed by another part; when the
    first part does not notice that it is cut, the second one finds nothing. *)
Definition followed (k : nat) (v1 v2 : nat -> finding) (n : nat) : finding :=
  if n <? k then match v1 n with Fine => v2 0 | x => x end else v2 (n - k).

(** The first [n] bytes of a list of elements, each given by its size and its own
    finding: an end between two members of an element passes for the end of the
    list, and so does an end inside the type of an element. *)
Fixpoint elements (l : list (nat * (nat -> finding))) (n : nat) : finding :=
  match l with
  | [] => Fine
  | (k, v) :: l' =>
      if k <=? n then elements l' (n - k)
      else if n <? 2 then Fine
      else match v n with Broken => Broken | _ => Fine end
  end.

(** The first [n] bytes of the entries of a match, of the sizes [ks]. *)
Fixpoint entries_of (ks : list nat) (n : nat) : finding :=
  match ks with
  | [] => Fine
  | k :: ks' =>
      if k <=? n then entries_of ks' (n - k)
      else if n <? 4 then Fine else if n =? 4 then Ended else Broken
  end.

(** A match: type and length, entries, padding. *)
Definition match_cut (m : Match) : nat -> finding :=
  followed 4 (fields [2; 2])
    (followed (fields_size (Match_Fields m)) (entries_of (map xm_size (Match_Fields m)))
       (fields [match_size m - 4 - fields_size (Match_Fields m)])).

Definition action_cut (a : Action) : nat -> finding :=
  match a with
  | AOutput _ _ => fields [2; 2; 4; 2; 6]
  | ACopyTTLOut | ACopyTTLIn | ADecMPLSTTL | APopVLAN | ADecNetworkTTL => fields [8]
  | ASetMPLSTTL _ => fields [2; 2; 1; 3]
  | ASetNetworkTTL _ => fields [4; 1; 3]
  | APushVLAN _ | APushMPLS _ | APopMPLS _ | APushPBB _ => fields [4; 2; 2]
  | ASetQueue _ | AGroup _ | AExperimenter _ => fields [4; 4]
  | ASetField x => followed 4 (fields [2; 2]) (followed (xm_size x) (fields [2; 1; 1; xm_size x - 4]) (fun _ => Fine))
  end.

Definition actions_cut (l : list Action) : nat -> finding :=
  elements (map (fun a => (action_size a, action_cut a)) l).

Definition instruction_cut (i : Instruction) : nat -> finding :=
  match i with
  | IGotoTable _ => fields [2; 2; 1; 3]
  | IWriteMetadata _ _ => fields [2; 2; 4; 8; 8]
  | IApplyActions l | IWriteActions l => followed 8 (fields [2; 2; 4]) (actions_cut l)
  | IClearActions => fields [8]
  | IMeter _ => fields [2; 2; 4]
  end.

Definition instructions_cut (l : list Instruction) : nat -> finding :=
  elements (map (fun i => (instruction_size i, instruction_cut i)) l).

(** The members before the match, the actions or the instructions. *)
Definition front (k : vkind) : list nat :=
  match k with
  | VMatch => [2; 2]
  | VActions | VInstructions => []
  | VBucket => [2; 2; 4; 4; 4]
  | VFlowMod => [8; 8; 1; 1; 2; 2; 2; 4; 4; 4; 2; 2]
  | VFlowRemoved => [8; 2; 1; 1; 4; 4; 2; 2; 8; 8]
  | VFlowStatsRequest | VAggregateStatsRequest => [1; 3; 4; 4; 4; 8; 8]
  | VFlowStats => [2; 1; 1; 4; 4; 2; 2; 2; 2; 4; 8; 8; 8]
  | VPacketIn => [4; 2; 1; 1; 8]
  | VPacketOut => [4; 4; 2; 6]
  end.

Definition cut_finding (k : vkind) : vmsg k -> nat -> finding :=
  match k with
  | VMatch => match_cut
  | VActions => actions_cut
  | VInstructions => instructions_cut
  | VBucket => fun m => followed 16 (fields (front VBucket)) (actions_cut (Bucket_Actions m))
  | VFlowMod => fun m =>
      followed 40 (fields (front VFlowMod))
        (followed (match_size (FlowMod_Match m)) (match_cut (FlowMod_Match m))
           (instructions_cut (FlowMod_Instructions m)))
  | VFlowRemoved => fun m => followed 40 (fields (front VFlowRemoved)) (match_cut (FlowRemoved_Match m))
  | VFlowStatsRequest => fun m =>
      followed 32 (fields (front VFlowStatsRequest)) (match_cut (FlowStatsRequest_Match m))
  | VAggregateStatsRequest => fun m =>
      followed 32 (fields (front VAggregateStatsRequest)) (match_cut (AggregateStatsRequest_Match m))
  | VFlowStats => fun m =>
      followed 48 (fields (front VFlowStats))
        (followed (match_size (FlowStats_Match m)) (match_cut (FlowStats_Match m))
           (instructions_cut (FlowStats_Instructions m)))
  | VPacketIn => fun m =>
      followed 16 (fields (front VPacketIn))
        (followed (match_size (PacketIn_Match m)) (match_cut (PacketIn_Match m))
           (followed 2 (fields [2]) (fun _ => Fine)))
  | VPacketOut => fun m =>
      followed 16 (fields (front VPacketOut))
        (followed (actions_size (PacketOut_Actions m)) (actions_cut (PacketOut_Actions m)) (fun _ => Fine))
  end.

(** The error of [ReadFrom] for each finding: nil, io.EOF, io.ErrUnexpectedEOF. *)
Definition told (v : finding) : option err :=
  match v with Fine => None | Ended => Some EOF | Broken => Some UnexpectedEOF end.
