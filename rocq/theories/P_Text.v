(** C82 and C83: texts of protocol values. *)
From Coq Require Import List String NArith Ascii Arith Lia.
From Verif Require Import TextFacts ActionModel InstructionModel.
Import ListNotations.
Open Scope string_scope.

(** ** What is expected *)
(** The types whose values print by name. *)
Inductive printed := PType | PConnState | PAction | PInstruction | PMultipart | PField | PClass
                   | PTableProp | PReason | PErrType | PTable.

Definition text (p : printed) : N -> string :=
  match p with
  | PType => text_Type | PConnState => text_ConnState | PAction => text_ActionType
  | PInstruction => text_InstructionType | PMultipart => text_MultipartType
  | PField => text_XMType | PClass => text_XMClass | PTableProp => text_TablePropType
  | PReason => text_PacketInReason | PErrType => text_ErrType | PTable => text_Table
  end.

(** The message types of OpenFlow 1.3 in the order of their numbers (ofp_type). *)
Definition messages : list string :=
  ["Hello"; "Error"; "EchoRequest"; "EchoReply"; "Experiment"; "FeaturesRequest"; "FeaturesReply";
   "GetConfigRequest"; "GetConfigReply"; "SetConfig"; "PacketIn"; "FlowRemoved"; "PortStatus";
   "PacketOut"; "FlowMod"; "GroupMod"; "PortMod"; "TableMod"; "MultipartRequest"; "MultipartReply";
   "BarrierRequest"; "BarrierReply"; "QueueGetConfigRequest"; "QueueGetConfigReply"; "RoleRequest";
   "RoleReply"; "GetAsyncRequest"; "GetAsyncReply"; "SetAsync"; "MeterMod"].

(** The names of the kinds of actions and instructions. *)
Definition action_name (a : Action) : string :=
  match a with
  | AOutput _ _ => "Output" | ACopyTTLOut => "CopyTTLOut" | ACopyTTLIn => "CopyTTLIn"
  | ASetMPLSTTL _ => "SetMPLSTTL" | ADecMPLSTTL => "DecMPLSTTL" | APushVLAN _ => "PushVLAN"
  | APopVLAN => "PopVLAN" | APushMPLS _ => "PushMPLS" | APopMPLS _ => "PopMPLS"
  | ASetQueue _ => "SetQueue" | AGroup _ => "Group" | ASetNetworkTTL _ => "SetNwTTL"
  | ADecNetworkTTL => "DecNwTTL" | ASetField _ => "SetField" | APushPBB _ => "PushPBB"
  | AExperimenter _ => "Experimenter"
  end.
Definition instruction_name (i : Instruction) : string :=
  match i with
  | IGotoTable _ => "GotoTable" | IWriteMetadata _ _ => "WriteMetadata"
  | IApplyActions _ => "ApplyActions" | IWriteActions _ => "WriteActions"
  | IClearActions => "ClearActions" | IMeter _ => "Meter"
  end.

(** How many codes OpenFlow 1.3 defines for the error types 0, 1, ... *)
Definition codes_of (t : N) : nat :=
  nth (N.to_nat t) [2; 14; 16; 9; 12; 8; 15; 5; 3; 3; 3; 3; 12; 6] 0.

(** ** C82 *)
(** Two values of a type print alike only if they are equal. *)
Theorem C82_distinct : forall p n m, text p n = text p m -> n = m.
Proof.
  intros p n m. destruct p; try (apply named_inj; vm_compute; reflexivity).
  intro E. apply (append_inj "Table(") in E. apply paren_inj, E.
Qed.
Print Assumptions C82_distinct.

(** Two errors print alike only if type and code are equal. *)
Theorem C82_errors_distinct : forall t c t' c', text_Error t c = text_Error t' c' -> t = t' /\ c = c'.
Proof. exact error_inj. Qed.
Print Assumptions C82_errors_distinct.

(** Message types print the name that OpenFlow 1.3 gives to the number. *)
Theorem C82_message_names : forall n,
  text_Type n = match nth_error messages (N.to_nat n) with
                | Some s => "Type" ++ s
                | None => "Type(" ++ decimal n ++ ")"
                end.
Proof.
  intro n. destruct (N.ltb_spec n 30) as [L|L].
  - assert (H : forallb (fun k => String.eqb (text_Type (N.of_nat k))
        (match nth_error messages k with Some s => "Type" ++ s | None => "Type(" ++ decimal (N.of_nat k) ++ ")" end))
        (seq 0 30) = true) by (vm_compute; reflexivity).
    pose proof (proj1 (forallb_forall _ _) H (N.to_nat n)) as Q.
    cbv beta in Q. rewrite N2Nat.id in Q. apply String.eqb_eq, Q, in_seq. lia.
  - assert (E : nth_error messages (N.to_nat n) = None).
    { apply nth_error_None. change (List.length messages) with 30%nat. lia. }
    rewrite E. unfold text_Type, named.
    assert (K : lookup n tbl_Type = None).
    { destruct (lookup n tbl_Type) eqn:Q; [|reflexivity]. exfalso. apply lookup_in in Q. cbn in Q.
      repeat (destruct Q as [Q|Q]; [injection Q as <- _; lia|]). destruct Q. }
    rewrite K. reflexivity.
Qed.
Print Assumptions C82_message_names.

(** The printed type of an action or instruction names its kind. *)
Theorem C82_action_names : forall a, text_ActionType (action_type a) = "Action" ++ action_name a.
Proof. intros []; reflexivity. Qed.
Print Assumptions C82_action_names.
Theorem C82_instruction_names : forall i,
  text_InstructionType (instruction_type i) = "Instruction" ++ instruction_name i.
Proof. intros []; reflexivity. Qed.
Print Assumptions C82_instruction_names.

(** An error prints a name exactly for the codes of OpenFlow 1.3, and the code
    as a number otherwise. *)
Theorem C82_error_names : forall t c,
  (if Nat.ltb (N.to_nat c) (codes_of t)
   then prefix "ErrCode" (text_Error t c) = true
   else text_Error t c = text_ErrType t ++ "Code(" ++ decimal c ++ ")").
Proof.
  intros t c.
  assert (H : forall t codes, In (t, codes) tbl_Error ->
    map fst codes = map N.of_nat (seq 0 (codes_of t))
    /\ forallb (fun x : N * string => prefix "ErrCode" (snd x)) codes = true).
  { clear. intros t codes H. cbn in H.
    repeat (destruct H as [H|H]; [injection H as <- <-; vm_compute; auto|]). destruct H. }
  destruct (lookup t tbl_Error) as [codes|] eqn:E.
  - destruct (H t codes (lookup_in _ _ _ E)) as [K P].
    assert (Q : forall n (l : list (N * string)), map fst l = map N.of_nat (seq n (List.length l)) ->
       (lookup c l = None <-> (N.to_nat c < n \/ n + List.length l <= N.to_nat c)%nat)).
    { clear. intros n l. revert n. induction l as [|[k s] l IH]; intros n M.
      - cbn. split; [intros _|reflexivity]. rewrite PeanoNat.Nat.add_0_r.
        destruct (Nat.le_gt_cases n (N.to_nat c)); auto.
      - cbn [map List.length seq fst] in M. injection M as -> M. cbn [lookup List.length].
        destruct (N.eqb_spec c (N.of_nat n)) as [->|D].
        + rewrite Nat2N.id. split; [discriminate|]. intros [A|A]; exfalso; lia.
        + rewrite (IH (S n) M). assert (N.to_nat c <> n) by (intros <-; apply D; rewrite N2Nat.id; reflexivity). lia. }
    assert (LC : List.length codes = codes_of t).
    { apply (f_equal (@List.length N)) in K. rewrite !map_length, seq_length in K. exact K. }
    rewrite <- LC in K. specialize (Q 0%nat codes K). rewrite LC in Q. cbn [Nat.add] in Q.
    unfold text_Error. rewrite E. destruct (Nat.ltb_spec (N.to_nat c) (codes_of t)) as [L|L].
    + destruct (lookup c codes) as [s|] eqn:F.
      * apply lookup_in in F. exact (proj1 (forallb_forall _ _) P _ F).
      * exfalso. destruct Q as [Q _]. destruct (Q eq_refl) as [Q1|Q1]; lia.
    + rewrite (proj2 Q) by (right; exact L). reflexivity.
  - rewrite unknown_error by exact E.
    assert (Z : codes_of t = 0%nat).
    { unfold codes_of. destruct (Nat.le_gt_cases 14 (N.to_nat t)) as [L|L]; [apply nth_overflow; exact L|].
      exfalso. revert E. rewrite <- (N2Nat.id t). revert L. generalize (N.to_nat t). intros k L.
      do 14 (destruct k as [|k]; [vm_compute; discriminate|]). lia. }
    rewrite Z. reflexivity.
Qed.
Print Assumptions C82_error_names.

(** ** The names of OpenFlow 1.3 *)
(** Names of consecutive numbers, from the given one on. *)
Definition run := (N * list string)%type.
Fixpoint name_in (l : list run) (n : N) : option string :=
  match l with
  | [] => None
  | (a, names) :: l' =>
      if (N.leb a n && N.ltb n (a + N.of_nat (List.length names)))%bool
      then nth_error names (N.to_nat (n - a)) else name_in l' n
  end.

(** The enumerations ofp_type, ofp_action_type, ofp_instruction_type,
    ofp_multipart_type, oxm_ofb_match_fields, ofp_oxm_class,
    ofp_table_feature_prop_type, ofp_packet_in_reason and ofp_error_type, and
    the states of a connection.  The misspelt class is the finding below. *)
Definition standard (p : printed) : list run :=
  match p with
  | PType => [(0%N, messages)]
  | PConnState => [(0%N, ["New"; "Handshake"; "Active"; "Idle"; "Closed"])]
  | PAction => [(0%N, ["Output"]); (11%N, ["CopyTTLOut"; "CopyTTLIn"]);
      (15%N, ["SetMPLSTTL"; "DecMPLSTTL"; "PushVLAN"; "PopVLAN"; "PushMPLS"; "PopMPLS"; "SetQueue"; "Group";
              "SetNwTTL"; "DecNwTTL"; "SetField"; "PushPBB"; "PopPBB"]); (65535%N, ["Experimenter"])]
  | PInstruction => [(1%N, ["GotoTable"; "WriteMetadata"; "WriteActions"; "ApplyActions"; "ClearActions"; "Meter"]);
      (65535%N, ["Experimenter"])]
  | PMultipart => [(0%N, ["Description"; "Flow"; "Aggregate"; "Table"; "PortStats"; "Queue"; "Group";
      "GroupDescription"; "GroupFeatures"; "Meter"; "MeterConfig"; "MeterFeatures"; "TableFeatures";
      "PortDescription"]); (65535%N, ["Experimenter"])]
  | PField => [(0%N, ["InPort"; "InPhyPort"; "Metadata"; "EthDst"; "EthSrc"; "EthType"; "VlanID"; "VlanPCP"; "IPDSCP";
      "IPECN"; "IPProto"; "IPv4Src"; "IPv4Dst"; "TCPSrc"; "TCPDst"; "UDPSrc"; "UDPDst"; "SCTPSrc"; "SCTPDst";
      "ICMPv4Type"; "ICMPv4Code"; "ARPOpcode"; "ARPSPA"; "ARPTPA"; "ARPSHA"; "ARPTHA"; "IPv6Src"; "IPv6Dst";
      "IPv6FLabel"; "ICMPv6Type"; "ICMPv6Code"; "IPv6NDTarget"; "IPv6NDSLL"; "IPv6NDTLL"; "MPLSLabel"; "MPLSTC";
      "MPLSBOS"; "PBBISID"; "TunnelID"; "IPv6ExtHeader"])]
  | PClass => [(0%N, ["Nicira0"; "Nicira1"]); (32768%N, ["OpenflowBasic"]); (65535%N, ["Experimeter"])]
  | PTableProp => [(0%N, ["Instructions"; "InstructionsMiss"; "NextTables"; "NextTablesMiss"; "WriteActions";
      "WriteActionsMiss"; "ApplyActions"; "ApplyActionsMiss"; "Match"]); (10%N, ["Wildcards"]);
      (12%N, ["WriteSetField"; "WriteSetFieldMiss"; "ApplySetField"; "ApplySetFieldMiss"]);
      (65534%N, ["Experimenter"; "ExperimenterMiss"])]
  | PReason => [(0%N, ["NoMatch"; "Action"; "InvalidTTL"])]
  | PErrType => [(0%N, ["HelloFailed"; "BadRequest"; "BadAction"; "BadInstruction"; "BadMatch"; "FlowModFailed";
      "GroupModFailed"; "PortModFailed"; "TableModFailed"; "QueueOpFailed"; "SwitchConfigFailed";
      "RoleRequestFailed"; "MeterModFailed"; "TableFeaturesFailed"]); (65535%N, ["Experimenter"])]
  | PTable => []
  end.
(** What stands before a name and before a number without one. *)
Definition before_name (p : printed) : string :=
  match p with
  | PType => "Type" | PConnState => "State" | PAction => "Action" | PInstruction => "Instruction"
  | PMultipart => "MultipartType" | PField => "XMType" | PClass => "XMClass" | PTableProp => "TablePropType"
  | PReason => "PacketInReason" | PErrType => "ErrType" | PTable => "Table"
  end.
Definition before_number (p : printed) : string :=
  match p with PConnState => "ConnState" | PInstruction => "InstructionType" | _ => before_name p end.

Definition numbers (l : list run) : list N :=
  flat_map (fun r => map (fun i => fst r + N.of_nat i)%N (seq 0 (List.length (snd r)))) l.
Lemma name_number l n s : name_in l n = Some s -> In n (numbers l).
Proof.
  induction l as [|[a names] l IH]; [discriminate|]. cbn [name_in numbers flat_map fst snd].
  destruct (N.leb a n && N.ltb n (a + N.of_nat (List.length names)))%bool eqn:B; intro E; apply in_or_app; [left|right; exact (IH E)].
  apply Bool.andb_true_iff in B. destruct B as [B1 B2]. apply N.leb_le in B1. apply N.ltb_lt in B2.
  apply in_map_iff. exists (N.to_nat (n - a)). split; [lia|]. apply in_seq. lia.
Qed.
Lemma named_by t l what pre n :
  forallb (fun x : N * string => match name_in l (fst x) with Some s => String.eqb (snd x) (pre ++ s) | None => false end) t = true ->
  forallb (fun k => match lookup k t with Some _ => true | None => false end) (numbers l) = true ->
  named t what n = match name_in l n with Some s => pre ++ s | None => what ++ "(" ++ decimal n ++ ")" end.
Proof.
  intros A B. unfold named. destruct (lookup n t) as [s|] eqn:E.
  - apply lookup_in in E. pose proof (proj1 (forallb_forall _ _) A _ E) as Q. cbn [fst snd] in Q.
    destruct (name_in l n); [|discriminate]. apply String.eqb_eq in Q. exact Q.
  - destruct (name_in l n) as [s|] eqn:F; [|reflexivity]. apply name_number in F.
    pose proof (proj1 (forallb_forall _ _) B _ F) as Q. cbv beta in Q. rewrite E in Q. discriminate.
Qed.

(** Every value prints the name that belongs to its number, or the number. *)
Theorem C82_names : forall p n, text p n = match name_in (standard p) n with
  | Some s => before_name p ++ s
  | None => before_number p ++ "(" ++ decimal n ++ ")"
  end.
Proof. intros p n. destruct p; try (apply named_by; vm_compute; reflexivity). reflexivity. Qed.
Print Assumptions C82_names.

(** The codes of the error types 0, 1, ... (ofp_hello_failed_code and so on);
    the names of the group codes from 10 on lack "Failed". *)
Definition error_codes : list (string * list string) :=
  [("HelloFailed", ["Incompatible"; "Perm"]);
   ("BadRequest", ["BadVersion"; "BadType"; "BadMultipart"; "BadExperimenter"; "BadExpType"; "Perm"; "Len"; "BufferEmpty";
      "BufferUnknown"; "BadTableID"; "IsSlave"; "BadPort"; "BadPacket"; "MultipartBufferOverflow"]);
   ("BadAction", ["Type"; "Len"; "Experimenter"; "ExpType"; "OutPort"; "Argument"; "Perm"; "TooMany"; "Queue"; "OutGroup";
      "MatchInconsistent"; "UnsupportedOrder"; "Tag"; "SetType"; "SetLen"; "SetArgument"]);
   ("BadInstruction", ["Unknown"; "Unsupported"; "TableID"; "UnsupportedMetadata"; "UnsupportedMetadataMask";
      "Experimenter"; "ExpType"; "Len"; "Perm"]);
   ("BadMatch", ["BadType"; "BadLen"; "BadTag"; "BadLinkMask"; "BadNetMask"; "BadWildcards"; "BadField"; "BadValue";
      "BadMask"; "BadPrereq"; "DupField"; "Perm"]);
   ("FlowModFailed", ["Unknown"; "TableFull"; "BadTableID"; "Overlap"; "Perm"; "BadTimeout"; "BadCommand"; "BadFlags"]);
   ("GroupMod", ["FailedGroupExists"; "FailedInvalidGroup"; "FailedWeightUnsupported"; "FailedOutOfGroups";
      "FailedOutOfBuckets"; "FailedChainingUnsupported"; "FailedWatchUnsupported"; "FailedLoop"; "FailedUnknownGroup";
      "FailedChainedGroup"; "BadType"; "BadCommand"; "BadBucket"; "BadWatch"; "Perm"]);
   ("PortModFailed", ["BadPort"; "BadHwAddr"; "BadConfig"; "BadAdvertise"; "Perm"]);
   ("TableModFailed", ["BadTable"; "BadConfig"; "Perm"]);
   ("QueueOpFailed", ["BadPort"; "BadQueue"; "Perm"]);
   ("SwitchConfigFailed", ["BadFlags"; "BadLen"; "Perm"]);
   ("RoleRequestFailed", ["Stale"; "Unsup"; "BadRole"]);
   ("MeterModFailed", ["Unknown"; "MeterExists"; "InvalidMeter"; "UnknownMeter"; "BadCommand"; "BadFlags"; "BadRate";
      "BadBurst"; "BadBand"; "BadBandValue"; "OutOfMeters"; "OutOfBands"]);
   ("TableFeaturesFailed", ["BadTable"; "BadMetadata"; "BadType"; "BadLen"; "BadArgument"; "Perm"])].

Theorem C82_error_codes : forall t c type codes s,
  nth_error error_codes (N.to_nat t) = Some (type, codes) -> nth_error codes (N.to_nat c) = Some s ->
  text_Error t c = "ErrCode" ++ type ++ s.
Proof.
  intros t c type codes s A B.
  assert (H : forallb (fun i => match nth_error error_codes i with Some (ty, cs) =>
      forallb (fun j => match nth_error cs j with
                        | Some x => String.eqb (text_Error (N.of_nat i) (N.of_nat j)) ("ErrCode" ++ ty ++ x)
                        | None => false end) (seq 0 (List.length cs))
      | None => false end) (seq 0 (List.length error_codes)) = true) by (vm_compute; reflexivity).
  assert (I : In (N.to_nat t) (seq 0 (List.length error_codes))).
  { apply in_seq. split; [lia|]. apply nth_error_Some. congruence. }
  pose proof (proj1 (forallb_forall _ _) H _ I) as Q. cbv beta in Q. rewrite A in Q.
  assert (J : In (N.to_nat c) (seq 0 (List.length codes))).
  { apply in_seq. split; [lia|]. apply nth_error_Some. congruence. }
  pose proof (proj1 (forallb_forall _ _) Q _ J) as R. cbv beta in R. rewrite B, !N2Nat.id in R.
  apply String.eqb_eq. exact R.
Qed.
Print Assumptions C82_error_codes.

(** One constant does not print its own name. *)
Theorem C82_class_misspelt_refuted : exists c, c = 65535%N (* OFPXMC_EXPERIMENTER *)
  /\ text_XMClass c = "XMClassExperimeter" /\ text_XMClass c <> "XMClassExperimenter".
Proof. exists 65535%N. split; [reflexivity|]. split; [reflexivity|vm_compute; discriminate]. Qed.
Print Assumptions C82_class_misspelt_refuted.

Example C82_ex :
  text PType 10 = "TypePacketIn" /\ text PType 30 = "Type(30)"
  /\ text PTable 254 = "Table(254)" /\ text PClass 32768 = "XMClassOpenflowBasic"
  /\ text_Error 5 1 = "ErrCodeFlowModFailedTableFull"
  /\ text_Error 5 8 = "ErrTypeFlowModFailedCode(8)"
  /\ text_Error 65535 7 = "ErrTypeExperimenterCode(7)"
  /\ text_Error 14 3 = "ErrType(14)Code(3)"
  /\ text PMultipart 13 = "MultipartTypePortDescription" /\ text PConnState 5 = "ConnState(5)".
Proof. vm_compute. repeat split. Qed.

(** ** C83 *)
(** The protocol's flags in the order of their bits, as they are printed. *)
Definition feature_names : list string :=
  ["10 Mbps half-duplex"; "10 Mbps full-duplex"; "100 Mbps half-duplex"; "100 Mbps full-duplex";
   "1 Gbps half-duplex"; "1 Gbps full-duplex"; "10 Gbps full-duplex"; "40 Gbps full-duplex";
   "100 Gbps full-duplex"; "1 Tbps full-duplex"; "other"; "copper"; "fiber"; "autoneg"; "pause"; "pause asym"].
Definition config_names : list string :=
  ["down"; "no STP"; "no recv"; "no recv STP"; "no flood"; "no fwd"; "no packet in"].

(** The names of the bits that are set in [f]. *)
Definition set_bits (names : list string) (f : N) : list string :=
  map snd (filter (fun in_ => N.testbit f (N.of_nat (fst in_))) (combine (seq 0 (List.length names)) names)).

(** Words with one blank between them. *)
Fixpoint words (l : list string) : string :=
  match l with [] => "" | [w] => w | w :: l' => w ++ " " ++ words l' end.

(** The text lists the known flags that are set, in the order of their bits. *)
Lemma flags_set_bits names t f : map snd t = names -> consecutive t -> flags t f = set_bits names f.
Proof.
  intros <- C. rewrite flags_sel, bits_test by exact C. unfold set_bits. rewrite map_length.
  clear C. generalize 0%nat as a. induction t as [|[m x] t IH]; intro a; [reflexivity|].
  cbn [List.length seq map sel snd combine filter fst]. rewrite IH.
  destruct (N.testbit f (N.of_nat a)); reflexivity.
Qed.

Lemma words_join l : join " " l = words l.
Proof.
  induction l as [|w l IH]; [reflexivity|]. cbn [join words]. destruct l; [reflexivity|].
  rewrite IH. reflexivity.
Qed.

Theorem C83_features : forall f, text_PortFeature f = words (set_bits feature_names f).
Proof. intro f. unfold text_PortFeature. rewrite (flags_set_bits feature_names) by reflexivity. apply words_join. Qed.
Print Assumptions C83_features.

Theorem C83_config : forall c, text_PortConfig c
  = words ((if N.testbit c 0 then [] else ["up"]) ++ set_bits config_names c)%list.
Proof.
  intro c. unfold text_PortConfig. rewrite (flags_set_bits config_names), words_join by reflexivity.
  pose proof (bit_test 0 c) as B. change (2 ^ 0)%N with 1%N in B. rewrite <- B.
  destruct (N.eqb (N.land 1 c) 0); reflexivity.
Qed.
Print Assumptions C83_config.

(** The text tells which known flags are set, and nothing else. *)
Theorem C83_features_known : forall f g,
  text_PortFeature f = text_PortFeature g <-> (f mod 65536 = g mod 65536)%N.
Proof. exact feature_text. Qed.
Print Assumptions C83_features_known.
Theorem C83_config_known : forall c d,
  text_PortConfig c = text_PortConfig d <-> (c mod 128 = d mod 128)%N.
Proof. exact config_text. Qed.
Print Assumptions C83_config_known.

(** A port state of more than one flag, or of none known, prints "link up":
    also when the link is down. *)
Theorem C83_state : forall s,
  text_PortState s = (if N.eqb s 1 then "link down" else if N.eqb s 2 then "blocked"
                      else if N.eqb s 4 then "live" else "link up").
Proof. intro s. unfold text_PortState. cbn. destruct (N.eqb s 1), (N.eqb s 2), (N.eqb s 4); reflexivity. Qed.
Print Assumptions C83_state.

Theorem C83_link_down_prints_up : forall s, N.testbit s 0 = true -> s <> 1%N ->
  text_PortState s = "link up".
Proof.
  intros s B D. rewrite C83_state. destruct (N.eqb_spec s 1), (N.eqb_spec s 2), (N.eqb_spec s 4);
    subst; try congruence; discriminate B.
Qed.
Print Assumptions C83_link_down_prints_up.

Theorem C83_link_down_refuted : exists s, N.testbit s 0 = true /\ text_PortState s = "link up".
Proof. exists 3%N. split; reflexivity. Qed.
Print Assumptions C83_link_down_refuted.

Example C83_ex :
  text_PortFeature 49184 = "1 Gbps full-duplex pause pause asym"
  /\ text_PortFeature 0 = "" /\ text_PortFeature 65536 = ""
  /\ text_PortConfig 0 = "up" /\ text_PortConfig 37 = "down no recv no fwd"
  /\ N.testbit 3 0 = true /\ text_PortState 3 = "link up" /\ text_PortState 1 = "link down".
Proof. vm_compute. repeat split. Qed.
