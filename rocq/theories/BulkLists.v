(** The decoders of the messages one by one. *)
From Coq Require Import ZifyNat ZifyN.
From Verif Require Export BulkFacts.
From Verif Require Import StepFacts LoopFacts MatchFacts ActionFacts InstructionFacts FlowFacts TableFacts DataFacts FixedFacts PortsFacts SafetyFacts.

Lemma lean_fu {St} (W : St -> nat) k set : (forall v s, W (set v s) = W s) -> lean W (fu k set).
Proof. intro H. apply lean_take. intros b s. rewrite H. lia. Qed.
Lemma brisk_fu {St} (W : St -> nat) k set : 1 <= k -> (forall v s, W (set v s) = W s) -> brisk W (fu k set).
Proof. intros K H. apply brisk_take; [exact K|]. intros b s. rewrite H. lia. Qed.
Lemma lean_fbytes {St} (W : St -> nat) k set : (forall v s, W (set v s) = W s) -> lean W (fbytes k set).
Proof. intro H. apply lean_take. intros b s. rewrite H. lia. Qed.
Lemma brisk_fbytes {St} (W : St -> nat) k set : 1 <= k -> (forall v s, W (set v s) = W s) -> brisk W (fbytes k set).
Proof. intros K H. apply brisk_take; [exact K|]. intros b s. rewrite H. lia. Qed.
Lemma lean_fpad {St} (W : St -> nat) k : lean W (fpad k).
Proof. apply lean_take. lia. Qed.
Lemma brisk_fpad {St} (W : St -> nat) k : 1 <= k -> brisk W (fpad k).
Proof. intro K. apply brisk_take; [exact K|]. lia. Qed.
Lemma lean_snd {L St} (W : St -> nat) rd : lean W rd ->
  lean (fun p : L * St => W (snd p)) (sub snd (fun x s => (fst s, x)) rd).
Proof. apply lean_sub. intros [l s] x. cbn [fst snd]. lia. Qed.
Lemma brisk_snd {L St} (W : St -> nat) rd : brisk W rd ->
  brisk (fun p : L * St => W (snd p)) (sub snd (fun x s => (fst s, x)) rd).
Proof. apply brisk_sub. intros [l s] x. cbn [fst snd]. lia. Qed.

Ltac same := intros ? []; reflexivity.

Ltac leanly :=
  repeat lazymatch goal with
    | |- Forall _ [] => apply Forall_nil
    | |- Forall _ (_ :: _) => apply Forall_cons
    | |- lean _ (limited _ _) => apply lean_limited
    | |- lean _ (with_local _ _) => apply lean_with_local
    | |- lean _ (andthen _ _) => apply lean_andthen; [|intros ? ?; cbv beta zeta]
    | |- lean _ (andthen_ignoring _ _) => apply lean_andthen_ignoring; [|intros ? ?; cbv beta zeta]
    | |- lean _ (seqr _) => apply lean_seqr
    | |- lean _ (sub snd _ _) => apply lean_snd
    | |- lean _ (fpad _) => apply lean_fpad
    | |- lean _ (fu _ _) => apply lean_fu; [same]
    | |- lean _ (fbytes _ _) => apply lean_fbytes; [same]
    | |- brisk _ (with_local _ _) => apply brisk_with_local
    | |- brisk _ (andthen _ _) => apply brisk_andthen; [|intros ? ?; cbv beta zeta]
    | |- brisk _ (seqr (_ :: _)) => apply brisk_seqr
    | |- brisk _ (sub snd _ _) => apply brisk_snd
    | |- brisk _ (fpad _) => apply brisk_fpad; [lia]
    | |- brisk _ (fu _ _) => apply brisk_fu; [lia|same]
    | |- brisk _ (fbytes _ _) => apply brisk_fbytes; [lia|same]
    end.

Lemma lean_Match : lean bulk_Match dec_Match.
Proof.
  unfold dec_Match. apply lean_pre; [intros s; cbn; lia|]. leanly.
  apply (lean_sub _ (bulk_list bulk_XM)); [|apply lean_entries]. intros [t l] x. apply Nat.eq_le_incl, Nat.add_comm.
Qed.

Lemma lean_FlowRemoved : lean bulk_FlowRemoved dec_FlowRemoved.
Proof. unfold dec_FlowRemoved. leanly. apply (lean_sub _ bulk_Match); [|exact lean_Match]. intros [] x. apply Nat.eq_le_incl, Nat.add_comm. Qed.
Lemma lean_FlowStatsRequest : lean bulk_FlowStatsRequest dec_FlowStatsRequest.
Proof. unfold dec_FlowStatsRequest. leanly. apply (lean_sub _ bulk_Match); [|exact lean_Match]. intros [] x. apply Nat.eq_le_incl, Nat.add_comm. Qed.
Lemma lean_AggregateStatsRequest : lean bulk_AggregateStatsRequest dec_AggregateStatsRequest.
Proof. unfold dec_AggregateStatsRequest. leanly. apply (lean_sub _ bulk_Match); [|exact lean_Match]. intros [] x. apply Nat.eq_le_incl, Nat.add_comm. Qed.
Lemma lean_PacketIn : lean bulk_PacketIn dec_PacketIn.
Proof.
  unfold dec_PacketIn. leanly.
  - apply (lean_sub _ bulk_Match); [|exact lean_Match]. intros ss x. unfold bulk_PacketIn. cbn [set_PacketIn_Match PacketIn_Match PacketIn_Data]. lia.
  - apply lean_readall. intros b ss. unfold bulk_PacketIn. cbn [set_PacketIn_Data PacketIn_Match PacketIn_Data]. lia.
Qed.

Lemma lean_EchoRequest : lean (fun m => length (EchoRequest_Data m)) dec_EchoRequest.
Proof. apply lean_readall. intros b ss. cbn [set_EchoRequest_Data EchoRequest_Data]. lia. Qed.
Lemma lean_EchoReply : lean (fun m => length (EchoReply_Data m)) dec_EchoReply.
Proof. apply lean_readall. intros b ss. cbn [set_EchoReply_Data EchoReply_Data]. lia. Qed.
Lemma lean_Error : lean (fun m => length (Error_Data m)) dec_Error.
Proof. unfold dec_Error. leanly. apply lean_readall. intros b ss. cbn [set_Error_Data Error_Data]. lia. Qed.
Lemma lean_ErrorExperimenter : lean (fun m => length (ErrorExperimenter_Data m)) dec_ErrorExperimenter.
Proof. unfold dec_ErrorExperimenter. leanly. apply lean_readall. intros b ss. cbn [set_ErrorExperimenter_Data ErrorExperimenter_Data]. lia. Qed.
Lemma lean_MultipartRequest : lean bulk_MultipartRequest dec_MultipartRequest.
Proof. unfold dec_MultipartRequest. leanly. apply lean_readall. intros b ss. unfold bulk_MultipartRequest. cbn [set_MultipartRequest_Body MultipartRequest_Body]. lia. Qed.

Lemma brisk_Action : brisk bulk_Action dec_Action.
Proof.
  assert (F : brisk bulk_Action dec_set_field).
  { unfold dec_set_field. leanly.
    - apply (lean_sub _ bulk_XM); [|apply lean_xm]. intros [] x; unfold bulk_Action, set_field, get_field; try (change (bulk_XM zero_XM) with 0); lia.
    - apply lean_readall. intros b ss. lia. }
  intros a. destruct a; try (apply F); unfold dec_Action; apply brisk_seqr;
    repeat first [apply brisk_fpad; lia|apply Forall_cons|apply Forall_nil|apply lean_fpad|apply lean_fu; same].
Qed.

Lemma made_action t a : make_action t = MkOk a -> bulk_Action a = 0.
Proof.
  unfold make_action. repeat (destruct (_ =? _)%N; [intro X; try discriminate; injection X as <-; reflexivity|]). discriminate.
Qed.

Lemma lean_Actions : lean bulk_Actions dec_Actions.
Proof. unfold dec_Actions. apply lean_pre; [intro; cbn; lia|]. apply lean_scan; [exact brisk_Action|exact made_action]. Qed.

Lemma brisk_Instruction : brisk bulk_Instruction dec_Instruction.
Proof.
  assert (F : brisk bulk_Instruction dec_instruction_actions).
  { unfold dec_instruction_actions. leanly. apply (lean_sub _ bulk_Actions); [|apply lean_Actions].
    intros [] x; cbn [bulk_Instruction set_actions get_actions]; try (change (bulk_Actions []) with 0); lia. }
  intros a. destruct a; try (apply F); unfold dec_Instruction; apply brisk_seqr;
    repeat first [apply brisk_fpad; lia|apply Forall_cons|apply Forall_nil|apply lean_fpad|apply lean_fu; same].
Qed.

Lemma lean_Instructions : lean bulk_Instructions dec_Instructions.
Proof.
  apply lean_scan; [exact brisk_Instruction|]. intros t a. unfold make_instruction.
  repeat (destruct (_ =? _)%N; [intro X; try discriminate; injection X as <-; reflexivity|]). discriminate.
Qed.

Lemma lean_FlowMod : lean bulk_FlowMod dec_FlowMod.
Proof.
  unfold dec_FlowMod. apply lean_pre; [intros []; unfold bulk_FlowMod; cbn; lia|]. leanly.
  - apply (lean_sub _ bulk_Match); [|exact lean_Match]. intros ss x. unfold bulk_FlowMod. cbn [set_FlowMod_Match FlowMod_Match FlowMod_Instructions]. lia.
  - apply (lean_sub _ bulk_Instructions); [|exact lean_Instructions]. intros ss x. unfold bulk_FlowMod. cbn [set_FlowMod_Instructions FlowMod_Match FlowMod_Instructions]. lia.
Qed.

Lemma lean_FlowStats : lean bulk_FlowStats dec_FlowStats.
Proof.
  unfold dec_FlowStats. leanly.
  - apply (lean_sub _ bulk_Match); [|exact lean_Match]. intros ss x. unfold bulk_FlowStats. cbn [set_FlowStats_Match FlowStats_Match FlowStats_Instructions]. lia.
  - apply lean_pre; [intros [? []]; unfold bulk_FlowStats; cbn; lia|]. leanly.
    apply (lean_sub _ bulk_Instructions); [|exact lean_Instructions]. intros ss x. unfold bulk_FlowStats. cbn [set_FlowStats_Instructions FlowStats_Match FlowStats_Instructions]. lia.
Qed.

Lemma lean_PacketOut : lean bulk_PacketOut dec_PacketOut.
Proof.
  unfold dec_PacketOut. leanly.
  - apply lean_pre; [intros [? []]; unfold bulk_PacketOut; cbn; lia|]. leanly.
    apply (lean_sub _ bulk_Actions); [|exact lean_Actions]. intros ss x. unfold bulk_PacketOut. cbn [set_PacketOut_Actions PacketOut_Actions PacketOut_Data]. lia.
  - apply lean_readall. intros b ss. unfold bulk_PacketOut. cbn [set_PacketOut_Data PacketOut_Actions PacketOut_Data]. lia.
Qed.

Lemma lean_Bucket : lean bulk_Bucket dec_Bucket.
Proof.
  unfold dec_Bucket. leanly. apply lean_pre; [intros [? []]; cbn; lia|]. leanly.
  apply (lean_sub _ bulk_Actions); [|exact lean_Actions]. intros [] x. apply Nat.eq_le_incl, Nat.add_comm.
Qed.


Lemma lean_kind k : lean nothing (dec k).
Proof.
  intros s inp. destruct (suffixing_fixed _ _ (fixed_all k) s inp) as [u E]. apply (f_equal (@length _)) in E.
  rewrite app_length in E. unfold nothing. lia.
Qed.

Lemma lean_GroupMod : lean bulk_GroupMod dec_GroupMod.
Proof. unfold dec_GroupMod. leanly. exact (lean_readslice _ _ _ _ lean_Bucket). Qed.
Lemma lean_GroupDescStats : lean bulk_GroupDescStats dec_GroupDescStats.
Proof. unfold dec_GroupDescStats. leanly. exact (lean_readslice _ _ _ _ lean_Bucket). Qed.
Lemma lean_GroupStats : lean bulk_GroupStats dec_GroupStats.
Proof. unfold dec_GroupStats. leanly. exact (lean_readslice _ _ _ _ (lean_kind KBucketCounter)). Qed.

Lemma lean_MeterBand : brisk nothing dec_MeterBand.
Proof.
  intros a. destruct a; unfold dec_MeterBand; apply brisk_seqr;
    repeat first [apply brisk_fpad; lia|apply Forall_cons|apply Forall_nil|apply lean_fpad|apply lean_fu; reflexivity].
Qed.
Lemma lean_MeterBands : lean bulk_MeterBands dec_MeterBands.
Proof. unfold dec_MeterBands. apply lean_lost, lean_scan; [exact lean_MeterBand|reflexivity]. Qed.
Lemma lean_MeterMod : lean bulk_MeterMod dec_MeterMod.
Proof.
  unfold dec_MeterMod. leanly. apply (lean_sub _ bulk_MeterBands); [|exact lean_MeterBands].
  intros [] x. apply Nat.eq_le_incl, Nat.add_comm.
Qed.
Lemma lean_MeterConfig : lean bulk_MeterConfig dec_MeterConfig.
Proof.
  unfold dec_MeterConfig. leanly. apply (lean_sub _ bulk_MeterBands); [|exact lean_MeterBands].
  intros [] x. apply Nat.eq_le_incl, Nat.add_comm.
Qed.
Lemma lean_MeterStats : lean bulk_MeterStats dec_MeterStats.
Proof. unfold dec_MeterStats. leanly. exact (lean_readslice _ _ _ _ (lean_kind KMeterBandStats)). Qed.

Lemma brisk_QueueProp : brisk bulk_QueueProp dec_QueueProp.
Proof.
  assert (E : brisk bulk_QueueProp (with_local 0%N
        (andthen (seqr [fbytes 4 (fun b s => (be_dec (skipn 2 b), snd s)); fpad 4;
                        sub snd (fun m s => (fst s, m)) (fu 4 set_queue_experimenter); fpad 4])
           (fun _ h => limited (Z.of_N (sub16 (fst h) 16))
              (sub snd (fun m s => (fst s, m)) (readall set_queue_data)))))).
  { leanly. apply lean_readall. intros b []; unfold bulk_QueueProp, set_queue_data; lia. }
  intros a. destruct a; try (apply E); unfold dec_QueueProp; apply brisk_seqr;
    repeat first [apply brisk_fpad; lia|apply Forall_cons|apply Forall_nil|apply lean_fpad|apply lean_fu; same].
Qed.
Lemma lean_QueueProps : lean bulk_QueueProps dec_QueueProps.
Proof.
  unfold dec_QueueProps. apply lean_lost, lean_scan; [exact brisk_QueueProp|]. intros t a. unfold make_queue_prop.
  repeat (destruct (_ =? _)%N; [intro X; injection X as <-; reflexivity|]). discriminate.
Qed.
Lemma lean_PacketQueue : lean bulk_PacketQueue dec_PacketQueue.
Proof.
  unfold dec_PacketQueue. leanly. apply (lean_sub _ bulk_QueueProps); [|exact lean_QueueProps].
  intros [] x. apply Nat.eq_le_incl, Nat.add_comm.
Qed.
Lemma lean_QueueGetConfigReply : lean bulk_QueueGetConfigReply dec_QueueGetConfigReply.
Proof. unfold dec_QueueGetConfigReply. leanly. exact (lean_readslice _ _ _ _ lean_PacketQueue). Qed.

Lemma brisk_HelloElem : brisk nothing dec_HelloElem.
Proof.
  unfold dec_HelloElem. leanly. apply lean_pre; [reflexivity|]. leanly.
  apply lean_take. intros. unfold nothing. lia.
Qed.
Lemma lean_HelloElems : lean bulk_HelloElems dec_HelloElems.
Proof.
  unfold dec_HelloElems. apply (lean_lost' _ (bulk_list nothing)), lean_scan; [exact brisk_HelloElem|reflexivity].
Qed.
Lemma lean_Hello : lean bulk_Hello dec_Hello.
Proof.
  unfold dec_Hello. leanly. apply (lean_sub _ bulk_HelloElems); [|exact lean_HelloElems].
  intros [] x. apply Nat.eq_le_incl, Nat.add_comm.
Qed.

Lemma port_nothing : fail (dec_Port zero_Port []) = Some EOF.
Proof. vm_compute. reflexivity. Qed.

Lemma port_rest inp : length (rest (dec_Port zero_Port inp)) <= length inp
  /\ (inp <> [] -> length (rest (dec_Port zero_Port inp)) < length inp).
Proof.
  destruct (fixed_Port zero_Port inp) as (A & B). generalize dependent (dec_Port zero_Port inp). intros r A B.
  destruct (Nat.lt_ge_cases (length inp) 64) as [L|L].
  - destruct (A L) as (_ & _ & ->). cbn [length]. split; [lia|]. destruct inp; [congruence|cbn [length]; lia].
  - destruct (B L) as (_ & _ & ->). rewrite skipn_length. lia.
Qed.

Lemma lean_Ports : lean (bulk_list nothing) dec_Ports.
Proof.
  intros s inp. unfold dec_Ports. generalize (Datatypes.S (length inp)) as fuel. intro fuel. revert s inp.
  induction fuel as [|fuel IH]; intros acc inp; [cbn; lia|]. rewrite ports_loop_S.
  assert (P : length (rest (dec_Port zero_Port inp)) < length inp \/ fail (dec_Port zero_Port inp) = Some EOF).
  { destruct inp; [right; exact port_nothing|left; apply port_rest; discriminate]. }
  pose proof (proj1 (port_rest inp)) as R. generalize dependent (dec_Port zero_Port inp). intros r P R.
  destruct (fail r) as [e|].
  - destruct e; cbn [val rest]; rewrite ?bulk_list_app; cbn [bulk_list]; change (nothing (val r)) with 0; destruct P as [P|P]; try discriminate P; lia.
  - destruct P as [P|P]; [|discriminate P]. specialize (IH (acc ++ [val r]) (rest r)). rewrite bulk_list_app in IH. cbn [bulk_list] in IH.
    change (nothing (val r)) with 0 in IH. cbn [val rest]. lia.
Qed.
