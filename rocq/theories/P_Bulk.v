(** C102: reading a message takes memory in proportion to what was read. *)
From Verif Require Import BulkTables TableFacts.

Definition thrifty (b : bulky) : Prop := match b with Bulky A w rd => frugal w rd end.

(** Every decoder but those of the three kinds below: a value read into holds
    at most 64 elements or bytes more than before per byte taken from the
    reader, whether reading succeeds or fails. *)
Theorem C102_frugal : Forall thrifty
  [Bulky _ bulk_Match dec_Match; Bulky _ (bulk_list bulk_XM) (read_all_xm true); Bulky _ bulk_XM (dec_xm true); Bulky _ bulk_XM (dec_xm false);
   Bulky _ bulk_Action dec_Action; Bulky _ bulk_Actions dec_Actions;
   Bulky _ bulk_Instruction dec_Instruction; Bulky _ bulk_Instructions dec_Instructions;
   Bulky _ bulk_FlowMod dec_FlowMod; Bulky _ bulk_FlowStats dec_FlowStats; Bulky _ bulk_FlowRemoved dec_FlowRemoved;
   Bulky _ bulk_FlowStatsRequest dec_FlowStatsRequest; Bulky _ bulk_AggregateStatsRequest dec_AggregateStatsRequest;
   Bulky _ bulk_PacketIn dec_PacketIn; Bulky _ bulk_PacketOut dec_PacketOut;
   Bulky _ bulk_Bucket dec_Bucket; Bulky _ bulk_GroupMod dec_GroupMod; Bulky _ bulk_GroupDescStats dec_GroupDescStats;
   Bulky _ bulk_GroupStats dec_GroupStats;
   Bulky _ bulk_MeterBands dec_MeterBands; Bulky _ bulk_MeterMod dec_MeterMod; Bulky _ bulk_MeterConfig dec_MeterConfig;
   Bulky _ bulk_MeterStats dec_MeterStats;
   Bulky _ bulk_QueueProp dec_QueueProp; Bulky _ bulk_QueueProps dec_QueueProps; Bulky _ bulk_PacketQueue dec_PacketQueue;
   Bulky _ bulk_QueueGetConfigReply dec_QueueGetConfigReply;
   Bulky _ bulk_HelloElems dec_HelloElems; Bulky _ bulk_Hello dec_Hello;
   Bulky _ (bulk_list nothing) dec_Ports;
   Bulky _ (fun m => length (EchoRequest_Data m)) dec_EchoRequest; Bulky _ (fun m => length (EchoReply_Data m)) dec_EchoReply;
   Bulky _ (fun m => length (Error_Data m)) dec_Error;
   Bulky _ (fun m => length (ErrorExperimenter_Data m)) dec_ErrorExperimenter;
   Bulky _ bulk_MultipartRequest dec_MultipartRequest].
Proof.
  assert (A : lean bulk_Action dec_Action).
  { apply lean_brisk; [exact brisk_Action| |]; intros []; first [reflexivity|cbn; lia]. }
  assert (I : lean bulk_Instruction dec_Instruction).
  { apply lean_brisk; [exact brisk_Instruction| |]; intros []; first [reflexivity|cbn; lia]. }
  assert (Q : lean bulk_QueueProp dec_QueueProp).
  { apply lean_brisk; [exact brisk_QueueProp| |]; intros []; first [reflexivity|cbn; lia]. }
  repeat apply Forall_cons; try apply Forall_nil; apply lean_frugal;
    first [exact A|exact I|exact Q|apply lean_entries|apply lean_xm|exact lean_Match|exact lean_Actions|exact lean_Instructions
          |exact lean_FlowMod|exact lean_FlowStats|exact lean_FlowRemoved|exact lean_FlowStatsRequest|exact lean_AggregateStatsRequest
          |exact lean_PacketIn|exact lean_PacketOut|exact lean_Bucket|exact lean_GroupMod|exact lean_GroupDescStats|exact lean_GroupStats
          |exact lean_MeterBands|exact lean_MeterMod|exact lean_MeterConfig|exact lean_MeterStats|exact lean_QueueProps
          |exact lean_PacketQueue|exact lean_QueueGetConfigReply|exact lean_HelloElems|exact lean_Hello|exact lean_Ports
          |exact lean_EchoRequest|exact lean_EchoReply|exact lean_Error|exact lean_ErrorExperimenter|exact lean_MultipartRequest].
Qed.
Print Assumptions C102_frugal.

(** A match with two entries, read into one that held an entry already; the
    bulk is two entries and their three bytes. *)
Example C102_frugal_ex :
  let inp := [x00; x01; x00; x13; x80; x00; x00; x04; x00; x00; x00; x01; x80; x00; x0a; x02; x08; x00; x00; x00; x00; x00; x00; x00] in
  let r := dec_Match (MkMatch 0 [zero_XM]) inp in
  fail r = None /\ bulk_Match (val r) = 1 + 4 + (1 + 2) /\ length inp - length (rest r) = 24.
Proof. vm_compute. auto. Qed.

(** Table properties other than the list of next tables. *)
Theorem C102_properties : forall p inp, (forall m l, p <> TNextTables m l) ->
  length (rest (dec_TableProp p inp)) <= length inp
  /\ bulk_TableProp (val (dec_TableProp p inp)) <= bulk_TableProp p + 64 * (length inp - length (rest (dec_TableProp p inp))).
Proof. intros p inp H. apply lean_other, H. Qed.
Print Assumptions C102_properties.

(** The factor 64 is not too large: fields of which only the four bytes of
    their names are sent are given values of up to 255 zero bytes. *)
Theorem C102_factor : forall n, (N.of_nat (4 + 4 * n) < 65536)%N ->
  exists inp, length inp <= 8 + 4 * n + 3
    /\ fail (dec_TableProp (TMatch []) inp) = None
    /\ bulk_TableProp (val (dec_TableProp (TMatch []) inp)) = 256 * n.
Proof.
  intros n L. set (l := repeat (MkFieldId 32768 0 false 255) n).
  assert (Wf : Forall wf_field_id l) by (apply Forall_forall; intros x X; apply repeat_spec in X; subst x; repeat split).
  assert (Len : length l = n) by apply repeat_length.
  exists (standard_fields 8 l).
  assert (Bl : (N.of_nat (4 + 4 * length l) < 65536)%N) by (rewrite Len; exact L).
  pose proof (rt_standard 8 l ltac:(reflexivity) Wf Bl (TMatch []) []) as R.
  rewrite app_nil_r in R. cbn [dec_TableProp]. rewrite R. cbn [fail val]. split; [|split; [reflexivity|]].
  - unfold standard_fields. rewrite Len, !app_length, !be_enc_length, ids_length, zeros_length, Len. unfold up8.
    pose proof (Nat.div_mod (4 + 4 * n + 7) 8 ltac:(lia)). lia.
  - cbn [set_miss set_xms bulk_TableProp]. clear R Bl Wf Len L. unfold l. clear l.
    induction n as [|n IH]; [reflexivity|]. cbn [repeat map bulk_list]. rewrite IH.
    change (bulk_XM (field_id_read (MkFieldId 32768 0 false 255))) with 255. lia.
Qed.
Print Assumptions C102_factor.

Example C102_factor_ex :
  let inp := [x00; x08; x00; x0c; x80; x00; x00; xff; x80; x00; x02; xff; x00; x00; x00; x00] in
  length inp = 16 /\ bulk_TableProp (val (dec_TableProp (TMatch []) inp)) = 512.
Proof. vm_compute. auto. Qed.

(** Lists of next tables, version elements and table features: one list of
    announced length may come on top, at most 65535 elements. *)
Theorem C102_announced :
  nearly_frugal bulk_TableProp dec_TableProp
  /\ nearly_frugal bulk_HelloElem dec_HelloElem
  /\ nearly_frugal bulk_TableFeatures dec_TableFeatures.
Proof.
  split; [|split]; apply stretched_frugal;
    [exact stretched_TableProp|exact stretched_HelloElem|exact stretched_TableFeatures].
Qed.
Print Assumptions C102_announced.

(** The list is made from the length alone: four bytes are enough for every
    length there is, and the value keeps the list although nothing was read. *)
Theorem C102_four_bytes : forall m a b,
  let l := sub16 (be_dec [a; b]) 4 in
  get_types (val (dec_TableProp (TNextTables m []) [x00; x02; a; b])) = repeat 0%N (N.to_nat l)
  /\ HelloElem_Bitmaps (val (dec_HelloElem (MkHelloElem []) [x00; x01; a; b])) = repeat 0%N (N.to_nat (l / 4)).
Proof.
  intros m a b l. split.
  - cbn [dec_TableProp]. unfold dec_prop_tables.
    assert (H : prop_head (0%N, TNextTables m []) [x00; x02; a; b] = Res (be_dec [a; b], TNextTables false []) 4 None []) by reflexivity.
    rewrite (with_local_eq _ _ _ _ _ _ _ _ (andthen_ok _ _ _ _ _ _ _ H)). cbn [fst snd val]. cbv zeta. fold l. clear H.
    generalize (N.to_nat l) as k. intro k. unfold pre. cbn [fst snd set_types seqr].
    unfold fus, take_full at 1 2 3 4. destruct k as [|k]; [|reflexivity]. cbn [Nat.mul length Nat.ltb Nat.leb fail val rest skipn firstn].
    unfold fpad, take_full. destruct (Nat.ltb _ _); reflexivity.
  - unfold dec_HelloElem. set (f := seqr _).
    assert (H : f (0%N, MkHelloElem []) [x00; x01; a; b] = Res (be_dec [a; b], MkHelloElem []) 4 None []) by reflexivity.
    rewrite (with_local_eq _ _ _ _ _ _ _ _ (andthen_ok _ _ _ _ _ _ _ H)). cbn [fst snd val]. cbv zeta. fold l. clear H.
    generalize (N.to_nat (l / 4)) as k. intro k. unfold limited, pre. rewrite firstn_nil. cbn [fst snd val].
    unfold fus, take_full. destruct k as [|k]; reflexivity.
Qed.
Print Assumptions C102_four_bytes.

Example C102_four_bytes_ex :
  sub16 (be_dec [x00; x03]) 4 = 65535%N
  /\ fail (dec_TableProp (TNextTables false []) [x00; x02; x00; x03]) = Some EOF.
Proof. split; vm_compute; reflexivity. Qed.

(** Inside table features the end of the input there is not even an error: 68
    bytes are read without error into a value with 65535 table numbers, none of
    which was sent. *)
Theorem C102_features_refuted : exists inp l,
  length inp = 68 /\ fail (dec_TableFeatures zero_TableFeatures inp) = None
  /\ TableFeatures_Properties (val (dec_TableFeatures zero_TableFeatures inp)) = [TNextTables false l]
  /\ N.of_nat (length l) = 65535%N /\ Forall (eq 0%N) l.
Proof.
  set (inp := [x00; x44] ++ repeat x00 62 ++ [x00; x02; x00; x03]).
  assert (F : fail (dec_TableFeatures zero_TableFeatures inp) = None) by (vm_compute; reflexivity).
  set (ok := fun ps => match ps with [TNextTables false l] => (N.of_nat (length l) =? 65535)%N && forallb (N.eqb 0) l | _ => false end).
  assert (O : ok (TableFeatures_Properties (val (dec_TableFeatures zero_TableFeatures inp))) = true) by (vm_compute; reflexivity).
  assert (L : length inp = 68) by reflexivity. clearbody inp.
  destruct (TableFeatures_Properties _) as [|[| [] l| | | | | | |] [|]] eqn:P; try discriminate O.
  exists inp, l. cbn [ok] in O. apply andb_prop in O. destruct O as (O1 & O2). split; [exact L|]. split; [exact F|]. split; [exact P|]. split.
  - apply N.eqb_eq, O1.
  - apply Forall_forall. intros x X. rewrite forallb_forall in O2. apply N.eqb_eq, O2, X.
Qed.
Print Assumptions C102_features_refuted.

(** A list of next tables that is read without error holds what was sent. *)
Theorem C102_read_whole : forall p inp, fail (dec_TableProp p inp) = None ->
  bulk_TableProp (val (dec_TableProp p inp)) <= bulk_TableProp p + 64 * (length inp - length (rest (dec_TableProp p inp))).
Proof.
  intros p [|x inp] F.
  - destruct (empty_TableProp p) as (A & B). rewrite A, B. lia.
  - pose proof (prop_bulk p (x :: inp) ltac:(cbn; lia)) as (A & B). rewrite F in B. lia.
Qed.
Print Assumptions C102_read_whole.

Example C102_read_whole_ex :
  let r := dec_TableProp (TNextTables false []) [x00; x02; x00; x06; x07; x09; x00; x00] in
  fail r = None /\ val r = TNextTables false [7%N; 9%N].
Proof. vm_compute. auto. Qed.
