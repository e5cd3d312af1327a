(** C107: programs that read messages and send them on. *)
From Verif Require Import FixedFacts FlowFacts LoopFacts TableFacts DataFacts RequestFacts P_Varying P_Distinct
  DistinctSpec RequestSpec VaryingModel VaryingSpec ProxySpec ListFacts.
From Coq Require Import Lia.

Lemma becomes_of {A} (dec : step A) enc old b m : fail (dec old b) = None -> val (dec old b) = m ->
  (lenN (enc m) <= 65527)%N -> becomes dec enc old b (enc m).
Proof.
  intros F V L v t x q (H & B & _). unfold sent_on. rewrite B. cbn [content fst]. rewrite F, V.
  destruct (write_sink (set_header (Request_Header q) (new_request (Header_Type (Request_Header q)) (Some (MkPayload (enc m) None))))
              (enc m) eq_refl L) as (e & W & _ & _ & E).
  exists e. split; [|exact W]. cbn [set_header Request_Header] in E. rewrite H in E. exact E.
Qed.

Lemma fixtext_twice w s : fixtext w (fixtext w s) = fixtext w s.
Proof.
  rewrite !fixtext_wire. unfold wire_text. apply map_ext_in. intros p Hp. apply in_seq in Hp.
  change (nth p (map (fun q => nth q s x00) (seq 0 w)) x00 = nth p s x00).
  rewrite (nth_indep _ x00 (nth 0 s x00)) by (rewrite map_length, seq_length; lia).
  rewrite (map_nth (fun q => nth q s x00)), seq_nth by lia. reflexivity.
Qed.

Lemma enc_normal k m : enc k (normal k m) = enc k m.
Proof.
  destruct k; try reflexivity; cbn [normal enc].
  - unfold enc_Port, normal_port. cbn [Port_PortNo Port_HWAddr Port_Name Port_Config Port_State Port_Curr
      Port_Advertised Port_Supported Port_Peer Port_CurrSpeed Port_MaxSpeed]. rewrite <- fixtext_wire, fixtext_twice. reflexivity.
  - unfold enc_PortStatus, enc_Port, normal_port. cbn [PortStatus_Reason PortStatus_Port Port_PortNo Port_HWAddr Port_Name Port_Config Port_State Port_Curr
      Port_Advertised Port_Supported Port_Peer Port_CurrSpeed Port_MaxSpeed]. rewrite <- fixtext_wire, fixtext_twice. reflexivity.
  - unfold enc_Description. cbn [Description_Manufacturer Description_Hardware Description_Software
      Description_SerialNum Description_Datapath]. rewrite <- !fixtext_wire, !fixtext_twice. reflexivity.
Qed.

Lemma rt_body {A} (f : step A) b g old : rt f b g -> fail (f old b) = None /\ val (f old b) = g old.
Proof. intro H. specialize (H old []). rewrite app_nil_r in H. rewrite H. auto. Qed.
Lemma whole_body {A} (f : step A) b g old : whole f b g -> fail (f old b) = None /\ val (f old b) = g old.
Proof. intro H. rewrite (H old). auto. Qed.

(** C107: fixed-size messages are sent on as they came, whatever was in the value
    before. *)
Theorem C107_fixed : forall k m old, wf k m -> (lenN (enc k m) <= 65527)%N ->
  becomes (dec k) (enc k) old (enc k m) (enc k m).
Proof.
  intros k m old W L. rewrite <- (enc_normal k m) at 2.
  destruct (rt_body _ _ _ old (rt_all k m W)) as [F V]. apply becomes_of; [exact F|exact V|]. rewrite enc_normal. exact L.
Qed.
Print Assumptions C107_fixed.

(** C107: so are messages with matches, actions, instructions and frames; a value
    that is read into again must not be an instruction list, which grows (C46). *)
Theorem C107_varying : forall k m old, vwf k m -> (lenN (venc k m) <= 65527)%N -> (k = VInstructions -> old = vzero k) ->
  becomes (vdec k) (venc k) old (venc k m) (venc k m).
Proof.
  intros k m old W L O.
  assert (D : vdec k old (venc k m) = Res (vafter k old m) (vsize k m) None []).
  { destruct (lays_laid_out _ _ _ (vlays k m W)) as (LN & T & C).
    apply C87_padding_ignored; [exact W|exact LN|]. intros off i Hi _. apply C, Hi. }
  apply becomes_of; [rewrite D; reflexivity| |exact L]. rewrite D. cbn [val].
  destruct k; try reflexivity. rewrite (O eq_refl). reflexivity.
Qed.
Print Assumptions C107_varying.

(** C107: and messages with data. *)
Theorem C107_data :
  (forall m old, wf_Error m -> (lenN (enc_Error m) <= 65527)%N -> becomes dec_Error enc_Error old (enc_Error m) (enc_Error m))
  /\ (forall m old, wf_ErrorExperimenter m -> (lenN (enc_ErrorExperimenter m) <= 65527)%N ->
        becomes dec_ErrorExperimenter enc_ErrorExperimenter old (enc_ErrorExperimenter m) (enc_ErrorExperimenter m))
  /\ (forall m old, (lenN (enc_EchoRequest m) <= 65527)%N -> becomes dec_EchoRequest enc_EchoRequest old (enc_EchoRequest m) (enc_EchoRequest m))
  /\ (forall m old, (lenN (enc_EchoReply m) <= 65527)%N -> becomes dec_EchoReply enc_EchoReply old (enc_EchoReply m) (enc_EchoReply m)).
Proof.
  split; [|split; [|split]].
  - intros m old W L. destruct (whole_body _ _ _ old (whole_Error m W)). apply becomes_of; auto.
  - intros m old W L. destruct (whole_body _ _ _ old (whole_ErrorExperimenter m W)). apply becomes_of; auto.
  - intros m old L. destruct (whole_body _ _ _ old (whole_EchoRequest m)). apply becomes_of; auto.
  - intros m old L. destruct (whole_body _ _ _ old (whole_EchoReply m)). apply becomes_of; auto.
Qed.
Print Assumptions C107_data.

(** ** Messages whose lists are lost *)
(** The body [b'] leaves instead of [b]; they are equal exactly if [same]. *)
Definition replaced {A} (dec : step A) (enc : A -> bytes) (old : A) (b b' : bytes) (same : Prop) : Prop :=
  becomes dec enc old b b' /\ (b' = b <-> same).

Lemma replaced_of {A} (wf : A -> Prop) (dec : step A) enc old m m' (same : Prop) :
  fail (dec old (enc m)) = None /\ val (dec old (enc m)) = m' -> (lenN (enc m') <= 65527)%N ->
  told_apart wf enc (fun m => m) -> wf m -> wf m' -> (m' = m <-> same) -> replaced dec enc old (enc m) (enc m') same.
Proof.
  intros [F V] L T W W' S. split; [apply becomes_of; auto|]. rewrite <- S. split.
  - intro E. apply (T m' m); auto.
  - intros ->. reflexivity.
Qed.

Lemma hello_same x y : wf_Hello x -> wf_Hello y ->
  (enc_Hello x = enc_Hello y <-> map filled_maps (Hello_Elements x) = map filled_maps (Hello_Elements y)).
Proof.
  intros Wx Wy. split; [apply (proj2 (proj2 (proj2 C105_lost_lists))); assumption|].
  intro E. unfold enc_Hello, enc_HelloElems.
  assert (P : forall l, map enc_HelloElem l = map enc_HelloElem (map filled_maps l)).
  { intro l. rewrite map_map. apply map_ext. intro m. rewrite <- (enc_padded_same m). f_equal.
    unfold padded, filled_maps. destruct (Nat.even (length (HelloElem_Bitmaps m))); [reflexivity|]. cbn [repeat]. rewrite app_nil_r. reflexivity. }
  rewrite (P (Hello_Elements x)), (P (Hello_Elements y)), E. reflexivity.
Qed.

(** C107: group, meter and queue messages leave with the list that was in the value
    before, that is with none if it was new; a hello leaves with the elements of
    the value.  Only if that list is the received one is the message the same. *)
Theorem C107_lost :
  (forall m old, let m' := MkGroupMod (GroupMod_Command m) (GroupMod_Type m) (GroupMod_Group m) (GroupMod_Buckets old) in
     wf_GroupMod m -> wf_GroupMod m' -> (lenN (enc_GroupMod m') <= 65527)%N ->
     replaced dec_GroupMod enc_GroupMod old (enc_GroupMod m) (enc_GroupMod m') (GroupMod_Buckets old = GroupMod_Buckets m))
  /\ (forall m old, let m' := MkMeterMod (MeterMod_Command m) (MeterMod_Flags m) (MeterMod_Meter m) (MeterMod_Bands old) in
     wf_MeterMod m -> wf_MeterMod m' -> (lenN (enc_MeterMod m') <= 65527)%N ->
     replaced dec_MeterMod enc_MeterMod old (enc_MeterMod m) (enc_MeterMod m') (MeterMod_Bands old = MeterMod_Bands m))
  /\ (forall m old, let m' := MkQueueGetConfigReply (QueueGetConfigReply_Port m) (QueueGetConfigReply_Queues old) in
     wf_QueueGetConfigReply m -> wf_QueueGetConfigReply m' -> (lenN (enc_QueueGetConfigReply m') <= 65527)%N ->
     replaced dec_QueueGetConfigReply enc_QueueGetConfigReply old (enc_QueueGetConfigReply m) (enc_QueueGetConfigReply m')
       (QueueGetConfigReply_Queues old = QueueGetConfigReply_Queues m))
  /\ (forall m old, wf_Hello m -> wf_Hello old -> (lenN (enc_Hello old) <= 65527)%N ->
     replaced dec_Hello enc_Hello old (enc_Hello m) (enc_Hello old)
       (map filled_maps (Hello_Elements old) = map filled_maps (Hello_Elements m))).
Proof.
  split; [|split; [|split]].
  - intros m old m' W W' L. apply (replaced_of wf_GroupMod); auto using (proj1 C105_lost_lists).
    + apply (whole_body _ _ _ old (whole_GroupMod m W)).
    + unfold m'. split; intro H; [rewrite <- H; reflexivity|]. rewrite H. destruct m; reflexivity.
  - intros m old m' W W' L. apply (replaced_of wf_MeterMod); auto using (proj1 (proj2 C105_lost_lists)).
    + apply (whole_body _ _ _ old (whole_MeterMod m W)).
    + unfold m'. split; intro H; [rewrite <- H; reflexivity|]. rewrite H. destruct m; reflexivity.
  - intros m old m' W W' L. apply (replaced_of wf_QueueGetConfigReply); auto using (proj1 (proj2 (proj2 C105_lost_lists))).
    + apply (whole_body _ _ _ old (whole_QueueGetConfigReply m W)).
    + unfold m'. split; intro H; [rewrite <- H; reflexivity|]. rewrite H. destruct m; reflexivity.
  - intros m old W W' L. destruct (whole_body _ _ _ old (whole_Hello m W)) as [F V].
    split; [apply becomes_of; auto|]. apply hello_same; assumption.
Qed.
Print Assumptions C107_lost.

(** C107: table features (the body of a multipart message) leave as they came
    except that experimenter properties for table-miss become ordinary ones. *)
Theorem C107_features : forall m old, wf_TableFeatures m -> (lenN (enc_TableFeatures m) <= 65527)%N ->
  replaced dec_TableFeatures enc_TableFeatures old (enc_TableFeatures m) (enc_TableFeatures (features_arrive m))
    (forall e x d, ~ In (TExperimenter true e x d) (TableFeatures_Properties m)).
Proof.
  intros m old W L. destruct (rt_body _ _ _ old (rt_TableFeatures m W)) as [F V].
  assert (PS : forall p, prop_size (prop_arrives p) = prop_size p) by (intros []; reflexivity).
  assert (PW : forall p, wf_TableProp p -> wf_TableProp (prop_arrives p)) by (intros []; auto).
  assert (W' : wf_TableFeatures (features_arrive m)).
  { destruct W as (W1 & W2 & W3 & W4 & W5 & WP & WS). unfold wf_TableFeatures, features_arrive.
    cbn [TableFeatures_Table TableFeatures_Name TableFeatures_MetadataMatch TableFeatures_MetadataWrite TableFeatures_Config
         TableFeatures_MaxEntries TableFeatures_Properties].
    do 5 (split; [assumption|]). split.
    - apply Forall_map. eapply Forall_impl; [|exact WP]. exact PW.
    - revert WS. unfold features_size. cbn [TableFeatures_Properties]. rewrite map_map.
      rewrite (map_ext _ prop_size PS). auto. }
  assert (LE : length (enc_TableFeatures (features_arrive m)) = length (enc_TableFeatures m)).
  { rewrite (lays_length _ _ _ (features_lays m W)), (lays_length _ _ _ (features_lays _ W')).
    unfold features_size, features_arrive. cbn [TableFeatures_Properties]. rewrite map_map, (map_ext _ prop_size PS). reflexivity. }
  split; [apply becomes_of; auto; unfold lenN in *; rewrite LE; exact L|]. split.
  - intros E e x d HI.
    pose proof (delimited_told _ _ _ delimited_TableFeatures _ _ W' W E) as N.
    apply (f_equal TableFeatures_Properties) in N. unfold named32, features_arrive in N. cbn [TableFeatures_Properties] in N.
    rewrite <- N in HI. apply in_map_iff in HI. destruct HI as (p & Hp & _). destruct p; discriminate Hp.
  - intro H. unfold enc_TableFeatures, features_arrive.
    cbn [TableFeatures_Table TableFeatures_Name TableFeatures_MetadataMatch TableFeatures_MetadataWrite TableFeatures_Config
         TableFeatures_MaxEntries TableFeatures_Properties].
    rewrite <- fixtext_name, fixtext_twice.
    assert (P : map prop_arrives (TableFeatures_Properties m) = TableFeatures_Properties m).
    { rewrite <- (map_id (TableFeatures_Properties m)) at 2. apply map_ext_in. intros [] HI; try reflexivity.
      destruct miss; [|reflexivity]. exfalso. eapply H. exact HI. }
    rewrite P. reflexivity.
Qed.
Print Assumptions C107_features.

(** Entries of multipart replies, one of them standing at the beginning of [enc m ++ tl]. *)
Definition passed {A} (dec : step A) (enc : A -> bytes) (old m m' : A) (tl : bytes) (same : Prop) : Prop :=
  fail (dec old (enc m ++ tl)) = None /\ rest (dec old (enc m ++ tl)) = tl
  /\ enc (val (dec old (enc m ++ tl))) = enc m' /\ (enc m' = enc m <-> same).

Lemma passed_of {A} (wf : A -> Prop) (dec : step A) enc old m g tl (same : Prop) : rt dec (enc m) g ->
  self_delimiting wf enc (fun m => m) -> wf m -> wf (g old) -> (g old = m <-> same) -> passed dec enc old m (g old) tl same.
Proof.
  intros R T W W' S. unfold passed. rewrite (R old tl). cbn [fail rest val]. do 3 (split; [reflexivity|]).
  rewrite <- S. split; [|intros ->; reflexivity]. intro E. apply (delimited_told _ _ _ T); auto.
Qed.

(** C107: entries of group, meter and queue replies are passed on with the list
    that was in the value before. *)
Theorem C107_entries :
  (forall m old tl, let m' := set_GroupDescStats_Buckets (GroupDescStats_Buckets old) m in wf_GroupDescStats m -> wf_GroupDescStats m' ->
     passed dec_GroupDescStats enc_GroupDescStats old m m' tl (GroupDescStats_Buckets old = GroupDescStats_Buckets m))
  /\ (forall m old tl, let m' := set_GroupStats_BucketStats (GroupStats_BucketStats old) m in wf_GroupStats m -> wf_GroupStats m' ->
     passed dec_GroupStats enc_GroupStats old m m' tl (GroupStats_BucketStats old = GroupStats_BucketStats m))
  /\ (forall m old tl, let m' := set_MeterConfig_Bands (MeterConfig_Bands old) m in wf_MeterConfig m -> wf_MeterConfig m' ->
     passed dec_MeterConfig enc_MeterConfig old m m' tl (MeterConfig_Bands old = MeterConfig_Bands m))
  /\ (forall m old tl, let m' := set_MeterStats_BandStats (MeterStats_BandStats old) m in wf_MeterStats m -> wf_MeterStats m' ->
     passed dec_MeterStats enc_MeterStats old m m' tl (MeterStats_BandStats old = MeterStats_BandStats m))
  /\ (forall m old tl, let m' := set_PacketQueue_Properties (PacketQueue_Properties old) m in wf_PacketQueue m -> wf_PacketQueue m' ->
     passed dec_PacketQueue enc_PacketQueue old m m' tl (PacketQueue_Properties old = PacketQueue_Properties m)).
Proof.
  destruct C105_entries as (_ & _ & _ & _ & _ & D5 & _ & _ & _ & D1 & D2 & D3 & D4 & _).
  split; [|split; [|split; [|split]]]; intros m old tl m' W W'.
  - apply (passed_of wf_GroupDescStats _ _ _ _ (fun old => set_GroupDescStats_Buckets (GroupDescStats_Buckets old) m)); auto using (rt_GroupDescStats m W).
    unfold m'. split; intro H; [rewrite <- H; destruct m; reflexivity|]. rewrite H. destruct m; reflexivity.
  - apply (passed_of wf_GroupStats _ _ _ _ (fun old => set_GroupStats_BucketStats (GroupStats_BucketStats old) m)); auto using (rt_GroupStats m W).
    unfold m'. split; intro H; [rewrite <- H; destruct m; reflexivity|]. rewrite H. destruct m; reflexivity.
  - apply (passed_of wf_MeterConfig _ _ _ _ (fun old => set_MeterConfig_Bands (MeterConfig_Bands old) m)); auto using (rt_MeterConfig m W).
    unfold m'. split; intro H; [rewrite <- H; destruct m; reflexivity|]. rewrite H. destruct m; reflexivity.
  - apply (passed_of wf_MeterStats _ _ _ _ (fun old => set_MeterStats_BandStats (MeterStats_BandStats old) m)); auto using (rt_MeterStats m W).
    unfold m'. split; intro H; [rewrite <- H; destruct m; reflexivity|]. rewrite H. destruct m; reflexivity.
  - apply (passed_of wf_PacketQueue _ _ _ _ (fun old => set_PacketQueue_Properties (PacketQueue_Properties old) m)); auto using (rt_PacketQueue m W).
    unfold m'. split; intro H; [rewrite <- H; destruct m; reflexivity|]. rewrite H. destruct m; reflexivity.
Qed.
Print Assumptions C107_entries.

(** A proxy with a new value turns a group modification with two buckets into one
    without; reading the next message into the value of a message it built itself
    sends that message's buckets. *)
Example C107_lost_ex :
  let m := MkGroupMod 0 1 7 [a_bucket 1; a_bucket 2] in
  let built := MkGroupMod 1 0 9 [a_bucket 5] in
  let q := MkRequest (MkHeader 4 15 (8 + lenN (enc_GroupMod m)) 77) (BBuf (enc_GroupMod m)) 1 3 (Z.of_nat (length (enc_GroupMod m))) in
  wf_GroupMod m /\ wf_GroupMod (MkGroupMod 0 1 7 []) /\ wf_GroupMod (MkGroupMod 0 1 7 [a_bucket 5])
  /\ received 4 15 77 (enc_GroupMod m) q
  /\ sent_on dec_GroupMod enc_GroupMod zero_GroupMod q
     = [[x04; x0f; x00; x10; x00; x00; x00; x4d; x00; x00; x01; x00; x00; x00; x00; x07]]
  /\ sent_on dec_GroupMod enc_GroupMod built q
     = [[x04; x0f; x00; x30; x00; x00; x00; x4d; x00; x00; x01; x00; x00; x00; x00; x07] ++ enc_Bucket (a_bucket 5)].
Proof.
  cbv zeta. split; [|split; [|split]].
  - split; [reflexivity|]. split; [reflexivity|]. split; [reflexivity|]. repeat apply Forall_cons; try apply Forall_nil; apply a_bucket_wf; reflexivity.
  - split; [reflexivity|]. split; [reflexivity|]. split; [reflexivity|]. apply Forall_nil.
  - split; [reflexivity|]. split; [reflexivity|]. split; [reflexivity|]. repeat apply Forall_cons; try apply Forall_nil; apply a_bucket_wf; reflexivity.
  - split; [split; [reflexivity|split; reflexivity]|]. split; vm_compute; reflexivity.
Qed.

Example C107_features_ex :
  let m := MkTableFeatures 3 (zeros 32) 0 0 0 100 [TExperimenter true 1 2 []] in
  wf_TableFeatures m /\ skipn 64 (enc_TableFeatures m) = [xff; xff; x00; x0c; x00; x00; x00; x01; x00; x00; x00; x02; x00; x00; x00; x00]
  /\ skipn 64 (enc_TableFeatures (features_arrive m)) = [xff; xfe; x00; x0c; x00; x00; x00; x01; x00; x00; x00; x02; x00; x00; x00; x00].
Proof.
  cbv zeta. split; [|split; vm_compute; reflexivity].
  do 5 (split; [reflexivity|]). split; [|reflexivity]. constructor; [|constructor]. vm_compute. auto.
Qed.

Example C107_fixed_ex : exists e, sent_on (dec KTableMod) (enc KTableMod) (MkTableMod 200 9)
   (MkRequest (MkHeader 4 17 16 5) (BBuf (enc KTableMod (MkTableMod 2 77))) 1 3 8) = [e]
  /\ is_frame e 4 17 5 (enc KTableMod (MkTableMod 2 77)).
Proof. eexists. split; [vm_compute; reflexivity|]. apply frame_eq. vm_compute. reflexivity. Qed.
