(** C112: the length fields of actions and instructions are not obeyed: data of
    an experimenter action are read as actions of the list. *)
From Verif Require Import Bytes Encoding EncodingFacts StepFacts LoopFacts ActionModel ActionSpec ActionFacts
  InstructionModel InstructionSpec InstructionFacts FlowModel FlowSpec FlowFacts CookieFacts OverlongSpec.

Lemma num_relen n a : 4 <= length a -> forall off w, 4 <= off -> num off w (relen n a) = num off w a.
Proof.
  intros L off w H. unfold num, relen. f_equal. f_equal.
  rewrite app_assoc, skipn_app, skipn_all2.
  2: { rewrite app_length, firstn_length, be_enc_length. lia. }
  rewrite app_length, firstn_length, be_enc_length. cbn [app].
  replace (skipn (off - _) (skipn 4 a)) with (skipn (off - 4) (skipn 4 a)) by (f_equal; lia).
  replace off with (off - 4 + 4) at 2 by lia. generalize (off - 4). clear. intro k.
  destruct a as [|? [|? [|? [|? a]]]]; rewrite ?Nat.add_comm with (n := k); cbn [Nat.add skipn];
    rewrite ?skipn_nil; reflexivity.
Qed.

Lemma num0_relen n a : 4 <= length a -> num 0 2 (relen n a) = num 0 2 a.
Proof.
  intro L. unfold num, relen. cbn [skipn]. f_equal.
  rewrite firstn_app, firstn_firstn, firstn_length. replace (2 - Nat.min 2 (length a)) with 0 by lia.
  cbn [firstn]. apply app_nil_r.
Qed.

Lemma relen_length n a : 4 <= length a -> length (relen n a) = length a.
Proof. intro L. unfold relen. rewrite !app_length, firstn_length, skipn_length, be_enc_length. lia. Qed.

Lemma denotes_relen n a s : fixed_action a -> denotes a s -> denotes a (relen n s).
Proof.
  intros FA D. pose proof (denotes_len _ _ D) as L. destruct D as [T D].
  split; [rewrite num0_relen by exact L; exact T|].
  destruct a; cbn [fixed_action] in FA; try contradiction;
    rewrite relen_length by exact L; rewrite ?num_relen by (exact L || lia); exact D.
Qed.

Lemma dec_Actions_same l segs segs' b old : Forall2 denotes l segs -> Forall2 denotes l segs' ->
  length (concat segs) = length (concat segs') ->
  dec_Actions old (concat segs ++ b) = dec_Actions old (concat segs' ++ b).
Proof.
  intros F F' L. destruct (dec_Actions_at l segs b old F) as (f & E & Lf).
  destruct (dec_Actions_at l segs' b old F') as (f' & E' & Lf').
  cbv zeta in *. rewrite E, E', L.
  rewrite (scan_fuel_eq _ _ progressing_Action l b (2 + f) (2 + f')) by lia. reflexivity.
Qed.

(** C112: whatever the length field of a fixed-size action says, the list is read
    the same. *)
Theorem C112_action_length_ignored : forall l1 a n b old, Forall wf_Action l1 -> wf_Action a -> fixed_action a ->
  dec_Actions old (enc_Actions l1 ++ relen n (enc_Action a) ++ b)
  = dec_Actions old (enc_Actions l1 ++ enc_Action a ++ b).
Proof.
  intros l1 a n b old W1 Wa FA.
  pose proof (denotes_enc a Wa) as D. pose proof (denotes_len _ _ D) as L.
  assert (F : forall s, denotes a s -> Forall2 denotes (l1 ++ [a]) (map enc_Action l1 ++ [s])).
  { intros s H. apply Forall2_app; [apply denotes_enc_all, W1|constructor; [exact H|constructor]]. }
  pose proof (dec_Actions_same _ _ _ b old (F _ (denotes_relen n a _ FA D)) (F _ D)) as E.
  rewrite !concat_app in E. cbn [concat] in E. rewrite !app_nil_r, <- !app_assoc in E.
  apply E. rewrite !app_length, relen_length by exact L. reflexivity.
Qed.
Print Assumptions C112_action_length_ignored.

Example C112_action_length_ignored_ex :
  relen 4000 (enc_Action (AOutput 7 128))
    = [x00; x00; x0f; xa0; x00; x00; x00; x07; x00; x80; x00; x00; x00; x00; x00; x00]
  /\ dec_Actions [] (relen 4000 (enc_Action (AOutput 7 128)) ++ enc_Action APopVLAN)
     = Res [AOutput 7 128; APopVLAN] 24 None [].
Proof. split; vm_compute; reflexivity. Qed.

Lemma relen_concat n t k l : relen n (concat (u16 t :: u16 k :: l)) = concat (u16 t :: u16 n :: l).
Proof.
  reflexivity.
Qed.

Lemma vendor_relen e d b : vendor e d ++ b = relen (N.of_nat (8 + length d)) (enc_Action (AExperimenter e)) ++ d ++ b.
Proof.
  change (enc_Action (AExperimenter e)) with (concat [u16 65535; u16 8; u32 e]).
  rewrite relen_concat. cbn [concat]. unfold vendor, u16, u32. rewrite <- !app_assoc. reflexivity.
Qed.

(** C112: the data of an experimenter action, whatever they are, are read as if
    they followed an action without data. *)
Theorem C112_vendor_data : forall l1 e d b old, Forall wf_Action l1 -> (e < 4294967296)%N ->
  dec_Actions old (enc_Actions l1 ++ vendor e d ++ b)
  = dec_Actions old (enc_Actions (l1 ++ [AExperimenter e]) ++ d ++ b).
Proof.
  intros l1 e d b old W1 We. rewrite vendor_relen.
  rewrite (C112_action_length_ignored l1 (AExperimenter e)) by (assumption || exact I).
  unfold enc_Actions. rewrite map_app, concat_app. cbn [map concat]. rewrite app_nil_r, <- app_assoc. reflexivity.
Qed.
Print Assumptions C112_vendor_data.

(** C112: data that look like actions become actions of the list. *)
Theorem C112_vendor_data_as_actions : forall l1 e l l2 old,
  Forall wf_Action l1 -> (e < 4294967296)%N -> Forall wf_Action l -> Forall wf_Action l2 ->
  let b := enc_Actions l1 ++ vendor e (enc_Actions l) ++ enc_Actions l2 in
  dec_Actions old b = Res (l1 ++ AExperimenter e :: l ++ l2) (length b) None [].
Proof.
  intros l1 e l l2 old W1 We W W2. cbv zeta. rewrite C112_vendor_data by assumption.
  set (all := l1 ++ AExperimenter e :: l ++ l2).
  assert (WA : Forall wf_Action all).
  { unfold all. apply Forall_app. split; [exact W1|]. constructor; [exact We|]. apply Forall_app. split; assumption. }
  assert (E : enc_Actions (l1 ++ [AExperimenter e]) ++ enc_Actions l ++ enc_Actions l2 = enc_Actions all).
  { unfold all, enc_Actions. rewrite <- !concat_app, <- !map_app, <- app_assoc. reflexivity. }
  rewrite E, (whole_Actions all WA old). f_equal. rewrite <- E, vendor_relen, !app_length.
  rewrite relen_length by (cbn; lia).
  unfold enc_Actions at 1. rewrite map_app, concat_app, app_length. cbn [map concat].
  rewrite app_nil_r. unfold enc_Actions. lia.
Qed.
Print Assumptions C112_vendor_data_as_actions.

Example C112_vendor_data_as_actions_ex :
  vendor 7 (enc_Actions [AOutput 4294967293 0])
    = [xff; xff; x00; x18; x00; x00; x00; x07;
       x00; x00; x00; x10; xff; xff; xff; xfd; x00; x00; x00; x00; x00; x00; x00; x00]
  /\ dec_Actions [] (enc_Actions [APopVLAN] ++ vendor 7 (enc_Actions [AOutput 4294967293 0]) ++ enc_Actions [AGroup 1])
     = Res [APopVLAN; AExperimenter 7; AOutput 4294967293 0; AGroup 1] 40 None [].
Proof. split; vm_compute; reflexivity. Qed.

(** C112: data that begin with another number end the list with an error, and
    data that begin with the number of pop PBB end the program. *)
Theorem C112_vendor_data_fatal : forall l1 e d b old,
  Forall wf_Action l1 -> (e < 4294967296)%N -> 2 <= length d -> ~ In (num 0 2 d) known_types ->
  let r := dec_Actions old (enc_Actions l1 ++ vendor e d ++ b) in
  val r = l1 ++ [AExperimenter e]
  /\ fail r = Some (if num 0 2 d =? 27 then EPanic else EUnknown (num 0 2 d))%N.
Proof.
  intros l1 e d b old W1 We L U. cbv zeta. rewrite C112_vendor_data by assumption.
  assert (W : Forall wf_Action (l1 ++ [AExperimenter e])).
  { apply Forall_app. split; [exact W1|]. constructor; [exact We|constructor]. }
  assert (N : num 0 2 (d ++ b) = num 0 2 d).
  { unfold num. cbn [skipn]. f_equal. rewrite firstn_app. replace (2 - length d) with 0 by lia.
    cbn [firstn]. apply app_nil_r. }
  assert (L' : 2 <= length (d ++ b)) by (rewrite app_length; lia).
  unfold enc_Actions at 1 2. rewrite <- N in U |- *. destruct (N.eqb_spec (num 0 2 (d ++ b)) 27) as [P|P].
  - rewrite (decode_panic _ _ _ old (denotes_enc_all _ W) L' P). split; reflexivity.
  - rewrite (decode_unknown _ _ _ old (denotes_enc_all _ W) L' U P). split; reflexivity.
Qed.
Print Assumptions C112_vendor_data_fatal.

Example C112_vendor_data_fatal_ex :
  fail (dec_Actions [] (vendor 8992 [x00; x1b; x00; x00; x00; x00; x00; x00])) = Some EPanic
  /\ dec_Actions [] (vendor 8992 [x00; x01; x00; x00; x00; x00; x00; x00] ++ enc_Action APopVLAN)
     = Res [AExperimenter 8992] 8 (Some (EUnknown 1)) [].
Proof. split; vm_compute; reflexivity. Qed.

(** C112: the same through a packet-out message: the frame goes where the
    data of the experimenter action say. *)
Theorem C112_packet_out : forall buffer port l1 e l l2 frame old,
  (buffer < 4294967296)%N -> (port < 4294967296)%N ->
  Forall wf_Action l1 -> (e < 4294967296)%N -> Forall wf_Action l -> Forall wf_Action l2 ->
  let acts := enc_Actions l1 ++ vendor e (enc_Actions l) ++ enc_Actions l2 in
  (N.of_nat (length acts) < 65536)%N ->
  let b := packet_out_of buffer port acts frame in
  dec_PacketOut old b = Res (MkPacketOut buffer port (l1 ++ AExperimenter e :: l ++ l2) frame) (length b) None [].
Proof.
  intros buffer port l1 e l l2 frame old Wb Wp W1 We W W2 acts S b.
  assert (WA : whole dec_Actions acts (fun _ => l1 ++ AExperimenter e :: l ++ l2)).
  { intros s. apply (C112_vendor_data_as_actions l1 e l l2 s); assumption. }
  clearbody acts.
  assert (B : whole dec_PacketOut
    (concat [be_enc 4 buffer; be_enc 4 port; be_enc 2 (uwrap 2 (N.of_nat (length acts))); zeros 6] ++ acts ++ frame)
    (fun _ => MkPacketOut buffer port (l1 ++ AExperimenter e :: l ++ l2) frame)).
  { unfold dec_PacketOut. eapply whole_ext; cycle 1.
    - apply whole_with_local, whole_andthen.
      + eapply rt_concat_cons; [apply rt_sub, rt_fu, Wb|]. eapply rt_concat_cons; [apply rt_sub, rt_fu, Wp|].
        eapply rt_concat_cons; [apply rt_fu, uwrap_fits|]. flow_rt.
      + intros s. apply whole_andthen.
        * apply rt_limited; cycle 1.
          -- apply whole_pre, whole_sub, whole_sub, WA.
          -- cbn [fst snd]. rewrite uwrap_small; [lia|exact S].
        * intros s'. apply whole_sub, whole_readall.
    - intros []. reflexivity. }
  specialize (B old). unfold b, packet_out_of. cbn [concat] in B.
  rewrite be_enc_uwrap, app_nil_r, <- !app_assoc in B. exact B.
Qed.
Print Assumptions C112_packet_out.

Example C112_packet_out_ex :
  dec_PacketOut zero_PacketOut (packet_out_of 1 2 (vendor 7 (enc_Actions [AOutput 4294967292 0])) [xde; xad])
  = Res (MkPacketOut 1 2 [AExperimenter 7; AOutput 4294967292 0] [xde; xad]) 42 None [].
Proof. vm_compute. reflexivity. Qed.

Lemma apply_at acts l tl z0 : (N.of_nat (length acts) < 65536)%N -> whole dec_Actions acts (fun _ => l) ->
  dec_instruction_actions (IApplyActions z0) (apply_of acts ++ tl)
  = Res (IApplyActions l) (length (apply_of acts)) None tl.
Proof.
  intros S WA. unfold apply_of. rewrite <- !app_assoc.
  destruct (instruction_actions_inner 4 _ acts tl z0 eq_refl S (IApplyActions z0) (or_introl eq_refl)) as (V & C & F & R).
  rewrite (WA z0) in V, C, F, R. cbn [val cnt fail rest set_actions] in V, C, F, R.
  destruct (dec_instruction_actions _ _) as [v c f r]. cbn [val cnt fail rest app] in *. subst.
  rewrite !app_length, !be_enc_length, zeros_length. reflexivity.
Qed.

(** C112: the same in the instructions of a flow modification: the flow entry
    applies the data of the experimenter action. *)
Theorem C112_flow_mod : forall m l1 e l l2 old, wf_FlowMod m ->
  Forall wf_Action l1 -> (e < 4294967296)%N -> Forall wf_Action l -> Forall wf_Action l2 ->
  let acts := enc_Actions l1 ++ vendor e (enc_Actions l) ++ enc_Actions l2 in
  (N.of_nat (length acts) < 65536)%N ->
  let b := enc_FlowMod m ++ apply_of acts in
  dec_FlowMod old b
  = Res (set_FlowMod_Instructions (FlowMod_Instructions m ++ [IApplyActions (l1 ++ AExperimenter e :: l ++ l2)]) m)
        (length b) None [].
Proof.
  intros m l1 e l l2 old Wm W1 We W W2 acts S b.
  assert (WA : whole dec_Actions acts (fun _ => l1 ++ AExperimenter e :: l ++ l2)).
  { intros s. apply (C112_vendor_data_as_actions l1 e l l2 s); assumption. }
  clearbody acts. set (all := l1 ++ AExperimenter e :: l ++ l2) in *. clearbody all.
  unfold wf_FlowMod in Wm. split_wf Wm.
  assert (WI : whole dec_Instructions (enc_Instructions (FlowMod_Instructions m) ++ apply_of acts)
                 (fun o => o ++ FlowMod_Instructions m ++ [IApplyActions all])).
  { intros o. pose proof (instructions_at (FlowMod_Instructions m) o (apply_of acts) ltac:(assumption)) as E.
    cbv zeta in E. rewrite E. clear E. rewrite scan_S.
    pose proof (apply_at acts all [] [] S WA) as A. rewrite app_nil_r in A.
    assert (LB : 2 <= length (apply_of acts)) by (unfold apply_of; rewrite app_length, be_enc_length; lia).
    destruct (Nat.ltb_spec (length (apply_of acts)) 2); [lia|].
    replace (be_dec (firstn 2 (apply_of acts))) with 4%N by
      (unfold apply_of; rewrite firstn_app_len by apply be_enc_length; reflexivity).
    change (make_instruction 4) with (MkOk (IApplyActions [])). cbv iota zeta.
    cbn [dec_Instruction]. rewrite A. cbn [fail val cnt rest].
    destruct (length (apply_of acts)) eqn:EL; [lia|]. rewrite scan_S. cbn [length Nat.ltb Nat.leb val cnt fail rest].
    rewrite app_length, EL, <- app_assoc. f_equal. lia. }
  assert (B : whole dec_FlowMod b (fun _ => set_FlowMod_Instructions (FlowMod_Instructions m ++ [IApplyActions all]) m)).
  { unfold b, enc_FlowMod.
    match goal with |- context [concat ?l ++ apply_of acts] =>
      let k := eval cbn [firstn] in (firstn 13 l) in
      assert (E : concat l ++ apply_of acts = concat (k ++ [enc_Instructions (FlowMod_Instructions m) ++ apply_of acts]))
        by exact (concat_extend k (enc_Instructions (FlowMod_Instructions m)) (apply_of acts));
      rewrite E; clear E end.
    cbn [app]. unfold dec_FlowMod. eapply whole_ext; cycle 1.
    - apply whole_pre. flow_whole. apply whole_last, whole_sub, WI.
    - intros []. destruct m. reflexivity. }
  exact (B old).
Qed.
Print Assumptions C112_flow_mod.

Example C112_flow_mod_ex :
  let m := MkFlowMod 1 0 0 0 0 0 9 4294967295 4294967295 4294967295 0 (MkMatch 1 []) [IGotoTable 3] in
  wf_FlowMod m
  /\ FlowMod_Instructions (val (dec_FlowMod zero_FlowMod (enc_FlowMod m ++ apply_of (vendor 7 (enc_Actions [AOutput 1 0])))))
     = [IGotoTable 3; IApplyActions [AExperimenter 7; AOutput 1 0]].
Proof. split; [|vm_compute; reflexivity]. repeat split; try (cbn; lia); repeat constructor; cbn; auto; lia. Qed.

(** C112: nor do the length fields of instructions without actions matter. *)
Theorem C112_instruction_length_ignored : forall l i n b old,
  Forall wf_Instruction l -> wf_Instruction i -> fixed_instruction i ->
  dec_Instructions old (enc_Instructions l ++ relen n (enc_Instruction i) ++ b)
  = dec_Instructions old (enc_Instructions l ++ enc_Instruction i ++ b).
Proof.
  intros l i n b old W Wi Fi.
  assert (L4 : 4 <= length (enc_Instruction i)).
  { rewrite instruction_length by exact Wi. pose proof (instruction_size_8 i). lia. }
  pose proof (instructions_at l old (relen n (enc_Instruction i) ++ b) W) as E.
  pose proof (instructions_at l old (enc_Instruction i ++ b) W) as E'. cbv zeta in E, E'.
  rewrite E, E'. clear E E'. rewrite !scan_S.
  rewrite !app_length, relen_length by exact L4.
  destruct (Nat.ltb_spec (length (enc_Instruction i) + length b) 2); [lia|].
  assert (T : be_dec (firstn 2 (relen n (enc_Instruction i) ++ b)) = be_dec (firstn 2 (enc_Instruction i ++ b))).
  { unfold relen. rewrite <- !app_assoc, !firstn_app, firstn_firstn, firstn_length.
    replace (2 - Nat.min 2 (length (enc_Instruction i))) with 0 by lia.
    replace (2 - length (enc_Instruction i)) with 0 by lia. cbn [firstn Nat.min]. reflexivity. }
  rewrite T. destruct (make_instruction_tag i b) as (z & M & K). rewrite M. cbv iota zeta.
  rewrite (dec_Instruction_rt z i Wi K b).
  assert (D : dec_Instruction z (relen n (enc_Instruction i) ++ b) = Res i (length (enc_Instruction i)) None b).
  { rewrite <- (relen_length n) by exact L4.
    destruct i; cbn [fixed_instruction] in Fi; try contradiction; destruct z; try discriminate K;
      cbn [wf_Instruction] in Wi; cbn [dec_Instruction enc_Instruction]; rewrite ?relen_concat.
    - change (fits 1 table) in Wi. plain_rt.
    - destruct Wi as [H1 H2]. change (fits 8 metadata) in H1. change (fits 8 mask) in H2. plain_rt.
    - reflexivity.
    - change (fits 4 meter) in Wi. plain_rt. }
  rewrite D. reflexivity.
Qed.
Print Assumptions C112_instruction_length_ignored.

Example C112_instruction_length_ignored_ex :
  dec_Instructions [] (relen 65535 (enc_Instruction (IGotoTable 3)) ++ enc_Instruction IClearActions)
  = Res [IGotoTable 3; IClearActions] 16 None [].
Proof. vm_compute. reflexivity. Qed.

(** C112: elements are not told apart by their lengths: in a list of two
    well-formed elements, a decrement of the TTL and an experimenter action,
    three actions are read, one of which sends the packet to the controller. *)
Theorem C112_frames_respected_refuted : exists segs, framed segs
  /\ Forall (fun s => In (num 0 2 s) known_types) segs
  /\ ~ Exists (fun s => num 0 2 s = 0%N) segs
  /\ fail (dec_Actions [] (concat segs)) = None
  /\ length (val (dec_Actions [] (concat segs))) <> length segs
  /\ In (AOutput 4294967293 0) (val (dec_Actions [] (concat segs))).
Proof.
  exists [enc_Action ADecNetworkTTL; vendor 7 (enc_Actions [AOutput 4294967293 0])].
  split; [repeat constructor; vm_compute; lia|].
  split; [repeat (constructor; [vm_compute; tauto|]); constructor|].
  split; [intro H; inversion H as [? ? H1|? ? H1]; subst; [vm_compute in H1; discriminate|];
          inversion H1 as [? ? H2|? ? H2]; subst; [vm_compute in H2; discriminate|]; inversion H2|].
  split; [vm_compute; reflexivity|]. split; [vm_compute; discriminate|]. vm_compute. tauto.
Qed.
Print Assumptions C112_frames_respected_refuted.
