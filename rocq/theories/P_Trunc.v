(** C103: which cuts of messages of varying size are reported. *)
From Verif Require Import TruncFacts.
Ltac Zify.zify_post_hook ::= Z.div_mod_to_equations.

(** The error of reading the first [n] bytes of an encoding, for every [n], every
    message and every previous contents of the receiver. *)
Theorem C103_reported : forall k (m old : vmsg k) n, vwf k m -> n <= length (venc k m) ->
  fail (vdec k old (firstn n (venc k m))) = told (cut_finding k m n).
Proof. intros k m old n W Hn. apply (snaps_all k m W old n Hn). Qed.
Print Assumptions C103_reported.

Lemma followed_front j ws v n : n < list_sum ws -> list_sum ws = j -> followed j (fields ws) v n <> Fine.
Proof.
  intros H <-. unfold followed. destruct (Nat.ltb_spec n (list_sum ws)); [|lia].
  pose proof (fields_short ws n H) as F. destruct (fields ws n); [contradiction|discriminate|discriminate].
Qed.

Lemma told_error f : f <> Fine -> told f = Some EOF \/ told f = Some UnexpectedEOF.
Proof. destruct f; [contradiction| |]; auto. Qed.

(** A cut inside the members of fixed position is always reported. *)
Theorem C103_front : forall k (m old : vmsg k) n, vwf k m -> n < list_sum (front k) ->
  let r := vdec k old (firstn n (venc k m)) in fail r = Some EOF \/ fail r = Some UnexpectedEOF.
Proof.
  intros k m old n W H r.
  assert (Hn : n <= length (venc k m)).
  { destruct (Nat.le_gt_cases n (length (venc k m))) as [|G]; [assumption|exfalso].
    assert (L : list_sum (front k) <= length (venc k m)); [|lia].
    clear. destruct k; cbn [venc front list_sum fold_right].
    - unfold enc_Match. cbv zeta. cbn [concat]. rewrite !app_length. unfold u16. rewrite !be_enc_length. lia.
    - lia.
    - lia.
    - unfold enc_Bucket. cbv zeta. cbn [concat]. rewrite !app_length. unfold u8, u16, u32, u64, pad.
      rewrite !be_enc_length, zeros_length. lia.
    - unfold enc_FlowMod. cbn [concat]. rewrite !app_length. unfold u8, u16, u32, u64, pad.
      rewrite !be_enc_length, zeros_length. lia.
    - unfold enc_FlowRemoved. cbn [concat]. rewrite !app_length. unfold u8, u16, u32, u64, pad.
      rewrite !be_enc_length. lia.
    - unfold enc_FlowStatsRequest. cbn [concat]. rewrite !app_length. unfold u8, u16, u32, u64, pad.
      rewrite !be_enc_length, !zeros_length. lia.
    - unfold enc_AggregateStatsRequest. cbn [concat]. rewrite !app_length. unfold u8, u16, u32, u64, pad.
      rewrite !be_enc_length, !zeros_length. lia.
    - unfold enc_FlowStats. cbv zeta. cbn [concat]. rewrite !app_length. unfold u8, u16, u32, u64, pad.
      rewrite !be_enc_length, !zeros_length. lia.
    - unfold enc_PacketIn. cbn [concat]. rewrite !app_length. unfold u8, u16, u32, u64, pad.
      rewrite !be_enc_length, !zeros_length. lia.
    - unfold enc_PacketOut. cbv zeta. cbn [concat]. rewrite !app_length. unfold u8, u16, u32, u64, pad.
      rewrite !be_enc_length, !zeros_length. lia. }
  unfold r. rewrite C103_reported by assumption. apply told_error.
  destruct k; try (apply followed_front; [exact H|reflexivity]); cbn in H; lia.
Qed.
Print Assumptions C103_front.

(** A packet that lost part of its match or of the padding behind the match is
    always reported; one that lost part of the frame never is. *)
Theorem C103_packet_in : forall (m old : PacketIn) n, wf_PacketIn m -> n <= length (enc_PacketIn m) ->
  fail (dec_PacketIn old (firstn n (enc_PacketIn m))) = None <-> 18 + match_size (PacketIn_Match m) <= n.
Proof.
  intros m old n W Hn. destruct (snaps_PacketIn m W old n Hn) as [-> _]. cbn [cut_finding].
  unfold followed, front. pose proof (match_size_pos (PacketIn_Match m)).
  destruct (Nat.ltb_spec n 16) as [K|K].
  - pose proof (fields_short [4; 2; 1; 1; 8] n K) as F.
    destruct (fields [4; 2; 1; 1; 8] n); [contradiction|split; [discriminate|lia]..].
  - destruct (Nat.ltb_spec (n - 16) (match_size (PacketIn_Match m))) as [G|G].
    + cbn [Nat.ltb Nat.leb fields Nat.eqb].
      destruct (match_cut (PacketIn_Match m) (n - 16)); (split; [discriminate|lia]).
    + destruct (Nat.ltb_spec (n - 16 - match_size (PacketIn_Match m)) 2) as [J|J].
      * pose proof (fields_short [2] _ J) as F.
        destruct (fields [2] _); [contradiction|split; [discriminate|lia]..].
      * split; [lia|reflexivity].
Qed.
Print Assumptions C103_packet_in.

(** Instructions lost with the end of a message are not reported: what is read is
    the message with the instructions that came. *)
Theorem C103_fewer_instructions : forall (m old : FlowMod) l1 l2, wf_FlowMod m -> FlowMod_Instructions m = l1 ++ l2 ->
  let n := 40 + match_size (FlowMod_Match m) + instructions_size l1 in
  dec_FlowMod old (firstn n (enc_FlowMod m)) = Res (set_FlowMod_Instructions l1 m) n None [].
Proof.
  intros m old l1 l2 W E n.
  assert (W' : wf_FlowMod (set_FlowMod_Instructions l1 m)).
  { destruct m. unfold wf_FlowMod, set_FlowMod_Instructions in *. cbn in *. rewrite E, Forall_app in W. tauto. }
  assert (L : length (enc_FlowMod (set_FlowMod_Instructions l1 m)) = n).
  { destruct (lays_laid_out _ _ _ (flowmod_lays _ W')) as [-> _]. reflexivity. }
  assert (P : enc_FlowMod m = enc_FlowMod (set_FlowMod_Instructions l1 m) ++ enc_Instructions l2).
  { unfold enc_FlowMod. rewrite E. unfold enc_Instructions. rewrite map_app, concat_app.
    unfold set_FlowMod_Instructions. cbn [FlowMod_Cookie FlowMod_CookieMask FlowMod_Table FlowMod_Command FlowMod_IdleTimeout FlowMod_HardTimeout FlowMod_Priority FlowMod_Buffer FlowMod_OutPort FlowMod_OutGroup FlowMod_Flags FlowMod_Match FlowMod_Instructions concat].
    rewrite !app_nil_r, <- !app_assoc. reflexivity. }
  rewrite P, <- L, firstn_app_exact, (whole_FlowMod _ W'). reflexivity.
Qed.
Print Assumptions C103_fewer_instructions.

(** An action cut behind its header is not reported either: an action the sender
    never wrote is read in its place, for an output action one to port 0. *)
Theorem C103_invented_action : forall l p c old, Forall wf_Action l -> wf_Action (AOutput p c) ->
  let r := dec_Actions old (firstn (actions_size l + 4) (enc_Actions (l ++ [AOutput p c]))) in
  val r = l ++ [AOutput 0 0] /\ fail r = None.
Proof.
  intros l p c old W Wa r. unfold r. clear r.
  assert (B : firstn (actions_size l + 4) (enc_Actions (l ++ [AOutput p c]))
              = concat (map enc_Action l) ++ firstn 4 (enc_Action (AOutput p c))).
  { unfold enc_Actions. rewrite map_app, concat_app.
    change (concat (map enc_Action l)) with (enc_Actions l). rewrite <- actions_length by exact W.
    rewrite firstn_app_2. cbn [map concat]. rewrite app_nil_r. reflexivity. }
  rewrite B. clear B.
  replace (firstn 4 (enc_Action (AOutput p c))) with [x00; x00; x00; x10] by reflexivity.
  destruct (dec_Actions_at l (map enc_Action l) [x00; x00; x00; x10] old (denotes_enc_all l W)) as (fuel & E & _).
  cbv zeta in E. rewrite E. split; reflexivity.
Qed.
Print Assumptions C103_invented_action.

(** ** Match entries lost *)
Lemma whole_limited {S} z (f : step S) bs g : (Z.of_nat (length bs) <= z)%Z -> whole f bs g -> whole (limited z f) bs g.
Proof.
  intros Hz H s. assert (K : firstn (Z.to_nat z) bs = bs) by (apply firstn_all2; lia).
  pose proof (H s) as E. rewrite <- K in E at 1. rewrite (limited_eq _ _ _ _ _ _ _ _ E).
  rewrite skipn_all2 by lia. reflexivity.
Qed.

Lemma whole_then {S} (f f' : step S) bs g g' : whole f bs g -> whole f' [] g' ->
  whole (seqr [f; f']) bs (fun s => g' (g s)).
Proof.
  intros H H' s. rewrite (seqr_ok f [f'] s bs (g s) (length bs) [] (g' (g s)) 0 None []).
  - rewrite Nat.add_0_r. reflexivity.
  - apply H.
  - apply (whole_one f' [] g' H').
Qed.

Lemma fewer_entries t l1 n : fits 2 t -> Forall wf_XM l1 -> (N.of_nat n < 65536)%N -> n mod 8 = 0 -> 4 + fields_size l1 <= n ->
  whole dec_Match (concat [u16 t; u16 (N.of_nat n)] ++ concat (map enc_XM l1)) (fun _ => MkMatch t l1).
Proof.
  intros Ht Hl Hn H8 Hs. pose proof (fields_length l1 Hl) as L.
  assert (PL : pad_len n = 0) by (unfold pad_len; lia).
  unfold dec_Match. apply (whole_pre (fun _ => zero_Match) _ _ (fun m => MkMatch t (Match_Fields m ++ l1))).
  eapply whole_ext; cycle 1.
  - apply whole_with_local. apply whole_andthen.
    + eapply rt_concat_cons; [apply rt_sub, rt_fu; exact Ht|].
      eapply rt_concat_cons; [apply rt_fu; exact Hn|]. apply rt_concat_nil.
    + intro s. cbn [fst snd]. rewrite Nnat.Nat2N.id, PL.
      apply (whole_sub snd (fun x (s : N * Match) => (fst s, x)) _ _ (fun m => set_Match_Fields (Match_Fields m ++ l1) m)).
      intro m0. set (bs := concat (map enc_XM l1)).
      assert (E : limited (Z.of_N (N.of_nat n) - 4) (sub Match_Fields set_Match_Fields (read_all_xm true)) m0 bs
                  = Res (set_Match_Fields (Match_Fields m0 ++ l1) m0) (length bs) None []).
      { apply (whole_limited _ _ _ (fun m => set_Match_Fields (Match_Fields m ++ l1) m)); [unfold bs; lia|].
        apply (whole_sub Match_Fields set_Match_Fields _ _ (fun old => old ++ l1)), whole_read_all, Hl. }
      rewrite (andthen_ok _ _ _ _ _ _ _ E). cbn. rewrite Nat.add_0_r. reflexivity.
  - intros m0. reflexivity.
Qed.

(** When the size of the match leaves no padding, entries lost with the end of the
    message are not reported: what is read is the message with a wider match and
    no instructions. *)
Theorem C103_wider_match : forall (m old : FlowMod) l1 l2, wf_FlowMod m -> Match_Fields (FlowMod_Match m) = l1 ++ l2 ->
  (4 + fields_size (l1 ++ l2)) mod 8 = 0 ->
  let n := 44 + fields_size l1 in
  dec_FlowMod old (firstn n (enc_FlowMod m))
  = Res (set_FlowMod_Match (MkMatch (Match_Type (FlowMod_Match m)) l1) (set_FlowMod_Instructions [] m)) n None [].
Proof.
  intros m old l1 l2 W E H8 n. unfold wf_FlowMod in W. split_wf W.
  match goal with H : wf_Match _ |- _ => destruct H as (Wt & Wl & Ws) end.
  pose proof Wl as Wl'. rewrite E, Forall_app in Wl'. destruct Wl' as [W1 W2].
  rewrite E in Ws. 
  assert (FS : fields_size (l1 ++ l2) = fields_size l1 + fields_size l2)
    by (unfold fields_size; rewrite map_app; apply list_sum_app).
  set (len := 4 + fields_size (l1 ++ l2)) in *.
  set (mb := concat [u16 (Match_Type (FlowMod_Match m)); u16 (N.of_nat len)] ++ concat (map enc_XM l1)).
  assert (ME : enc_Match (FlowMod_Match m) = mb ++ concat (map enc_XM l2)).
  { unfold enc_Match. cbv zeta. rewrite E. rewrite fields_length by (apply Forall_app; auto).
    rewrite (Nat.add_comm (fields_size _) 4). fold len.
    rewrite uwrap2 by (unfold len in *; lia). replace (pad_len len) with 0 by (unfold pad_len; lia).
    unfold mb. rewrite map_app, concat_app. cbn [concat]. rewrite !app_nil_r, <- !app_assoc. reflexivity. }
  assert (LM : length mb = 4 + fields_size l1).
  { unfold mb. rewrite app_length, fields_length by exact W1. reflexivity. }
  assert (B : firstn n (enc_FlowMod m)
    = concat [u64 (FlowMod_Cookie m); u64 (FlowMod_CookieMask m); u8 (FlowMod_Table m); u8 (FlowMod_Command m); u16 (FlowMod_IdleTimeout m); u16 (FlowMod_HardTimeout m); u16 (FlowMod_Priority m); u32 (FlowMod_Buffer m); u32 (FlowMod_OutPort m); u32 (FlowMod_OutGroup m); u16 (FlowMod_Flags m); pad 2; mb]).
  { unfold enc_FlowMod. rewrite ME.
    match goal with |- firstn _ (concat ?l) = concat ?l' =>
      change (concat l) with (concat (firstn 12 l ++ skipn 12 l)); change (concat l') with (concat (firstn 12 l' ++ skipn 12 l')) end.
    rewrite !concat_app. cbn [firstn skipn]. 
    match goal with |- firstn _ (?x ++ _) = _ => set (hd := x) end.
    assert (LH : length hd = 40) by reflexivity. clearbody hd.
    cbn [concat]. rewrite app_nil_r, <- !app_assoc.
    replace n with (length (hd ++ mb)) by (rewrite app_length, LH, LM; unfold n; lia).
    rewrite app_assoc, firstn_app_exact, app_nil_r. reflexivity. }
  rewrite B. unfold dec_FlowMod.
  assert (LB : length (firstn n (enc_FlowMod m)) = n).
  { rewrite B. change n with (40 + (4 + fields_size l1)). rewrite <- LM.
    match goal with |- length (concat ?l') = _ => change (concat l') with (concat (firstn 12 l' ++ skipn 12 l')) end.
    rewrite concat_app, app_length. cbn [skipn concat]. rewrite app_nil_r. reflexivity. }
  rewrite B in LB. rewrite <- LB.
  match goal with |- ?f old ?bs = Res ?v _ None [] => enough (HW : whole f bs (fun _ => v)) by apply HW end.
  eapply whole_ext; cycle 1.
  { apply whole_pre. 
       do 12 (eapply whole_concat_cons; [solve [rt_elem]|]). cbn [concat]. rewrite app_nil_r.
       apply whole_then.
       - apply whole_sub. apply fewer_entries; [exact Wt|exact W1| | |].
         + unfold len. lia.
         + exact H8.
         + unfold len. lia.
       - apply (whole_sub FlowMod_Instructions set_FlowMod_Instructions _ _ (fun l => l)). intro s. reflexivity. }
  intros s. destruct m. reflexivity.
Qed.
Print Assumptions C103_wider_match.

(** ** Cases *)
Definition flow_a : FlowMod :=
  MkFlowMod 1 0 2 0 30 60 100 4294967295 4294967295 4294967295 1
    (MkMatch 1 [MkXM 32768 0 [x00; x00; x00; x05] []; MkXM 32768 5 [x08; x00] []; MkXM 32768 14 [x00; x50] []])
    [IApplyActions [AOutput 7 65535; ASetField (MkXM 32768 6 [x10; x64] [])]; IGotoTable 4].

Lemma flow_a_wf : wf_FlowMod flow_a.
Proof.
  unfold wf_FlowMod, fits. cbn. repeat apply conj; try reflexivity; repeat constructor; cbn; repeat constructor.
Qed.

Definition finding_eqb (a b : finding) : bool :=
  match a, b with Fine, Fine | Ended, Ended | Broken, Broken => true | _, _ => false end.

(** The cuts of a message of 112 bytes that pass unnoticed: between the entries of
    the match and up to three bytes behind, at the end of the match, between the
    members of the instructions and their actions, and one byte into each. *)
Example C103_reported_ex : wf_FlowMod flow_a /\ length (enc_FlowMod flow_a) = 112
  /\ filter (fun n => finding_eqb (cut_finding VFlowMod flow_a n) Fine) (seq 0 113)
     = [44; 45; 46; 47; 52; 53; 54; 55; 58; 59; 60; 61; 64; 65; 66; 68; 72; 73; 74; 76; 80; 82; 88; 89; 90; 92; 94; 95; 96; 98; 99; 100; 101; 102; 103; 104; 105; 106; 108; 109; 112].
Proof. split; [exact flow_a_wf|]. split; vm_compute; reflexivity. Qed.

Example C103_front_ex : list_sum (front VFlowMod) = 40
  /\ fail (dec_FlowMod zero_FlowMod (firstn 39 (enc_FlowMod flow_a))) = Some UnexpectedEOF
  /\ fail (dec_FlowMod zero_FlowMod (firstn 38 (enc_FlowMod flow_a))) = Some EOF.
Proof. vm_compute. auto. Qed.

Definition packet_a : PacketIn := MkPacketIn 7 5 0 1 9 (MkMatch 1 [MkXM 32768 0 [x00; x00; x00; x05] []]) [x01; x02; x03; x04; x05].

Example C103_packet_in_ex : match_size (PacketIn_Match packet_a) = 16
  /\ fail (dec_PacketIn zero_PacketIn (firstn 33 (enc_PacketIn packet_a))) = Some UnexpectedEOF
  /\ PacketIn_Data (val (dec_PacketIn zero_PacketIn (firstn 36 (enc_PacketIn packet_a)))) = [x01; x02]
  /\ fail (dec_PacketIn zero_PacketIn (firstn 36 (enc_PacketIn packet_a))) = None.
Proof. vm_compute. auto. Qed.

Example C103_fewer_instructions_ex :
  FlowMod_Instructions (val (dec_FlowMod zero_FlowMod (firstn 64 (enc_FlowMod flow_a)))) = []
  /\ FlowMod_Match (val (dec_FlowMod zero_FlowMod (firstn 64 (enc_FlowMod flow_a)))) = FlowMod_Match flow_a
  /\ length (FlowMod_Instructions (val (dec_FlowMod zero_FlowMod (firstn 104 (enc_FlowMod flow_a))))) = 1.
Proof. vm_compute. auto. Qed.

Example C103_invented_action_ex :
  val (dec_Actions [] (firstn 12 (enc_Actions [APopVLAN; AOutput 7 65535]))) = [APopVLAN; AOutput 0 0].
Proof. vm_compute. reflexivity. Qed.

Example C103_wider_match_ex : (4 + fields_size (Match_Fields (FlowMod_Match flow_a))) mod 8 = 0
  /\ Match_Fields (FlowMod_Match (val (dec_FlowMod zero_FlowMod (firstn 52 (enc_FlowMod flow_a))))) = [MkXM 32768 0 [x00; x00; x00; x05] []].
Proof. vm_compute. auto. Qed.

(** It is not so that a message cut short is either reported or read with the
    match the sender wrote. *)
Theorem C103_cut_match_refuted : exists (m : FlowMod) n, wf_FlowMod m /\ n < length (enc_FlowMod m)
  /\ fail (dec_FlowMod zero_FlowMod (firstn n (enc_FlowMod m))) = None
  /\ FlowMod_Match (val (dec_FlowMod zero_FlowMod (firstn n (enc_FlowMod m)))) <> FlowMod_Match m.
Proof.
  exists flow_a, 52. split; [exact flow_a_wf|]. vm_compute. split; [repeat constructor|]. split; [reflexivity|discriminate].
Qed.
Print Assumptions C103_cut_match_refuted.

(** Nor that every action read was written by the sender. *)
Theorem C103_cut_actions_refuted : exists l n, Forall wf_Action l /\ n < length (enc_Actions l)
  /\ fail (dec_Actions [] (firstn n (enc_Actions l))) = None
  /\ exists a, In a (val (dec_Actions [] (firstn n (enc_Actions l)))) /\ ~ In a l.
Proof.
  exists [APopVLAN; AOutput 7 65535], 12. split; [repeat constructor|]. vm_compute. split; [repeat constructor|]. split; [reflexivity|].
  exists (AOutput 0 0). split; [auto|]. intros [H|[H|[]]]; discriminate.
Qed.
Print Assumptions C103_cut_actions_refuted.
