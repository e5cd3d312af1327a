(** Proofs about the messages with matches, instructions, actions and data. *)
From Verif Require Export FixedFacts FlowModel InstructionFacts FlowSpec.
Ltac Zify.zify_post_hook ::= Z.div_mod_to_equations.

(** ** Layouts *)
Lemma lays_length e n t : lays e n t -> length e = n.
Proof. intro L. apply (lays_laid_out _ _ _ L). Qed.

Lemma lays_app e1 n1 t1 e2 n2 t2 : lays e1 n1 t1 -> lays e2 n2 t2 ->
  lays (e1 ++ e2) (n1 + n2) (t1 ++ shift n1 t2).
Proof.
  intros (G1 & T1 & R1) (G2 & T2 & R2). split; [|split].
  - apply Forall_app. split; [exact G1|apply good_shift, G2].
  - eapply tiles_app; [exact T1|]. pose proof (tiles_shift n1 t2 0 n2) as T.
    rewrite Nat.add_0_r in T. rewrite T. exact T2.
  - rewrite map_app, concat_app, render_shift, <- R1, <- R2. reflexivity.
Qed.

Lemma shift_shift a b t : shift a (shift b t) = shift (a + b) t.
Proof. unfold shift. rewrite map_map. apply map_ext. intros [o i]. cbn. f_equal. lia. Qed.
Lemma shift_app k t u : shift k (t ++ u) = shift k t ++ shift k u.
Proof. apply map_app. Qed.

Lemma lays_list {A} (size : A -> nat) lay (enc : A -> bytes) l :
  (forall a, In a l -> lays (enc a) (size a) (lay a)) ->
  lays (concat (map enc l)) (list_sum (map size l)) (one_after_another size lay 0 l).
Proof.
  intro H. split; [|split].
  - apply oaa_good. intros a Ha. apply (H a Ha).
  - apply (oaa_tiles size lay l); intros a Ha. apply (H a Ha).
  - symmetry. apply oaa_render. intros a Ha. apply (H a Ha).
Qed.

Lemma lays_raw (b : bytes) : lays b (length b) [(0, Raw (length b) b)].
Proof.
  split; [|split].
  - repeat constructor.
  - cbn. apply Nat.eqb_refl.
  - cbn. rewrite app_nil_r. reflexivity.
Qed.

Lemma xm_lays x : wf_XM x -> lays (enc_XM x) (xm_size x) (xm_layout x).
Proof. intro W. split; [apply xm_good|split; [apply xm_tiles|apply xm_render, W]]. Qed.

Lemma oaa_shift {A} (size : A -> nat) lay k l off :
  one_after_another size lay (k + off) l = shift k (one_after_another size lay off l).
Proof.
  revert off. induction l as [|a l IH]; intro off; [reflexivity|]. cbn [one_after_another].
  rewrite shift_app, shift_shift, <- Nat.add_assoc, IH. reflexivity.
Qed.

Lemma enc_Match_eq m : wf_Match m ->
  let n := 4 + fields_size (Match_Fields m) in
  enc_Match m = be_enc 2 (Match_Type m) ++ be_enc 2 (N.of_nat n)
    ++ concat (map enc_XM (Match_Fields m)) ++ zeros (up8 n - n).
Proof.
  intros (Ht & Hl & Hs). cbv zeta. unfold enc_Match. cbv zeta. cbn [concat].
  rewrite fields_length by exact Hl. unfold u16, pad. rewrite app_nil_r.
  rewrite be_enc_uwrap, (Nat.add_comm _ 4), up8_pad. reflexivity.
Qed.

Lemma match_lays m : wf_Match m -> lays (enc_Match m) (match_size m) (match_layout m).
Proof.
  intro W. rewrite enc_Match_eq by exact W. unfold match_layout, match_size.
  set (n := 4 + fields_size (Match_Fields m)).
  pose proof (up8_ge n) as U.
  assert (L : lays (concat (map enc_XM (Match_Fields m))) (fields_size (Match_Fields m))
                (one_after_another xm_size xm_layout 0 (Match_Fields m))).
  { apply lays_list. destruct W as (_ & Hl & _). rewrite Forall_forall in Hl. intros x Hx. apply xm_lays, Hl, Hx. }
  assert (H : lays (be_enc 2 (Match_Type m) ++ be_enc 2 (N.of_nat n)) 4
                [(0, Num 2 (Match_Type m)); (2, Num 2 (N.of_nat n))]).
  { split; [repeat constructor|]. split; [reflexivity|]. cbn [map snd render concat]. rewrite app_nil_r. reflexivity. }
  assert (P : lays (zeros (up8 n - n)) (up8 n - n) [(0, Zero (up8 n - n))]).
  { split; [repeat constructor|]. split; [cbn; apply Nat.eqb_refl|]. cbn. rewrite app_nil_r. reflexivity. }
  pose proof (lays_app _ _ _ _ _ _ H (lays_app _ _ _ _ _ _ L P)) as R.
  rewrite <- app_assoc in R. replace (4 + (fields_size (Match_Fields m) + (up8 n - n))) with (up8 n) in R by lia.
  rewrite shift_app, shift_shift, <- oaa_shift in R.
  change (shift (4 + fields_size (Match_Fields m)) [(0, Zero (up8 n - n))]) with [(n + 0, Zero (up8 n - n))] in R.
  replace (n + 0) with n in R by lia. exact R.
Qed.

Lemma instructions_lays l : Forall wf_Instruction l ->
  lays (enc_Instructions l) (instructions_size l) (instructions_layout l).
Proof. intro W. apply lays_list. rewrite Forall_forall in W. intros i Hi. apply instruction_lays, W, Hi. Qed.

Lemma actions_lays l : Forall wf_Action l -> lays (enc_Actions l) (actions_size l) (actions_layout l).
Proof. intro W. apply lays_list. rewrite Forall_forall in W. intros i Hi. apply action_lays, W, Hi. Qed.

(** A table of fixed items. *)
Ltac lay_table :=
  split; [repeat constructor|split; [reflexivity|]];
  cbn [map snd render concat]; rewrite ?app_nil_r; reflexivity.

Ltac concat_split n :=
  match goal with |- lays (concat ?l) _ _ =>
    let a := eval cbn [firstn] in (firstn n l) in
    let b := eval cbn [skipn] in (skipn n l) in
    let E := fresh in assert (E : concat l = concat a ++ concat b) by exact (concat_app a b);
    rewrite E; clear E
  end.

Ltac concat_split' n :=
  match goal with |- _ _ (concat ?l) _ =>
    let a := eval cbn [firstn] in (firstn n l) in
    let b := eval cbn [skipn] in (skipn n l) in
    let E := fresh in assert (E : concat l = concat a ++ concat b) by exact (concat_app a b);
    rewrite E; clear E
  end.

Lemma flowmod_lays m : wf_FlowMod m ->
  lays (enc_FlowMod m) (40 + (match_size (FlowMod_Match m) + instructions_size (FlowMod_Instructions m)))
    (layout_FlowMod m).
Proof.
  intros (_ & _ & _ & _ & _ & _ & _ & _ & _ & _ & _ & WM & WI).
  unfold enc_FlowMod, layout_FlowMod. rewrite <- shift_shift, <- shift_app. concat_split 12.
  apply lays_app; [lay_table|]. cbn [concat]. rewrite app_nil_r.
  apply lays_app; [apply match_lays, WM|apply instructions_lays, WI].
Qed.

Lemma flowremoved_lays m : wf_FlowRemoved m ->
  lays (enc_FlowRemoved m) (40 + match_size (FlowRemoved_Match m)) (layout_FlowRemoved m).
Proof.
  intros (_ & _ & _ & _ & _ & _ & _ & _ & _ & _ & WM).
  unfold enc_FlowRemoved, layout_FlowRemoved. concat_split 10.
  apply lays_app; [lay_table|]. cbn [concat]. rewrite app_nil_r. apply match_lays, WM.
Qed.

Lemma flowstatsrequest_lays m : wf_FlowStatsRequest m ->
  lays (enc_FlowStatsRequest m) (32 + match_size (FlowStatsRequest_Match m)) (layout_FlowStatsRequest m).
Proof.
  intros (_ & _ & _ & _ & _ & WM).
  unfold enc_FlowStatsRequest, layout_FlowStatsRequest. concat_split 7.
  apply lays_app; [lay_table|]. cbn [concat]. rewrite app_nil_r. apply match_lays, WM.
Qed.

Lemma aggregatestatsrequest_lays m : wf_AggregateStatsRequest m ->
  lays (enc_AggregateStatsRequest m) (32 + match_size (AggregateStatsRequest_Match m)) (layout_AggregateStatsRequest m).
Proof.
  intros (_ & _ & _ & _ & _ & WM).
  unfold enc_AggregateStatsRequest, layout_AggregateStatsRequest. concat_split 7.
  apply lays_app; [lay_table|]. cbn [concat]. rewrite app_nil_r. apply match_lays, WM.
Qed.

Lemma packetin_lays m : wf_PacketIn m ->
  lays (enc_PacketIn m) (16 + (match_size (PacketIn_Match m) + (2 + length (PacketIn_Data m)))) (layout_PacketIn m).
Proof.
  intros (_ & _ & _ & _ & _ & WM).
  unfold enc_PacketIn, layout_PacketIn. rewrite <- shift_shift, <- shift_app. concat_split 5.
  apply lays_app; [lay_table|]. cbn [concat]. rewrite app_nil_r.
  apply lays_app; [apply match_lays, WM|].
  apply (lays_app (pad 2) 2 [(0, Zero 2)] (PacketIn_Data m) _ [(0, Raw _ (PacketIn_Data m))]);
    [lay_table|apply lays_raw].
Qed.

Lemma packetout_lays m : wf_PacketOut m ->
  lays (enc_PacketOut m) (16 + (actions_size (PacketOut_Actions m) + length (PacketOut_Data m))) (layout_PacketOut m).
Proof.
  intros (_ & _ & WA & WS). unfold enc_PacketOut, layout_PacketOut. cbv zeta.
  rewrite actions_length by exact WA. rewrite <- shift_shift, <- shift_app. concat_split 4.
  apply lays_app.
  - split; [repeat constructor|split; [reflexivity|]]. cbn [map snd render concat]. unfold u16.
    rewrite be_enc_uwrap. reflexivity.
  - cbn [concat]. rewrite app_nil_r. apply lays_app; [apply actions_lays, WA|apply lays_raw].
Qed.

Lemma concat_pair (a b : bytes) : concat [a; b] = a ++ b.
Proof. cbn [concat]. rewrite app_nil_r. reflexivity. Qed.

Lemma concat_two (h : bytes) l : concat [h; concat l] = concat (h :: l).
Proof. cbn [concat]. rewrite app_nil_r. reflexivity. Qed.

Lemma flowstats_lays m : wf_FlowStats m ->
  lays (enc_FlowStats m) (flowstats_size m) (layout_FlowStats m).
Proof.
  intros (_ & _ & _ & _ & _ & _ & _ & _ & _ & _ & WM & WI & WS).
  unfold enc_FlowStats, layout_FlowStats. cbv zeta.
  match goal with |- context [length ?b + 2] => set (B := b) end.
  assert (LB : length B + 2 = flowstats_size m).
  { unfold B, flowstats_size. cbn [concat]. rewrite !app_length, instructions_length by exact WI.
    destruct (match_size_ok _ WM) as [-> _]. unfold u8, u16, u32, u64, pad.
    rewrite !be_enc_length, !zeros_length. cbn [length]. lia. }
  rewrite LB. unfold B. clear LB B. rewrite <- shift_shift, <- shift_app.
  rewrite concat_two.
  change (flowstats_size m) with (48 + match_size (FlowStats_Match m) + instructions_size (FlowStats_Instructions m)) at 2.
  rewrite <- Nat.add_assoc. concat_split 13.
  apply lays_app.
  - split; [repeat constructor|split; [reflexivity|]]. cbn [map snd render concat]. unfold u16 at 1.
    rewrite be_enc_uwrap. reflexivity.
  - cbn [concat]. rewrite app_nil_r. apply lays_app; [apply match_lays, WM|apply instructions_lays, WI].
Qed.

(** ** Round trips *)
Lemma whole_last {S} (f : step S) b g : whole f b g -> whole (seqr [f]) (concat [b]) g.
Proof. cbn [concat]. rewrite app_nil_r. apply whole_one. Qed.

Lemma whole_concat_cons {S} (f : step S) fs b bs g h :
  rt f b g -> whole (seqr fs) (concat bs) h -> whole (seqr (f :: fs)) (concat (b :: bs)) (fun s => h (g s)).
Proof. cbn [concat]. apply whole_cons. Qed.

Ltac flow_rt :=
  repeat first [ apply rt_concat_nil
               | eapply rt_concat_cons;
                 [ solve [ rt_elem | apply rt_sub; rt_elem | apply rt_sub; apply rt_Match; assumption
                         | apply rt_sub; apply rt_sub; apply rt_Match; assumption ] | ] ].
Ltac flow_whole :=
  repeat (eapply whole_concat_cons;
          [ solve [ rt_elem | apply rt_sub; rt_elem | apply rt_sub; apply rt_Match; assumption ] | ]).

Lemma whole_FlowMod m : wf_FlowMod m -> whole dec_FlowMod (enc_FlowMod m) (fun _ => m).
Proof.
  unfold wf_FlowMod, enc_FlowMod, dec_FlowMod. intro W. split_wf W. eapply whole_ext; cycle 1.
  - apply whole_pre. flow_whole. apply whole_last, whole_sub, whole_Instructions. assumption.
  - intros []. destruct m. reflexivity.
Qed.

Lemma rt_FlowRemoved m : wf_FlowRemoved m -> rt dec_FlowRemoved (enc_FlowRemoved m) (fun _ => m).
Proof.
  unfold wf_FlowRemoved, enc_FlowRemoved, dec_FlowRemoved. intro W. split_wf W.
  eapply rt_ext; cycle 1; [flow_rt|]. intros []. destruct m. reflexivity.
Qed.

Lemma rt_FlowStatsRequest m : wf_FlowStatsRequest m -> rt dec_FlowStatsRequest (enc_FlowStatsRequest m) (fun _ => m).
Proof.
  unfold wf_FlowStatsRequest, enc_FlowStatsRequest, dec_FlowStatsRequest. intro W. split_wf W.
  eapply rt_ext; cycle 1; [flow_rt|]. intros []. destruct m. reflexivity.
Qed.

Lemma rt_AggregateStatsRequest m : wf_AggregateStatsRequest m -> rt dec_AggregateStatsRequest (enc_AggregateStatsRequest m) (fun _ => m).
Proof.
  unfold wf_AggregateStatsRequest, enc_AggregateStatsRequest, dec_AggregateStatsRequest. intro W. split_wf W.
  eapply rt_ext; cycle 1; [flow_rt|]. intros []. destruct m. reflexivity.
Qed.

Lemma concat_snoc (l : list bytes) x : concat (l ++ [x]) = concat l ++ x.
Proof. rewrite concat_app. cbn [concat]. rewrite app_nil_r. reflexivity. Qed.

(** The [n] first elements apart from the last one. *)
Ltac split_last n :=
  match goal with |- _ _ (concat ?l) _ =>
    let a := eval cbn [firstn] in (firstn n l) in
    let b := eval cbn [skipn] in (skipn n l) in
    match b with [?x] =>
      let E := fresh in assert (E : concat l = concat a ++ x) by exact (concat_snoc a x); rewrite E; clear E
    end
  end.

Lemma whole_PacketIn m : wf_PacketIn m -> whole dec_PacketIn (enc_PacketIn m) (fun _ => m).
Proof.
  unfold wf_PacketIn, enc_PacketIn, dec_PacketIn. intro W. split_wf W.
  split_last 7.
  eapply whole_ext; cycle 1.
  - apply whole_andthen; [flow_rt|]. intros s. apply whole_readall.
  - intros []. destruct m. reflexivity.
Qed.

Lemma whole_PacketOut m : wf_PacketOut m -> whole dec_PacketOut (enc_PacketOut m) (fun _ => m).
Proof.
  unfold wf_PacketOut, enc_PacketOut, dec_PacketOut. cbv zeta. intros (W1 & W2 & WA & WS).
  rewrite actions_length by exact WA. set (n := N.of_nat (actions_size (PacketOut_Actions m))) in *.
  concat_split' 4. rewrite concat_pair.
  eapply whole_ext; cycle 1.
  - apply whole_with_local, whole_andthen.
    + eapply rt_concat_cons; [apply rt_sub, rt_fu, W1|]. eapply rt_concat_cons; [apply rt_sub, rt_fu, W2|].
      eapply rt_concat_cons; [apply rt_fu, uwrap_fits|]. flow_rt.
    + intros s. apply whole_andthen.
      * apply rt_limited; cycle 1.
        -- apply whole_pre, whole_sub, whole_sub, whole_Actions, WA.
        -- cbn [fst snd]. rewrite actions_length by exact WA. rewrite uwrap_small; [unfold n; lia|exact WS].
      * intros s'. apply whole_sub, whole_readall.
  - intros []. destruct m. reflexivity.
Qed.

Lemma rt_FlowStats m : wf_FlowStats m -> rt dec_FlowStats (enc_FlowStats m) (fun _ => m).
Proof.
  unfold wf_FlowStats, enc_FlowStats, dec_FlowStats. cbv zeta. intro W. split_wf W.
  match goal with |- context [length ?b + 2] => set (B := b) end.
  assert (K : length B + 2 = flowstats_size m).
  { unfold B, flowstats_size. cbn [concat]. rewrite !app_length, instructions_length by assumption.
    destruct (match_size_ok (FlowStats_Match m)) as [-> _]; [assumption|]. unfold u8, u16, u32, u64, pad.
    rewrite !be_enc_length, !zeros_length. cbn [length]. lia. }
  rewrite K. unfold B. clear K B. rewrite concat_two. split_last 14.
  eapply rt_ext; cycle 1.
  - apply rt_with_local, rt_andthen.
    + eapply rt_concat_cons; [apply rt_fu, uwrap_fits|]. flow_rt.
    + intros s. apply rt_limited; cycle 1.
      * apply whole_pre, whole_sub, whole_sub, whole_Instructions. assumption.
      * cbn [fst snd]. cbn [concat]. rewrite uwrap_small by assumption.
        rewrite !app_length, instructions_length by assumption.
        destruct (match_size_ok (FlowStats_Match m)) as [-> _]; [assumption|]. unfold u8, u16, u32, u64, pad.
        rewrite !be_enc_length, !zeros_length. cbn [length]. unfold flowstats_size. lia.
  - intros []. destruct m. reflexivity.
Qed.
