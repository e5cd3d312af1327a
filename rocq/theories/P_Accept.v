(** C103: what is read from the beginning of a message of varying size that is accepted. *)
From Verif Require Import TruncFacts SeenSpec AcceptSpec P_Seen P_Trunc.
From Coq Require Import Lia.
Ltac Zify.zify_post_hook ::= Z.div_mod_to_equations.

(** [f] makes [w n s] of [s] when the first [n] of the bytes [bs] are accepted. *)
Definition leads {S} (f : step S) (bs : bytes) (v : nat -> finding) (w : nat -> S -> S) : Prop :=
  forall s n, n <= length bs -> v n = Fine -> val (f s (firstn n bs)) = w n s.

Lemma leads_ext {S} (f : step S) bs v w w' : (forall s n, n <= length bs -> v n = Fine -> w n s = w' n s) -> leads f bs v w -> leads f bs v w'.
Proof. intros E H s n Hn F. rewrite (H s n Hn F). auto. Qed.
Lemma leads_sub {S A} (get : S -> A) set f bs v w : leads f bs v w -> leads (sub get set f) bs v (fun n s => set (w n (get s)) s).
Proof. intros H s n Hn F. unfold sub. cbn [val]. rewrite (H _ n Hn F). reflexivity. Qed.
Lemma leads_pre {S} (g : S -> S) f bs v w : leads f bs v w -> leads (pre g f) bs v (fun n s => w n (g s)).
Proof. intros H s n Hn F. apply (H (g s) n Hn F). Qed.
Lemma leads_local {L S} (l : L) (f : step (L * S)) bs v w : leads f bs v w -> leads (with_local l f) bs v (fun n s => snd (w n (l, s))).
Proof. intros H s n Hn F. unfold with_local. cbn [val]. rewrite (H _ n Hn F). reflexivity. Qed.
Lemma leads_limited {S} z (f : step S) bs v w : (Z.of_nat (length bs) <= z)%Z -> leads f bs v w -> leads (limited z f) bs v w.
Proof.
  intros Hz H s n Hn F. unfold limited. cbn [val]. rewrite firstn_all2 by (rewrite firstn_length; lia). auto.
Qed.

Lemma leads_andthen {S} (a : step S) b g bs1 bs2 v1 v2 w1 w2 :
  rt a bs1 g -> snaps a bs1 v1 -> leads a bs1 v1 w1 -> (forall s, leads (b (length bs1) (g s)) bs2 v2 w2) ->
  (forall n h s, v2 0 = Fine -> val (b n h s []) = w2 0 s) ->
  leads (andthen a b) (bs1 ++ bs2) (followed (length bs1) v1 v2)
    (fun n s => if n <? length bs1 then w2 0 (w1 n s) else w2 (n - length bs1) (g s)).
Proof.
  intros Ha S1 L1 L2 L0 s n Hn. unfold followed. rewrite app_length in Hn.
  destruct (Nat.ltb_spec n (length bs1)) as [K|K].
  - rewrite firstn_before by exact K. destruct (S1 s n) as [E R]; [lia|]. specialize (L1 s n ltac:(lia)).
    destruct (a s (firstn n bs1)) as [v k e r] eqn:X. cbn [fail rest val] in E, R, L1.
    destruct (v1 n) eqn:V; cbn [told] in E; subst e; [|discriminate|discriminate]. intro F.
    rewrite (R eq_refl) in X. rewrite (andthen_ok _ _ _ _ _ _ _ X). cbn [val]. rewrite L0 by exact F. rewrite L1; reflexivity.
  - intro F. rewrite firstn_behind by exact K. rewrite (andthen_ok _ _ _ _ _ _ _ (Ha s _)). cbn [val].
    apply L2; [lia|exact F].
Qed.

Lemma leads_front {S} (a : step S) b g bs1 bs2 v1 v2 w2 :
  rt a bs1 g -> (forall n, n < length bs1 -> v1 n <> Fine) -> snaps a bs1 v1 -> (forall s, leads (b (length bs1) (g s)) bs2 v2 w2) ->
  leads (andthen a b) (bs1 ++ bs2) (followed (length bs1) v1 v2) (fun n s => w2 (n - length bs1) (g s)).
Proof.
  intros Ha N S1 L2 s n Hn. unfold followed. rewrite app_length in Hn.
  destruct (Nat.ltb_spec n (length bs1)) as [K|K].
  - intro F. specialize (N n K). destruct (v1 n); [congruence|discriminate|discriminate].
  - intro F. rewrite firstn_behind by exact K. rewrite (andthen_ok _ _ _ _ _ _ _ (Ha s _)). cbn [val].
    apply L2; [lia|exact F].
Qed.

Lemma leads_seqr_front {S} (fs gs : list (step S)) g bs1 bs2 v1 v2 w2 :
  rt (seqr fs) bs1 g -> (forall n, n < length bs1 -> v1 n <> Fine) -> snaps (seqr fs) bs1 v1 -> leads (seqr gs) bs2 v2 w2 ->
  leads (seqr (fs ++ gs)) (bs1 ++ bs2) (followed (length bs1) v1 v2) (fun n s => w2 (n - length bs1) (g s)).
Proof. intros A B C D s n Hn F. rewrite seqr_app_eq. apply (leads_front _ _ _ _ _ _ _ _ A B C (fun _ => D) s n Hn F). Qed.

Lemma leads_one {S} (f : step S) bs v w : leads f bs v w -> leads (seqr [f]) bs v w.
Proof. intros H s n Hn F. rewrite <- (H s n Hn F). cbn [seqr]. destruct (f s (firstn n bs)) as [v' k [e|] r]; reflexivity. Qed.

Lemma val_take_pad {S} k (s : S) x : val (fpad k s x) = s.
Proof. unfold fpad, take_full. destruct (length x <? k); reflexivity. Qed.

(** ** Matches *)
Lemma kept_xm_loop l : Forall wf_XM l ->
  forall fuel acc n, n <= length (concat (map enc_XM l)) -> n < fuel -> entries_of (map xm_size l) n = Fine ->
  fst (xm_loop fuel true acc (firstn n (concat (map enc_XM l)))) = acc ++ fields_kept l n.
Proof.
  induction 1 as [|x l W H IH]; intros fuel acc n Hn Hf F; (destruct fuel as [|fuel]; [lia|]).
  - cbn [map concat fields_kept]. rewrite firstn_nil, app_nil_r. reflexivity.
  - cbn [map concat entries_of fields_kept] in *. rewrite app_length in Hn.
    assert (LX := xm_length x W). set (bs := concat (map enc_XM l)) in *.
    assert (Len : length (firstn n (enc_XM x ++ bs)) = n) by (rewrite firstn_length, app_length; lia).
    assert (X4 : 4 <= xm_size x) by (unfold xm_size; lia).
    cbn [xm_loop]. destruct (Nat.ltb_spec (length (firstn n (enc_XM x ++ bs))) 4) as [K|K]; rewrite Len in K.
    + destruct (Nat.leb_spec (xm_size x) n); [lia|]. cbn [fst]. rewrite app_nil_r. reflexivity.
    + change (dec_xm true) with dec_XM. destruct (Nat.leb_spec (xm_size x) n) as [G|G].
      * rewrite firstn_behind by lia. rewrite !(rt_XM x W). cbn [fail val rest]. rewrite LX.
        rewrite IH by (try lia; exact F). rewrite <- app_assoc. reflexivity.
      * destruct (Nat.ltb_spec n 4); [lia|]. destruct (n =? 4); discriminate.
Qed.

Lemma leads_entries l : Forall wf_XM l ->
  leads (read_all_xm true) (concat (map enc_XM l)) (entries_of (map xm_size l)) (fun n old => old ++ fields_kept l n).
Proof.
  intros H s n Hn F. unfold read_all_xm.
  assert (Len : length (firstn n (concat (map enc_XM l))) = n) by (rewrite firstn_length; lia).
  pose proof (kept_xm_loop l H (Datatypes.S (length (firstn n (concat (map enc_XM l))))) s n Hn ltac:(lia) F) as E.
  destruct (xm_loop _ true s _) as [a e]. exact E.
Qed.

Lemma fields_kept_all l n : fields_size l <= n -> fields_kept l n = l.
Proof.
  revert n. induction l as [|x l IH]; intros n H; [reflexivity|]. cbn [fields_kept].
  unfold fields_size in *. cbn [map] in H. change (list_sum (xm_size x :: map xm_size l)) with (xm_size x + list_sum (map xm_size l)) in H.
  destruct (Nat.leb_spec (xm_size x) n); [|lia]. rewrite IH by lia. reflexivity.
Qed.

Lemma leads_Match m : wf_Match m -> leads dec_Match (enc_Match m) (match_cut m) (fun n _ => match_kept m n).
Proof.
  destruct m as [t l]. intros (Ht & Hl & Hs). cbn [Match_Type Match_Fields] in *.
  assert (L := fields_length l Hl).
  unfold dec_Match, enc_Match, match_cut, match_size. cbn [Match_Type Match_Fields]. cbv zeta.
  rewrite uwrap2 by lia. rewrite <- L. set (buf := concat (map enc_XM l)) in *.
  replace (up8 (4 + length buf) - 4 - length buf) with (pad_len (length buf + 4))
    by (rewrite <- up8_pad, (Nat.add_comm (length buf) 4); lia).
  replace (concat [u16 t; u16 (N.of_nat (length buf + 4)); buf; pad (pad_len (length buf + 4))])
    with (concat [u16 t; u16 (N.of_nat (length buf + 4))] ++ (buf ++ pad (pad_len (length buf + 4))))
    by (cbn [concat]; rewrite !app_nil_r, <- !app_assoc; reflexivity).
  eapply leads_ext; cycle 1.
  - apply leads_pre, leads_local.
    eapply (leads_front _ _ (fun s : N * Match => (N.of_nat (length buf + 4), set_Match_Type t (snd s)))
            (concat [u16 t; u16 (N.of_nat (length buf + 4))])).
    + eapply rt_ext; cycle 1.
      * eapply rt_concat_cons; [apply rt_sub, rt_fu; exact Ht|].
        eapply rt_concat_cons; [apply rt_fu; unfold fits; change (256 ^ N.of_nat 2)%N with 65536%N; lia|].
        apply rt_concat_nil.
      * reflexivity.
    + intros n K. apply (fields_short [2; 2]). exact K.
    + apply plain_snaps; [|reflexivity].
      apply plain_cons; [apply plain_sub, plain_take|]. apply plain_cons; [apply plain_take|apply plain_nil].
    + intro s. cbn [fst snd]. apply leads_sub.
      apply (leads_andthen _ _ (fun m => set_Match_Fields (Match_Fields m ++ l) m) _ _ _ _
               (fun n m => set_Match_Fields (Match_Fields m ++ fields_kept l n) m) (fun _ m => m)).
      * apply rt_limited; [lia|].
        apply (whole_sub Match_Fields set_Match_Fields _ _ (fun old => old ++ l)), whole_read_all, Hl.
      * apply snaps_limited; [lia|]. apply snaps_sub. apply snaps_entries, Hl.
      * apply leads_limited; [lia|]. apply (leads_sub Match_Fields set_Match_Fields _ _ _ (fun n old => old ++ fields_kept l n)). apply leads_entries, Hl.
      * intros _ s' n _ _. apply val_take_pad.
      * intros. apply val_take_pad.
  - intros s n _ _. cbn [snd fst]. unfold match_kept. cbn [Match_Type Match_Fields]. change (length (concat [u16 t; u16 (N.of_nat (length buf + 4))])) with 4.
    destruct (Nat.ltb_spec (n - 4) (length buf)) as [K|K]; [reflexivity|]. rewrite fields_kept_all by lia. reflexivity.
Qed.

(** ** Lists *)
Lemma leads_Actions l v : Forall wf_Action l -> leads dec_Actions (enc_Actions l) v (fun n _ => actions_seen l n).
Proof. intros W s n Hn _. apply C103_actions_read; assumption. Qed.

Lemma leads_Instructions l v : Forall wf_Instruction l -> leads dec_Instructions (enc_Instructions l) v (fun n old => old ++ instructions_seen l n).
Proof. intros W s n Hn _. apply C103_instructions_read; assumption. Qed.

Lemma instructions_seen_0 l : instructions_seen l 0 = [].
Proof. destruct l as [|i l]; [reflexivity|]. unfold instructions_seen. cbn [list_seen]. pose proof (instruction_size_8 i). destruct (Nat.leb_spec (instruction_size i) 0); [lia|]. reflexivity. Qed.

Lemma list_seen_whole {A} (size : A -> nat) seen l n : list_sum (map size l) <= n -> list_seen size seen l n = l.
Proof.
  revert n. induction l as [|a l IH]; intros n H; [reflexivity|]. cbn [list_seen map] in *.
  change (list_sum (size a :: map size l)) with (size a + list_sum (map size l)) in H.
  destruct (Nat.leb_spec (size a) n); [|lia]. rewrite IH by lia. reflexivity.
Qed.

Lemma match_kept_whole m n : match_size m <= n -> match_kept m n = m.
Proof.
  intro H. unfold match_kept. rewrite fields_kept_all; [destruct m; reflexivity|].
  unfold match_size in H. pose proof (up8_ge (4 + fields_size (Match_Fields m))). lia.
Qed.

Lemma leads_readall {S} (set : bytes -> S -> S) bs v : leads (readall set) bs v (fun n s => set (firstn n bs) s).
Proof. intros s n _ _. reflexivity. Qed.

(** ** Messages *)
Ltac lead_split n :=
  match goal with |- leads _ (concat ?l) _ _ =>
    let a := eval cbn [firstn] in (firstn n l) in
    let b := eval cbn [skipn] in (skipn n l) in
    let E := fresh in assert (E : concat l = concat a ++ concat b) by exact (concat_app a b); rewrite E; clear E;
    match b with [?x] => replace (concat [x]) with x by (symmetry; apply app_nil_r) | _ => idtac end
  end.

Ltac lead_head k :=
  match goal with |- leads (seqr ?fs) (concat ?bs) (followed _ ?v1 ?v2) _ =>
    change (seqr fs) with (seqr (firstn k fs ++ skipn k fs));
    change (concat bs) with (concat (firstn k bs ++ skipn k bs)); rewrite concat_app;
    cbn [firstn skipn];
    match goal with |- leads _ (?x ++ _) (followed ?n _ _) _ => rewrite (followed_eq n (length x)); [|reflexivity] end;
    eapply leads_seqr_front; [flow_rt|intros ? ?; apply fields_short; assumption|apply plain_snaps; [plainly|reflexivity]|]
  end.

Lemma leads_match {S} (get : S -> Match) set m : wf_Match m ->
  leads (seqr [sub get set dec_Match]) (concat [enc_Match m]) (match_cut m) (fun n s => set (match_kept m n) s).
Proof.
  intro W. cbn [concat]. rewrite app_nil_r.
  apply leads_one, (leads_sub get set _ _ _ (fun n _ => match_kept m n)), leads_Match, W.
Qed.

Lemma leads_FlowRemoved m : wf_FlowRemoved m ->
  leads dec_FlowRemoved (enc_FlowRemoved m) (cut_finding VFlowRemoved m) (accepted_as VFlowRemoved m).
Proof.
  unfold wf_FlowRemoved, enc_FlowRemoved, dec_FlowRemoved. intro W. split_wf W. unfold cut_finding, front.
  eapply leads_ext; cycle 1.
  - lead_head 10. apply leads_match. assumption.
  - intros s n _ _. reflexivity.
Qed.

Lemma leads_FlowStatsRequest m : wf_FlowStatsRequest m ->
  leads dec_FlowStatsRequest (enc_FlowStatsRequest m) (cut_finding VFlowStatsRequest m) (accepted_as VFlowStatsRequest m).
Proof.
  unfold wf_FlowStatsRequest, enc_FlowStatsRequest, dec_FlowStatsRequest. intro W. split_wf W. unfold cut_finding, front.
  eapply leads_ext; cycle 1.
  - lead_head 7. apply leads_match. assumption.
  - intros s n _ _. reflexivity.
Qed.

Lemma leads_AggregateStatsRequest m : wf_AggregateStatsRequest m ->
  leads dec_AggregateStatsRequest (enc_AggregateStatsRequest m) (cut_finding VAggregateStatsRequest m) (accepted_as VAggregateStatsRequest m).
Proof.
  unfold wf_AggregateStatsRequest, enc_AggregateStatsRequest, dec_AggregateStatsRequest. intro W. split_wf W. unfold cut_finding, front.
  eapply leads_ext; cycle 1.
  - lead_head 7. apply leads_match. assumption.
  - intros s n _ _. reflexivity.
Qed.

Lemma leads_FlowMod m : wf_FlowMod m ->
  leads dec_FlowMod (enc_FlowMod m) (cut_finding VFlowMod m) (accepted_as VFlowMod m).
Proof.
  unfold wf_FlowMod, enc_FlowMod, dec_FlowMod. intro W. split_wf W. unfold cut_finding, front.
  set (ms := match_size (FlowMod_Match m)).
  eapply leads_ext; cycle 1.
  - apply leads_pre. lead_head 12.
    apply (leads_ext _ _ _ (fun n s => if n <? ms
        then set_FlowMod_Instructions (FlowMod_Instructions (set_FlowMod_Match (match_kept (FlowMod_Match m) n) s) ++ instructions_seen (FlowMod_Instructions m) 0)
               (set_FlowMod_Match (match_kept (FlowMod_Match m) n) s)
        else set_FlowMod_Instructions (FlowMod_Instructions (set_FlowMod_Match (FlowMod_Match m) s) ++ instructions_seen (FlowMod_Instructions m) (n - ms))
               (set_FlowMod_Match (FlowMod_Match m) s))).
    { intros. reflexivity. }
    intros s n Hn F.
    match goal with |- val (seqr (?a :: ?b) _ _) = _ => change (a :: b) with ([a] ++ b) end. rewrite seqr_app_eq.
    cbn [concat] in *. rewrite app_nil_r in *. unfold ms in *. rewrite <- match_length in * by assumption.
    refine (leads_andthen (seqr [sub FlowMod_Match set_FlowMod_Match dec_Match]) _ (fun s => set_FlowMod_Match (FlowMod_Match m) s) _ _ _ _
      (fun n s => set_FlowMod_Match (match_kept (FlowMod_Match m) n) s)
      (fun n s => set_FlowMod_Instructions (FlowMod_Instructions s ++ instructions_seen (FlowMod_Instructions m) n) s)
      _ _ _ _ _ s n Hn F).
    + rewrite <- (app_nil_r (enc_Match _)). apply (rt_cons _ [] _ [] _ (fun s => s)); [|apply rt_nil]. apply (rt_sub FlowMod_Match set_FlowMod_Match _ _ (fun _ => FlowMod_Match m)), rt_Match. assumption.
    + apply snaps_one, snaps_sub, snaps_Match. assumption.
    + rewrite <- (app_nil_r (enc_Match _)). apply leads_match. assumption.
    + intro s'. apply leads_one, (leads_sub FlowMod_Instructions set_FlowMod_Instructions _ _ _ (fun n old => old ++ instructions_seen (FlowMod_Instructions m) n)), leads_Instructions. assumption.
    + intros k h s' _. rewrite instructions_seen_0. cbn [seqr]. unfold sub. cbn. rewrite app_nil_r. reflexivity.
  - intros s n _ _. cbv beta. change (length _) with 40. cbn [accepted_as].
    destruct (Nat.ltb_spec (n - 40) ms) as [K|K].
    + replace (n - 40 - match_size (FlowMod_Match m)) with 0 by (fold ms; lia). rewrite instructions_seen_0. reflexivity.
    + rewrite match_kept_whole by exact K. reflexivity.
Qed.

Lemma leads_Bucket m : wf_Bucket m -> leads dec_Bucket (enc_Bucket m) (cut_finding VBucket m) (accepted_as VBucket m).
Proof.
  unfold enc_Bucket, dec_Bucket. cbv zeta. intros (W1 & W2 & W3 & WA & WS).
  rewrite actions_length by exact WA. lead_split 5. unfold cut_finding, front.
  match goal with |- leads _ (?x ++ _) (followed ?n _ _) _ => rewrite (followed_eq n (length x)); [|reflexivity] end.
  eapply leads_ext; cycle 1.
  - apply leads_local. eapply leads_front.
    + eapply rt_concat_cons; [apply rt_fu, uwrap_fits|]. flow_rt.
    + intros n K. apply fields_short. exact K.
    + apply plain_snaps; [plainly|reflexivity].
    + intros s. apply leads_limited.
      * cbn [fst snd]. rewrite actions_length by exact WA. apply limit_le, (sub16_limit _ 16), WS.
      * apply leads_pre, leads_sub, leads_sub, leads_Actions, WA.
  - intros s n _ _. reflexivity.
Qed.

Lemma leads_PacketOut m : wf_PacketOut m -> leads dec_PacketOut (enc_PacketOut m) (cut_finding VPacketOut m) (accepted_as VPacketOut m).
Proof.
  unfold wf_PacketOut, enc_PacketOut, dec_PacketOut. cbv zeta. intros (W1 & W2 & WA & WS).
  unfold cut_finding, front. pose proof (actions_length _ WA) as LA. rewrite LA.
  rewrite (followed_eq (actions_size _) (length (enc_Actions (PacketOut_Actions m)))) by (symmetry; exact LA).
  set (n0 := N.of_nat (actions_size (PacketOut_Actions m))) in *.
  lead_split 4. rewrite concat_pair.
  match goal with |- leads _ (?x ++ _) (followed ?n _ _) _ => rewrite (followed_eq n (length x)); [|reflexivity] end.
  eapply leads_ext; cycle 1.
  - apply leads_local. eapply leads_front.
    + eapply rt_concat_cons; [apply rt_sub, rt_fu, W1|]. eapply rt_concat_cons; [apply rt_sub, rt_fu, W2|].
      eapply rt_concat_cons; [apply rt_fu, uwrap_fits|]. flow_rt.
    + intros n K. apply fields_short. exact K.
    + apply plain_snaps; [plainly|reflexivity].
    + intros s. assert (Z : Z.to_nat (Z.of_N (uwrap 2 n0)) = length (enc_Actions (PacketOut_Actions m))).
      { rewrite LA. rewrite uwrap_small; [unfold n0; lia|exact WS]. }
      cbn [fst snd].
      apply (leads_andthen _ _ (fun s : N * PacketOut => (fst s, set_PacketOut_Actions (PacketOut_Actions m) (snd s))) _ _ _ _
               (fun n s => (fst s, set_PacketOut_Actions (actions_seen (PacketOut_Actions m) n) (snd s)))
               (fun n s => (fst s, set_PacketOut_Data (firstn n (PacketOut_Data m)) (snd s)))).
      * eapply rt_ext; cycle 1; [apply rt_limited; [exact Z|]; apply whole_pre, whole_sub, whole_sub, whole_Actions, WA|]. reflexivity.
      * apply snaps_limited; [lia|]. apply snaps_pre, snaps_sub, snaps_sub, snaps_Actions, WA.
      * apply leads_limited; [lia|]. eapply leads_ext; cycle 1; [apply leads_pre, leads_sub, leads_sub, leads_Actions, WA|]. reflexivity.
      * intros s'. intros s0 n _ _. reflexivity.
      * reflexivity.
  - intros s n _ _. cbv beta. rewrite LA. change (length _) with 16. cbn [accepted_as].
    destruct (Nat.ltb_spec (n - 16) (actions_size (PacketOut_Actions m))) as [K|K].
    + replace (n - 16 - actions_size (PacketOut_Actions m)) with 0 by lia. reflexivity.
    + unfold actions_seen. rewrite list_seen_whole by exact K. reflexivity.
Qed.

Lemma followed_never a v1 v2 w : (forall n, n < a -> v1 n <> Fine) -> (forall n, n < w -> v2 n <> Fine) ->
  forall n, n < a + w -> followed a v1 v2 n <> Fine.
Proof.
  intros A B n H. unfold followed. destruct (Nat.ltb_spec n a) as [K|K].
  - specialize (A n K). destruct (v1 n); [contradiction|discriminate|discriminate].
  - apply B. lia.
Qed.

Lemma leads_PacketIn m : wf_PacketIn m -> leads dec_PacketIn (enc_PacketIn m) (cut_finding VPacketIn m) (accepted_as VPacketIn m).
Proof.
  unfold wf_PacketIn, enc_PacketIn, dec_PacketIn. intro W. split_wf W.
  pose proof (match_size_pos (PacketIn_Match m)) as P.
  set (ms := match_size (PacketIn_Match m)) in *.
  set (v1 := followed 16 (fields (front VPacketIn)) (followed ms (match_cut (PacketIn_Match m)) (fields [2]))).
  assert (V : forall n, cut_finding VPacketIn m n = followed (16 + (ms + 2)) v1 (fun _ => Fine) n).
  { intro n. unfold v1. rewrite followed_assoc by lia. unfold cut_finding. fold ms. unfold followed at 1 4.
    rewrite !followed_assoc by lia. reflexivity. }
  intros s n Hn F. rewrite V in F. revert s n Hn F.
  match goal with |- forall s n, n <= length ?bs -> ?v n = Fine -> val (?f s (firstn n ?bs)) = ?w n s => change (leads f bs v w) end.
  lead_split 7.
  match goal with |- leads _ (?x ++ _) (followed ?n _ _) _ => assert (LH : n = length x) end.
  { cbn [concat]. rewrite !app_length, match_length by assumption. unfold u8, u16, u32, u64, pad.
    rewrite !be_enc_length, !zeros_length. cbn [length]. fold ms. lia. }
  rewrite (followed_eq _ _ _ _ LH).
  eapply leads_ext; cycle 1.
  - eapply leads_front.
    + flow_rt.
    + intros n K. rewrite <- LH in K. revert n K. unfold v1. apply followed_never.
      * intros n K. apply fields_short. exact K.
      * intros n K. unfold followed. destruct (Nat.ltb_spec n ms) as [J|J].
        -- destruct (match_cut _ n); discriminate.
        -- apply (fields_short [2]). change (list_sum [2]) with 2. lia.
    + unfold v1, front. split_head 5. apply snaps_match_then; [assumption|]. apply plain_snaps; [plainly|reflexivity].
    + intro s. apply leads_readall.
  - intros s n _ _. cbv beta. rewrite <- LH. cbn [accepted_as]. fold ms. replace (n - 18 - ms) with (n - (16 + (ms + 2))) by lia. reflexivity.
Qed.

Lemma leads_FlowStats m : wf_FlowStats m -> leads dec_FlowStats (enc_FlowStats m) (cut_finding VFlowStats m) (accepted_as VFlowStats m).
Proof.
  unfold wf_FlowStats, enc_FlowStats, dec_FlowStats. cbv zeta. intro W. split_wf W.
  match goal with |- context [length ?b + 2] => set (B := b) end.
  assert (K : length B + 2 = flowstats_size m).
  { unfold B, flowstats_size. cbn [concat]. rewrite !app_length, instructions_length by assumption.
    destruct (match_size_ok (FlowStats_Match m)) as [-> _]; [assumption|]. unfold u8, u16, u32, u64, pad.
    rewrite !be_enc_length, !zeros_length. cbn [length]. lia. }
  rewrite K. unfold B. clear K B. rewrite concat_two.
  pose proof (match_size_pos (FlowStats_Match m)) as P. set (ms := match_size (FlowStats_Match m)) in *.
  set (v1 := followed 48 (fields (front VFlowStats)) (match_cut (FlowStats_Match m))).
  assert (V : forall n, cut_finding VFlowStats m n = followed (48 + ms) v1 (instructions_cut (FlowStats_Instructions m)) n).
  { intro n. unfold v1. rewrite followed_assoc by lia. reflexivity. }
  intros s n Hn F. rewrite V in F. revert s n Hn F.
  match goal with |- forall s n, n <= length ?bs -> ?v n = Fine -> val (?f s (firstn n ?bs)) = ?w n s => change (leads f bs v w) end.
  lead_split 14.
  match goal with |- leads _ (?x ++ _) (followed ?n _ _) _ => assert (LH : n = length x) end.
  { cbn [concat]. rewrite !app_length, match_length by assumption. unfold u8, u16, u32, u64, pad.
    rewrite !be_enc_length, !zeros_length. cbn [length]. fold ms. lia. }
  rewrite (followed_eq _ _ _ _ LH).
  eapply leads_ext; cycle 1.
  - apply leads_local. eapply leads_andthen.
    + eapply rt_concat_cons; [apply rt_fu, uwrap_fits|]. flow_rt.
    + unfold v1, front. split_head 13. cbn [concat]. rewrite app_nil_r.
      apply snaps_one, snaps_sub, snaps_sub, snaps_Match. assumption.
    + unfold v1, front.
      match goal with |- leads (seqr ?fs) (concat ?bs) _ _ =>
        change (seqr fs) with (seqr (firstn 13 fs ++ skipn 13 fs));
        change (concat bs) with (concat (firstn 13 bs ++ skipn 13 bs)); rewrite concat_app; cbn [firstn skipn] end.
      match goal with |- leads _ (?x ++ _) (followed ?n _ _) _ => rewrite (followed_eq n (length x)); [|reflexivity] end.
      eapply leads_seqr_front.
      * eapply rt_concat_cons; [apply rt_fu, uwrap_fits|]. flow_rt.
      * intros ? ?. apply fields_short. assumption.
      * apply plain_snaps; [plainly|reflexivity].
      * cbn [concat]. rewrite app_nil_r. apply leads_one, leads_sub, leads_sub, leads_Match. assumption.
    + intros s. apply leads_limited.
      * cbn [fst snd]. cbn [concat]. rewrite uwrap_small by assumption.
        rewrite !app_length, instructions_length by assumption.
        destruct (match_size_ok (FlowStats_Match m)) as [-> _]; [assumption|]. unfold u8, u16, u32, u64, pad.
        rewrite !be_enc_length, !zeros_length. cbn [length]. unfold flowstats_size. lia.
      * apply leads_pre, leads_sub, leads_sub, leads_Instructions. assumption.
    + intros k h s _. cbv beta. rewrite instructions_seen_0. unfold limited. rewrite firstn_nil. cbn [val]. unfold pre, sub. cbn [val fst snd].
      rewrite app_nil_r. reflexivity.
  - intros s n _ _. cbv beta. rewrite <- LH. cbn [accepted_as]. fold ms. change (length _) with 48.
    destruct (Nat.ltb_spec n (48 + ms)) as [K|K].
    + replace (n - 48 - ms) with 0 by lia. rewrite instructions_seen_0. reflexivity.
    + rewrite match_kept_whole by (fold ms; lia). replace (n - 48 - ms) with (n - (48 + ms)) by lia. reflexivity.
Qed.

Lemma leads_all k m : vwf k m -> leads (vdec k) (venc k m) (cut_finding k m) (accepted_as k m).
Proof.
  destruct k; intro W.
  - exact (leads_Match m W).
  - exact (leads_Actions m _ W).
  - exact (leads_Instructions m _ W).
  - exact (leads_Bucket m W).
  - exact (leads_FlowMod m W).
  - exact (leads_FlowRemoved m W).
  - exact (leads_FlowStatsRequest m W).
  - exact (leads_AggregateStatsRequest m W).
  - exact (leads_FlowStats m W).
  - exact (leads_PacketIn m W).
  - exact (leads_PacketOut m W).
Qed.

(** C103: the value read from the first [n] bytes of any message of any of these
    kinds, into any previous contents, whenever no error is returned. *)
Theorem C103_accepted : forall k (m old : vmsg k) n, vwf k m -> n <= length (venc k m) ->
  fail (vdec k old (firstn n (venc k m))) = None ->
  val (vdec k old (firstn n (venc k m))) = accepted_as k m n old.
Proof.
  intros k m old n W Hn F. apply leads_all; [exact W|exact Hn|].
  rewrite C103_reported in F by assumption. destruct (cut_finding k m n); [reflexivity|discriminate|discriminate].
Qed.
Print Assumptions C103_accepted.

(** The flow of 112 bytes cut behind the second entry of its match, behind the
    header of the output action, and behind the header of the jump; a packet-in
    that lost three bytes of the frame. *)
Example C103_accepted_ex :
  accepted_as VFlowMod flow_a 58 zero_FlowMod
    = set_FlowMod_Match (MkMatch 1 [MkXM 32768 0 [x00; x00; x00; x05] []; MkXM 32768 5 [x08; x00] []]) (set_FlowMod_Instructions [] flow_a)
  /\ accepted_as VFlowMod flow_a 76 flow_a = set_FlowMod_Instructions [IApplyActions [AOutput 0 0]] flow_a
  /\ accepted_as VFlowMod flow_a 108 flow_a
    = set_FlowMod_Instructions [IApplyActions [AOutput 7 65535; ASetField (MkXM 32768 6 [x10; x64] [])]; IGotoTable 0] flow_a
  /\ fail (dec_FlowMod flow_a (firstn 58 (enc_FlowMod flow_a))) = None
  /\ fail (dec_FlowMod flow_a (firstn 76 (enc_FlowMod flow_a))) = None
  /\ fail (dec_FlowMod flow_a (firstn 108 (enc_FlowMod flow_a))) = None
  /\ accepted_as VPacketIn packet_a 36 zero_PacketIn = set_PacketIn_Data [x01; x02] packet_a.
Proof. vm_compute. repeat split; reflexivity. Qed.
