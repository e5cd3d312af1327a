(** Proofs that decoders return with few kinds of errors on all inputs. *)
From Verif Require Export SafetySpec LoopFacts TableFacts DataFacts.
From Verif Require Import PortsModel PortsFacts.

(** [Q inp] is what a panic on [inp] takes. *)
Definition safe (Q : bytes -> Prop) {St} (f : step St) : Prop :=
  suffixing f /\ forall s inp e, fail (f s inp) = Some e -> reportable e \/ (e = EPanic /\ Q inp).

(** What holds of a part holds of the whole. *)
Definition spreads (Q : bytes -> Prop) : Prop := forall p x q, Q x -> Q (p ++ x ++ q).

Lemma skip_eof_some e e' : skip_eof (Some e) = Some e' -> e = e'.
Proof. destruct e; cbn; congruence. Qed.

Section Safe.
Context (Q : bytes -> Prop) (SQ : spreads Q).

Lemma spreads_suffix u x : Q x -> Q (u ++ x).
Proof. intro H. rewrite <- (app_nil_r x). apply SQ, H. Qed.

Lemma spreads_prefix x u : Q x -> Q (x ++ u).
Proof. intro H. apply (SQ [] x u H). Qed.

Lemma safe_later {St} (f : step St) s inp e : suffixing f ->
  reportable e \/ (e = EPanic /\ Q (rest (f s inp))) -> reportable e \/ (e = EPanic /\ Q inp).
Proof.
  intros H [R|[P R]]; [left; exact R|right; split; [exact P|]].
  destruct (H s inp) as [u E]. rewrite E. apply spreads_suffix, R.
Qed.

Lemma safe_take {St} k (upd : bytes -> St -> St) : safe Q (take_full k upd).
Proof.
  split; [apply suffixing_take|]. intros s inp e. unfold take_full.
  destruct (length inp <? k); cbn [fail]; [|discriminate]. intro E. left. destruct inp; injection E as <-; unfold reportable; auto.
Qed.

Lemma safe_fslice {St} (get : St -> bytes) set : safe Q (fslice get set).
Proof. split; [apply suffixing_fslice|]. intros s inp e. apply safe_take. Qed.

Lemma safe_assign {St} (g : St -> St) : safe Q (assign g).
Proof. split; [apply suffixing_assign|]. discriminate. Qed.

Lemma safe_fixed {St} k (f : step St) : fixed k f -> safe Q f.
Proof.
  intro H. split; [apply (suffixing_fixed k), H|]. intros s inp e E. left. destruct (H s inp) as [H1 H2].
  destruct (Nat.ltb_spec (length inp) k) as [L|L].
  - destruct (H1 L) as ([F|F] & _); rewrite F in E; injection E as <-; unfold reportable; auto.
  - destruct (H2 L) as (F & _). congruence.
Qed.

Lemma safe_seqr {St} (fs : list (step St)) : Forall (safe Q) fs -> safe Q (seqr fs).
Proof.
  induction 1 as [|f fs [Hs Hf] F [IHs IH]]; [split; [apply suffixing_seqr; constructor|discriminate]|].
  split. { apply suffixing_seqr. constructor; [exact Hs|]. eapply Forall_impl; [|exact F]. intros g G. apply G. }
  intros s inp e. cbn [seqr]. destruct (fail (f s inp)) as [x|] eqn:E; [intro X; apply (Hf s), X|].
  cbn [fail]. intro X. apply (safe_later f s); [exact Hs|]. eapply IH, X.
Qed.

Lemma safe_sub {St A} (get : St -> A) set rd : safe Q rd -> safe Q (sub get set rd).
Proof. intros [S H]. split; [apply suffixing_sub, S|]. intros s inp e. apply H. Qed.

Lemma safe_andthen {St} (a : step St) b : safe Q a -> (forall n s, safe Q (b n s)) -> safe Q (andthen a b).
Proof.
  intros [S H] B. split; [apply suffixing_andthen; [exact S|intros; apply B]|]. intros s inp e. unfold andthen.
  destruct (fail (a s inp)) eqn:E; [intro X; apply (H s), X|]. cbn [fail]. intro X.
  apply (safe_later a s); [exact S|]. eapply B, X.
Qed.

Lemma safe_andthen_ignoring {St} (a : step St) b :
  suffixing a -> (forall n s, safe Q (b n s)) -> safe Q (andthen_ignoring a b).
Proof.
  intros S B. split; [apply suffixing_andthen_ignoring; [exact S|intros; apply B]|]. intros s inp e.
  unfold andthen_ignoring. cbn [fail]. intro X. apply (safe_later a s); [exact S|]. eapply B, X.
Qed.

Lemma safe_with_local {L St} (l : L) (f : step (L * St)) : safe Q f -> safe Q (with_local l f).
Proof. intros [S H]. split; [apply suffixing_with_local, S|]. intros s inp e. apply H. Qed.

Lemma safe_pre {St} (g : St -> St) f : safe Q f -> safe Q (pre g f).
Proof. intros [S H]. split; [apply suffixing_pre, S|]. intros s inp e. apply H. Qed.

Lemma safe_lost {St} (f : step St) : safe Q f -> safe Q (lost f).
Proof. intros [S H]. split; [apply suffixing_lost, S|]. intros s inp e. apply H. Qed.

Lemma safe_limited {St} z (f : step St) : safe Q f -> safe Q (limited z f).
Proof.
  intros [S H]. split; [apply suffixing_limited, S|]. intros s inp e. unfold limited. cbn [fail]. intro X.
  destruct (H _ _ _ X) as [R|[P R]]; [left; exact R|right; split; [exact P|]].
  rewrite <- (firstn_skipn (Z.to_nat z) inp). apply spreads_prefix, R.
Qed.

Lemma safe_readall {St} (set : bytes -> St -> St) : safe Q (readall set).
Proof. split; [apply suffixing_readall|]. discriminate. Qed.

Lemma safe_scan {A} (mk : N -> made A) rd : safe Q rd -> progressing rd ->
  (forall inp, 2 <= length inp -> mk (be_dec (firstn 2 inp)) = MkPanic -> Q inp) -> safe Q (scan mk rd).
Proof.
  intros [S H] P M. split; [apply suffixing_scan, S|]. intros s inp e. unfold scan.
  enough (G : forall fuel acc inp e, length inp < fuel -> fail (scan_loop fuel mk rd acc inp) = Some e ->
    reportable e \/ (e = EPanic /\ Q inp)) by (apply G; lia).
  clear s inp e. induction fuel as [|fuel IH]; intros acc inp e L; [lia|]. rewrite scan_S.
  destruct (Nat.ltb_spec (length inp) 2) as [N|N]; [discriminate|].
  destruct (mk (be_dec (firstn 2 inp))) as [| |a] eqn:E; cbn [fail].
  - intro X. injection X as <-. left. unfold reportable. eauto.
  - intro X. injection X as <-. right. split; [reflexivity|]. apply M; assumption.
  - destruct (fail (rd a inp)) as [x|] eqn:F; cbn [fail].
    + intro X. apply skip_eof_some in X. subst x. apply (H a), F.
    + intro X. apply (safe_later rd a); [exact S|]. eapply IH, X. specialize (P a inp F). lia.
Qed.

Lemma safe_readfunc {A St} (zero : A) rd (fn : A -> St -> St) :
  safe Q rd -> progressing rd -> safe Q (readfunc zero rd fn).
Proof.
  intros [S H] P. split; [apply suffixing_readfunc, S|]. intros s inp e. unfold readfunc.
  enough (G : forall fuel s inp e, length inp < fuel -> fail (readfunc_loop fuel zero rd fn s inp) = Some e ->
    reportable e \/ (e = EPanic /\ Q inp)) by (apply G; lia).
  clear s inp e. induction fuel as [|fuel IH]; intros s inp e L; [lia|]. cbn [readfunc_loop].
  destruct (fail (rd zero inp)) as [x|] eqn:F; cbn [fail].
  - intro X. apply skip_eof_some in X. subst x. apply (H zero), F.
  - intro X. apply (safe_later rd zero); [exact S|]. eapply IH, X. specialize (P zero inp F). lia.
Qed.

Lemma safe_readslice {A St} (zero : A) rd : safe Q rd -> progressing rd -> safe Q (St := St) (readslice zero rd).
Proof. apply safe_readfunc. Qed.

Lemma no_panic_tag {A} (mk : N -> made A) : (forall t, mk t <> MkPanic) ->
  forall inp, 2 <= length inp -> mk (be_dec (firstn 2 inp)) = MkPanic -> Q inp.
Proof. intros H inp _ E. elim (H _ E). Qed.

Ltac safely :=
  repeat lazymatch goal with
    | |- forall _, _ => intro
    | |- safe _ (let _ := _ in _) => cbv zeta
    | |- safe _ (limited _ _) => apply safe_limited
    | |- safe _ (pre _ _) => apply safe_pre
    | |- safe _ (sub _ _ _) => apply safe_sub
    | |- safe _ (with_local _ _) => apply safe_with_local
    | |- safe _ (lost _) => apply safe_lost
    | |- safe _ (andthen _ _) => apply safe_andthen
    | |- safe _ (seqr _) => apply safe_seqr; repeat apply Forall_cons; try apply Forall_nil
    | |- safe _ (readall _) => apply safe_readall
    | |- safe _ (assign _) => apply safe_assign
    | |- safe _ (fslice _ _) => apply safe_fslice
    | |- safe _ (fu _ _) => apply safe_take
    | |- safe _ (fus _ _ _) => apply safe_take
    | |- safe _ (fpad _) => apply safe_take
    | |- safe _ (fbytes _ _) => apply safe_take
    | |- safe _ (take_full _ _) => apply safe_take
    | |- safe _ (if ?b then _ else _) => destruct b
    end.

Lemma safe_xm payload : safe Q (dec_xm payload).
Proof. unfold dec_xm. safely. Qed.

Lemma progressing_xm payload : progressing (dec_xm payload).
Proof.
  unfold dec_xm. apply progressing_with_local, progressing_andthen.
  - apply progressing_seqr; [apply progressing_sub, progressing_take; lia|]. repeat constructor; try apply suffixing_sub; apply suffixing_take.
  - intros. cbv zeta. apply suffixing_sub, suffixing_pre, suffixing_andthen; intros;
      [destruct payload; [apply suffixing_fslice|]|]; apply suffixing_assign.
Qed.

Lemma safe_entries payload : safe Q (read_all_xm payload).
Proof.
  split.
  { intros s inp. unfold read_all_xm. destruct (xm_loop (S (length inp)) payload s inp). exists inp. symmetry. apply app_nil_r. }
  intros s inp e. unfold read_all_xm.
  enough (G : forall fuel acc inp e, length inp < fuel -> snd (xm_loop fuel payload acc inp) = Some e ->
    reportable e \/ (e = EPanic /\ Q inp)).
  { specialize (G (S (length inp)) s inp e). destruct (xm_loop _ _ _ _). cbn [fail snd] in *. apply G. lia. }
  clear s inp e. induction fuel as [|fuel IH]; intros acc inp e L; [lia|]. cbn [xm_loop].
  destruct (length inp <? 4); [discriminate|].
  destruct (fail (dec_xm payload zero_XM inp)) as [x|] eqn:F.
  - intro X. cbn in X. injection X as <-. apply (proj2 (safe_xm payload) zero_XM), F.
  - intro X. apply (safe_later (dec_xm payload) zero_XM); [apply suffixing_xm|]. eapply IH, X.
    pose proof (progressing_xm payload zero_XM inp F). lia.
Qed.

Lemma safe_Match : safe Q dec_Match.
Proof. unfold dec_Match. safely. apply safe_entries. Qed.

Lemma safe_kind k : safe Q (dec k).
Proof. apply (safe_fixed (size k)), fixed_all. Qed.

Lemma safe_FlowRemoved : safe Q dec_FlowRemoved.
Proof. unfold dec_FlowRemoved. safely. apply safe_Match. Qed.
Lemma safe_FlowStatsRequest : safe Q dec_FlowStatsRequest.
Proof. unfold dec_FlowStatsRequest. safely. apply safe_Match. Qed.
Lemma safe_AggregateStatsRequest : safe Q dec_AggregateStatsRequest.
Proof. unfold dec_AggregateStatsRequest. safely. apply safe_Match. Qed.
Lemma safe_PacketIn : safe Q dec_PacketIn.
Proof. unfold dec_PacketIn. safely. apply safe_Match. Qed.

Lemma safe_EchoRequest : safe Q dec_EchoRequest. Proof. apply safe_readall. Qed.
Lemma safe_EchoReply : safe Q dec_EchoReply. Proof. apply safe_readall. Qed.
Lemma safe_Error : safe Q dec_Error. Proof. unfold dec_Error. safely. Qed.
Lemma safe_ErrorExperimenter : safe Q dec_ErrorExperimenter. Proof. unfold dec_ErrorExperimenter. safely. Qed.
Lemma safe_MultipartRequest : safe Q dec_MultipartRequest. Proof. unfold dec_MultipartRequest. safely. Qed.

Lemma progressing_HelloElem : progressing dec_HelloElem.
Proof.
  apply progressing_with_local, progressing_andthen.
  - apply progressing_seqr; [progress_first|constructor].
  - intros. cbv zeta. apply suffixing_limited, suffixing_pre, suffixing_take.
Qed.
Lemma safe_HelloElem : safe Q dec_HelloElem.
Proof. unfold dec_HelloElem. safely. Qed.
Lemma safe_HelloElems : safe Q dec_HelloElems.
Proof.
  unfold dec_HelloElems. safely. apply safe_scan; [apply safe_HelloElem|apply progressing_HelloElem|].
  apply no_panic_tag. intro t. unfold make_hello_elem. destruct (_ =? _)%N; discriminate.
Qed.
Lemma safe_Hello : safe Q dec_Hello.
Proof. unfold dec_Hello. safely. apply safe_HelloElems. Qed.

Lemma progressing_MeterBand : progressing dec_MeterBand.
Proof.
  intros a i. destruct a; (refine (progressing_seqr _ _ _ _ _ i); [progress_first|repeat constructor; suff]).
Qed.
Lemma safe_MeterBand : safe Q dec_MeterBand.
Proof.
  split; [apply suffixing_MeterBand|]. intros a i e.
  destruct a; (refine (proj2 (safe_seqr _ _) _ _ _); repeat apply Forall_cons; try apply Forall_nil; safely).
Qed.
Lemma safe_MeterBands : safe Q dec_MeterBands.
Proof.
  unfold dec_MeterBands. safely. apply safe_scan; [apply safe_MeterBand|apply progressing_MeterBand|].
  apply no_panic_tag. intro t. unfold make_band. repeat (destruct (_ =? _)%N; [discriminate|]). discriminate.
Qed.
Lemma safe_MeterMod : safe Q dec_MeterMod.
Proof. unfold dec_MeterMod. safely. apply safe_MeterBands. Qed.
Lemma safe_MeterConfig : safe Q dec_MeterConfig.
Proof. unfold dec_MeterConfig. safely. apply safe_MeterBands. Qed.
Lemma safe_MeterStats : safe Q dec_MeterStats.
Proof.
  unfold dec_MeterStats. safely. apply safe_andthen_ignoring; [suff|]. safely. apply safe_readslice.
  - apply (safe_kind KMeterBandStats).
  - apply (progressing_fixed (size KMeterBandStats)); [cbn; lia|apply (fixed_all KMeterBandStats)].
Qed.

Lemma progressing_QueueProp : progressing dec_QueueProp.
Proof.
  intros a i. destruct a; try (refine (progressing_seqr _ _ _ _ _ i); [progress_first|repeat constructor; suff]).
  refine (progressing_with_local _ _ _ _ i). apply progressing_andthen; intros; suff; [|apply suffixing_readall].
  apply progressing_seqr; [progress_first|repeat constructor; suff].
Qed.
Lemma safe_QueueProp : safe Q dec_QueueProp.
Proof.
  split; [apply suffixing_QueueProp|]. intros a i e.
  destruct a; try (refine (proj2 (safe_seqr _ _) _ _ _); repeat apply Forall_cons; try apply Forall_nil; safely).
  refine (proj2 (safe_with_local _ _ _) _ _ _). safely.
Qed.
Lemma safe_QueueProps : safe Q dec_QueueProps.
Proof.
  unfold dec_QueueProps. safely. apply safe_scan; [apply safe_QueueProp|apply progressing_QueueProp|].
  apply no_panic_tag. intro t. unfold make_queue_prop. repeat (destruct (_ =? _)%N; [discriminate|]). discriminate.
Qed.
Lemma safe_PacketQueue : safe Q dec_PacketQueue.
Proof. unfold dec_PacketQueue. safely. apply safe_QueueProps. Qed.
Lemma safe_QueueGetConfigReply : safe Q dec_QueueGetConfigReply.
Proof.
  unfold dec_QueueGetConfigReply. safely. apply safe_readslice; [apply safe_PacketQueue|apply progressing_PacketQueue].
Qed.

Lemma safe_prop_body f : safe Q f -> safe Q (prop_body f).
Proof. intro H. unfold prop_body, prop_head. safely. exact H. Qed.
Lemma safe_bare : safe Q dec_bare.
Proof. unfold dec_bare. safely. Qed.
Lemma safe_TableProp : safe Q dec_TableProp.
Proof.
  assert (T : safe Q dec_prop_types).
  { apply safe_prop_body. safely. apply safe_readfunc; [apply safe_bare|apply progressing_bare]. }
  assert (X : safe Q dec_prop_xm) by (apply safe_prop_body; safely; apply safe_entries).
  assert (B : safe Q dec_prop_tables) by (unfold dec_prop_tables, prop_head; safely).
  assert (E : safe Q dec_prop_experimenter) by (unfold dec_prop_experimenter; safely).
  split; intros p inp; [|intro e]; unfold dec_TableProp; destruct p;
    first [apply T|apply X|apply B|apply E].
Qed.
Lemma safe_TableFeatures : safe Q dec_TableFeatures.
Proof.
  unfold dec_TableFeatures. safely. apply safe_scan; [apply safe_TableProp|apply prop_ok|].
  apply no_panic_tag. intro t. unfold make_prop.
  repeat (match goal with |- (if ?b then _ else _) <> _ => destruct b; [discriminate|] end). discriminate.
Qed.

Lemma safe_port inp : (exists u, inp = u ++ rest (dec_Port zero_Port inp))
  /\ (forall e, fail (dec_Port zero_Port inp) = Some e -> reportable e \/ (e = EPanic /\ Q inp))
  /\ (fail (dec_Port zero_Port inp) = None -> length (rest (dec_Port zero_Port inp)) < length inp).
Proof.
  split; [exact (suffixing_fixed _ _ fixed_Port zero_Port inp)|]. split; [exact (proj2 (safe_fixed _ _ fixed_Port) zero_Port inp)|].
  exact (progressing_fixed 64 _ (Nat.lt_0_succ 63) fixed_Port zero_Port inp).
Qed.

Lemma safe_ports_loop : forall fuel acc inp, length inp < fuel ->
  (exists u, inp = u ++ rest (ports_loop fuel acc inp))
  /\ forall e, fail (ports_loop fuel acc inp) = Some e -> reportable e \/ (e = EPanic /\ Q inp).
Proof.
  induction fuel as [|fuel IH]; intros acc inp L; [lia|]. rewrite ports_loop_S.
  destruct (safe_port inp) as ((u & U) & F & P). generalize dependent (dec_Port zero_Port inp). intros r U F P.
  destruct (fail r) as [x|].
  - destruct x; (split; [exists u; exact U|]); cbn [fail]; intros y X; try discriminate X; injection X as <-; apply F; reflexivity.
  - destruct (IH (acc ++ [val r]) (rest r)) as [(v & V) H]; [specialize (P eq_refl); lia|]. cbn [rest fail]. split.
    + exists (u ++ v). rewrite <- app_assoc, <- V. exact U.
    + intros e X. destruct (H e X) as [R|[E R]]; [left; exact R|right; split; [exact E|]]. rewrite U. apply spreads_suffix, R.
Qed.

Lemma safe_Ports : safe Q dec_Ports.
Proof.
  split; intros s inp.
  - exact (proj1 (safe_ports_loop (S (length inp)) s inp (Nat.lt_succ_diag_r _))).
  - exact (proj2 (safe_ports_loop (S (length inp)) s inp (Nat.lt_succ_diag_r _))).
Qed.

(** Messages that carry actions. *)
Context (pop : forall b, Q ([x00; x1b] ++ b)).

Lemma safe_set_field : safe Q dec_set_field.
Proof. unfold dec_set_field. safely. apply safe_xm. Qed.
Lemma safe_Action : safe Q dec_Action.
Proof.
  split; intros a i; [|intro e]; unfold dec_Action; destruct a;
    first [apply safe_set_field|refine (proj1 (safe_seqr _ _) _ _); repeat apply Forall_cons; try apply Forall_nil; safely|refine (proj2 (safe_seqr _ _) _ _ _); repeat apply Forall_cons; try apply Forall_nil; safely].
Qed.
Lemma safe_Actions : safe Q dec_Actions.
Proof.
  unfold dec_Actions. safely. apply safe_scan; [apply safe_Action|apply progressing_Action|].
  intros inp L E. assert (T : be_dec (firstn 2 inp) = 27%N).
  { revert E. unfold make_action.
    repeat match goal with |- (if (?t =? ?k)%N then _ else _) = _ -> _ => destruct (N.eqb_spec t k) as [X|_];
      [first [intro; discriminate|intros _; exact X]|] end. intro; discriminate. }
  rewrite <- (firstn_skipn 2 inp). replace (firstn 2 inp) with [x00; x1b]; [apply pop|].
  rewrite <- (be_enc_dec (firstn 2 inp)), T, firstn_length_le by exact L. reflexivity.
Qed.
Lemma safe_Instruction : safe Q dec_Instruction.
Proof.
  assert (A : safe Q dec_instruction_actions) by (unfold dec_instruction_actions; safely; apply safe_Actions).
  split; intros a i; [|intro e]; unfold dec_Instruction; destruct a;
    first [apply A|refine (proj1 (safe_seqr _ _) _ _); repeat apply Forall_cons; try apply Forall_nil; safely|refine (proj2 (safe_seqr _ _) _ _ _); repeat apply Forall_cons; try apply Forall_nil; safely].
Qed.
Lemma safe_Instructions : safe Q dec_Instructions.
Proof.
  apply safe_scan; [apply safe_Instruction|apply progressing_Instruction|]. apply no_panic_tag. intro t.
  unfold make_instruction. repeat (destruct (_ =? _)%N; [discriminate|]). discriminate.
Qed.
Lemma safe_FlowMod : safe Q dec_FlowMod.
Proof. unfold dec_FlowMod. safely; [apply safe_Match|apply safe_Instructions]. Qed.
Lemma safe_FlowStats : safe Q dec_FlowStats.
Proof. unfold dec_FlowStats. safely; [apply safe_Match|apply safe_Instructions]. Qed.
Lemma safe_PacketOut : safe Q dec_PacketOut.
Proof. unfold dec_PacketOut. safely. apply safe_Actions. Qed.
Lemma safe_Bucket : safe Q dec_Bucket.
Proof. unfold dec_Bucket. safely. apply safe_Actions. Qed.
Lemma safe_GroupMod : safe Q dec_GroupMod.
Proof. unfold dec_GroupMod. safely. apply safe_readslice; [apply safe_Bucket|apply progressing_Bucket]. Qed.
Lemma safe_GroupDescStats : safe Q dec_GroupDescStats.
Proof.
  unfold dec_GroupDescStats. safely. apply safe_andthen_ignoring; [suff|]. safely.
  apply safe_readslice; [apply safe_Bucket|apply progressing_Bucket].
Qed.
Lemma safe_GroupStats : safe Q dec_GroupStats.
Proof.
  unfold dec_GroupStats. safely. apply safe_readslice.
  - apply (safe_kind KBucketCounter).
  - apply (progressing_fixed (size KBucketCounter)); [cbn; lia|apply (fixed_all KBucketCounter)].
Qed.

End Safe.
