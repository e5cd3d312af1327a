(** C130, continued: queue configuration replies read from arbitrary bytes. *)
From Verif Require Import QueueModel EncodingFacts StepFacts InstructionFacts P_InstrList P_QueueBytes P_GroupBytes MeterBytesSpec QueueBytesSpec QueueReplySpec.
Ltac Zify.zify_post_hook ::= Z.div_mod_to_equations.

Lemma props_not_eof b v : props_report b v -> v <> Some EOF.
Proof.
  intros (segs & t & _ & _ & [(_ & ->)|[(_ & _ & ->)|[(_ & _ & ->)|(_ & _ & ->)]]]); try discriminate.
  destruct (existsb _ _); discriminate.
Qed.

Lemma queues_S {S} fuel (s : S) inp : fail (readfunc_loop (Datatypes.S fuel) zero_PacketQueue dec_PacketQueue (fun _ s => s) s inp)
  = match fail (dec_PacketQueue zero_PacketQueue inp) with Some e => skip_eof (Some e)
    | None => fail (readfunc_loop fuel zero_PacketQueue dec_PacketQueue (fun _ s => s) s (rest (dec_PacketQueue zero_PacketQueue inp))) end.
Proof. cbn [readfunc_loop]. destruct (fail (dec_PacketQueue zero_PacketQueue inp)); reflexivity. Qed.

Lemma queue_short b : length b < 16 -> exists e, fail (dec_PacketQueue zero_PacketQueue b) = Some e
  /\ skip_eof (Some e) = if existsb (Nat.eqb (length b)) [0; 4; 8; 10] then None else Some UnexpectedEOF.
Proof.
  intro L. destruct (C130_queue zero_PacketQueue b) as (_ & _ & C). rewrite (C L). unfold head_report.
  destruct (existsb _ _); eexists; split; reflexivity.
Qed.

Lemma queues_said {S} (s : S) : forall fuel b, length b < fuel ->
  queues_report b (fail (readfunc_loop fuel zero_PacketQueue dec_PacketQueue (fun _ s => s) s b)).
Proof.
  induction fuel as [|fuel IH]; intros b H; [lia|]. rewrite queues_S. destruct (Nat.lt_ge_cases (length b) 16) as [L|L].
  - destruct (queue_short b L) as (e & -> & ->). apply queues_end, L.
  - destruct (C130_queue zero_PacketQueue b) as (_ & C & _). destruct (C L) as [R P]. pose proof (proj2 (P _) eq_refl) as B.
    destruct (fail (dec_PacketQueue zero_PacketQueue b)) as [e|].
    + replace (skip_eof (Some e)) with (Some e); [apply queues_stop; assumption|].
      apply props_not_eof in B. destruct e; try reflexivity. congruence.
    + rewrite R. apply queues_next; [exact L|exact B|]. apply IH. rewrite !skipn_length. lia.
Qed.

Lemma queues_once {S} (s : S) b v : queues_report b v -> forall fuel, length b < fuel ->
  fail (readfunc_loop fuel zero_PacketQueue dec_PacketQueue (fun _ s => s) s b) = v.
Proof.
  induction 1 as [b L|b e L B|b v L B _ IH]; intros fuel H; (destruct fuel as [|fuel]; [lia|]); rewrite queues_S.
  - destruct (queue_short b L) as (e & -> & ->). reflexivity.
  - destruct (C130_queue zero_PacketQueue b) as (_ & C & _). destruct (C L) as [_ P]. rewrite <- (proj1 (P _) B).
    apply props_not_eof in B. destruct e; try reflexivity. congruence.
  - destruct (C130_queue zero_PacketQueue b) as (_ & C & _). destruct (C L) as [R P]. rewrite <- (proj1 (P _) B), R.
    apply IH. rewrite !skipn_length. lia.
Qed.

Lemma queues_value {S} (s : S) : forall fuel b, val (readfunc_loop fuel zero_PacketQueue dec_PacketQueue (fun _ s => s) s b) = s.
Proof.
  induction fuel as [|fuel IH]; intro b; [reflexivity|]. cbn [readfunc_loop]. destruct (fail (dec_PacketQueue zero_PacketQueue b)); [reflexivity|]. cbn [val]. apply IH.
Qed.

Lemma reply_head_ok old inp : 8 <= length inp -> seqr [fu 4 set_QueueGetConfigReply_Port; fpad 4] old inp
  = Res (MkQueueGetConfigReply (num 0 4 inp) (QueueGetConfigReply_Queues old)) 8 None (skipn 8 inp).
Proof. intro L. do 8 (destruct inp as [|? inp]; [cbn in L; lia|]). reflexivity. Qed.

(** C130: a byte string read as a queue configuration reply. *)
Theorem C130_reply : forall old inp, let r := dec_QueueGetConfigReply old inp in
  val r = MkQueueGetConfigReply (member inp 0 4 (QueueGetConfigReply_Port old)) (QueueGetConfigReply_Queues old)
  /\ (8 <= length inp -> forall v, queues_report (skipn 8 inp) v <-> v = fail r)
  /\ (length inp < 8 -> fail r = head_report [0; 4] inp).
Proof.
  intros old inp. cbv zeta. destruct (Nat.lt_ge_cases (length inp) 8) as [H|H].
  - split; [|split; [lia|intros _]]; (do 8 (destruct inp as [|? inp]; [destruct old; reflexivity|])); cbn in H; lia.
  - destruct (then_slice _ zero_PacketQueue dec_PacketQueue _ _ _ _ _ (reply_head_ok old inp H)) as [V F]. rewrite queues_value in V.
    split.
    { etransitivity; [exact V|]. unfold member. destruct (Nat.leb_spec (0 + 4) (length inp)); [reflexivity|lia]. }
    split; [|lia]. intros _ v. split.
    + intro R. symmetry. etransitivity; [exact F|]. apply (queues_once _ _ _ R). lia.
    + intros ->. eapply eq_ind; [|symmetry; exact F]. apply queues_said. lia.
Qed.
Print Assumptions C130_reply.

Example C130_reply_ex :
  let q n := [x00; x00; x00; x05; x00; x00; x00; x06; x00; n] ++ zeros 6 in
  let hd := [x00; x00; x00; x07; x00; x00; x00; x00] in
  let old := MkQueueGetConfigReply 1 [zero_PacketQueue] in
  val (dec_QueueGetConfigReply old (hd ++ q x10 ++ q x10)) = MkQueueGetConfigReply 7 [zero_PacketQueue]
  /\ fail (dec_QueueGetConfigReply old (hd ++ q x10 ++ q x10)) = None
  /\ fail (dec_QueueGetConfigReply old (hd ++ q x10 ++ firstn 8 (q x10))) = None
  /\ fail (dec_QueueGetConfigReply old (hd ++ q x10 ++ firstn 9 (q x10))) = Some UnexpectedEOF
  /\ fail (dec_QueueGetConfigReply old (hd ++ q x10 ++ q x20 ++ [x00; x03])) = Some (EUnknown 3)
  /\ fail (dec_QueueGetConfigReply old (firstn 4 hd)) = Some EOF.
Proof. vm_compute. repeat split. Qed.
