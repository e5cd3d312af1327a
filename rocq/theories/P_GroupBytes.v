(** C131: what every byte string is read as, for group modifications and their buckets. *)
From Verif Require Import GroupModel EncodingFacts StepFacts InstructionFacts InstrListSpec P_InstrList P_QueueBytes MeterBytesSpec QueueBytesSpec GroupBytesSpec.
Ltac Zify.zify_post_hook ::= Z.div_mod_to_equations.

Lemma not_eof reg l v : actions_end reg l v -> v <> Some EOF.
Proof.
  intros (l0 & segs & b & _ & _ & [(_ & _ & ->)|[(_ & _ & _ & _ & ->)|[(_ & _ & _ & ->)|(_ & _ & _ & _ & ->)]]]); try discriminate.
  destruct (accepted_cut b); discriminate.
Qed.

Lemma bucket_eq old inp : 16 <= length inp ->
  let n := beyond16 (num 0 2 inp) in let d := dec_Actions [] (firstn n (skipn 16 inp)) in
  dec_Bucket old inp = Res (MkBucket (num 2 2 inp) (num 4 4 inp) (num 8 4 inp) (val d)) (16 + cnt d) (fail d) (skipn n (skipn 16 inp)).
Proof.
  intro L. do 16 (destruct inp as [|? inp]; [cbn in L; lia|]). cbv zeta. cbn [skipn].
  repeat match goal with |- context [num ?o ?w (b :: ?l)] => let x := eval cbn [firstn skipn] in (be_dec (firstn w (skipn o (b :: l)))) in change (num o w (b :: l)) with x end.
  match goal with |- context [beyond16 ?x] => set (len := x); pose proof (room16 len) as Q; set (n := beyond16 len) in * end.
  pose proof (actions_rest [] (firstn n inp)) as R.
  destruct (dec_Actions [] (firstn n inp)) as [l c e r] eqn:E. cbn [rest] in R. subst r.
  unfold dec_Bucket. erewrite with_local_eq.
  2:{ eapply andthen_both.
      - instantiate (1 := inp). instantiate (1 := 16). instantiate (1 := (len, MkBucket (be_dec [b1; b2]) (be_dec [b3; b4; b5; b6]) (be_dec [b7; b8; b9; b10]) (Bucket_Actions old))). reflexivity.
      - apply limited_eq. unfold pre. apply sub_eq. apply sub_eq. cbn [fst snd]. unfold set_Bucket_Actions at 1. cbn [Bucket_Actions]. rewrite Q. exact E. }
  cbn [fst snd app]. rewrite Q. reflexivity.
Qed.

(** C131: a byte string read as a bucket. *)
Theorem C131_bucket : forall old inp, let r := dec_Bucket old inp in
  (16 <= length inp -> bucket_says inp (val r) (fail r) /\ rest r = skipn (beyond16 (num 0 2 inp)) (skipn 16 inp))
  /\ (length inp < 16 -> fail r = head_report bucket_stops inp
      /\ val r = MkBucket (member inp 2 2 (Bucket_Weight old)) (member inp 4 4 (Bucket_WatchPort old)) (member inp 8 4 (Bucket_WatchGroup old)) (Bucket_Actions old)).
Proof.
  intros old inp. cbv zeta. split; intro L.
  - rewrite (bucket_eq old inp L). cbn [val fail rest]. split; [|reflexivity]. repeat (split; [exact L||reflexivity|]). apply actions_said.
  - split; (do 16 (destruct inp as [|? inp]; [destruct old; reflexivity|])); cbn in L; lia.
Qed.
Print Assumptions C131_bucket.

Lemma bucket_verdict b k v old : bucket_says b k v ->
  fail (dec_Bucket old b) = v /\ rest (dec_Bucket old b) = skipn (16 + beyond16 (num 0 2 b)) b.
Proof.
  intros (L & _ & _ & _ & A). rewrite (bucket_eq old b L). cbn [fail rest]. split; [exact (actions_verdict _ _ _ [] A)|].
  generalize (beyond16 (num 0 2 b)). intro n. clear A. do 16 (destruct b as [|? b]; [cbn in L; lia|]). reflexivity.
Qed.

Lemma buckets_S {S} fuel (s : S) inp : fail (readfunc_loop (Datatypes.S fuel) zero_Bucket dec_Bucket (fun _ s => s) s inp)
  = match fail (dec_Bucket zero_Bucket inp) with Some e => skip_eof (Some e)
    | None => fail (readfunc_loop fuel zero_Bucket dec_Bucket (fun _ s => s) s (rest (dec_Bucket zero_Bucket inp))) end.
Proof. cbn [readfunc_loop]. destruct (fail (dec_Bucket zero_Bucket inp)); reflexivity. Qed.

Lemma buckets_short b : length b < 16 ->
  exists e, fail (dec_Bucket zero_Bucket b) = Some e /\ skip_eof (Some e) = if existsb (Nat.eqb (length b)) bucket_stops then None else Some UnexpectedEOF.
Proof.
  intro L. destruct (C131_bucket zero_Bucket b) as [_ C]. destruct (C L) as [F _]. rewrite F. unfold head_report.
  destruct (existsb _ _); eexists; split; reflexivity.
Qed.

Lemma buckets_said {S} (s : S) : forall fuel b, length b < fuel ->
  buckets_report b (fail (readfunc_loop fuel zero_Bucket dec_Bucket (fun _ s => s) s b)).
Proof.
  induction fuel as [|fuel IH]; intros b H; [lia|]. rewrite buckets_S. destruct (Nat.lt_ge_cases (length b) 16) as [L|L].
  - destruct (buckets_short b L) as (e & -> & ->). apply buckets_end, L.
  - destruct (C131_bucket zero_Bucket b) as [C _]. destruct (C L) as [B _]. destruct (bucket_verdict _ _ _ zero_Bucket B) as [_ R].
    destruct (fail (dec_Bucket zero_Bucket b)) as [e|] eqn:F.
    + replace (skip_eof (Some e)) with (Some e); [eapply buckets_stop, B|].
      destruct B as (_ & _ & _ & _ & A). apply not_eof in A. destruct e; try reflexivity. congruence.
    + rewrite R. eapply buckets_next; [exact B|]. apply IH. rewrite skipn_length. lia.
Qed.

Lemma buckets_once {S} (s : S) b v : buckets_report b v -> forall fuel, length b < fuel ->
  fail (readfunc_loop fuel zero_Bucket dec_Bucket (fun _ s => s) s b) = v.
Proof.
  induction 1 as [b L|b k e B|b k v B _ IH]; intros fuel H; (destruct fuel as [|fuel]; [lia|]); rewrite buckets_S.
  - destruct (buckets_short b L) as (e & -> & ->). reflexivity.
  - destruct (bucket_verdict _ _ _ zero_Bucket B) as [-> _]. destruct B as (_ & _ & _ & _ & A). apply not_eof in A. destruct e; try reflexivity. congruence.
  - destruct (bucket_verdict _ _ _ zero_Bucket B) as [-> ->]. apply IH. destruct B as (L & _). rewrite skipn_length. lia.
Qed.

Lemma buckets_value {S} (s : S) : forall fuel b, val (readfunc_loop fuel zero_Bucket dec_Bucket (fun _ s => s) s b) = s.
Proof.
  induction fuel as [|fuel IH]; intro b; [reflexivity|]. cbn [readfunc_loop]. destruct (fail (dec_Bucket zero_Bucket b)); [reflexivity|]. cbn [val]. apply IH.
Qed.

Lemma slice_eq {A S} (zero : A) rd (s : S) inp : readslice zero rd s inp = readfunc_loop (Datatypes.S (length inp)) zero rd (fun _ s => s) s inp.
Proof. reflexivity. Qed.
Lemma then_slice {A S} (hd : step S) (zero : A) rd s inp s' n tl : hd s inp = Res s' n None tl ->
  let r := readfunc_loop (Datatypes.S (length tl)) zero rd (fun _ s => s) s' tl in
  val (andthen hd (fun _ _ => readslice zero rd) s inp) = val r /\ fail (andthen hd (fun _ _ => readslice zero rd) s inp) = fail r.
Proof. intro E. cbv zeta. rewrite (andthen_ok _ _ _ _ _ _ _ E). cbn [val fail]. rewrite slice_eq. split; reflexivity. Qed.

Definition group_head (old : GroupMod) (inp : bytes) : GroupMod := MkGroupMod (num 0 2 inp) (num 2 1 inp) (num 4 4 inp) (GroupMod_Buckets old).
Lemma group_head_ok old inp : 8 <= length inp ->
  seqr [fu 2 set_GroupMod_Command; fu 1 set_GroupMod_Type; fpad 1; fu 4 set_GroupMod_Group] old inp = Res (group_head old inp) 8 None (skipn 8 inp).
Proof. intro L. do 8 (destruct inp as [|? inp]; [cbn in L; lia|]). reflexivity. Qed.

Lemma group_eq old inp : 8 <= length inp ->
  val (dec_GroupMod old inp) = group_head old inp
  /\ fail (dec_GroupMod old inp) = fail (readfunc_loop (S (length (skipn 8 inp))) zero_Bucket dec_Bucket (fun _ s => s) (group_head old inp) (skipn 8 inp)).
Proof.
  intro L. destruct (then_slice _ zero_Bucket dec_Bucket _ _ _ _ _ (group_head_ok old inp L)) as [V F]. rewrite buckets_value in V.
  split; [exact V|exact F].
Qed.

(** C131: a byte string read as a group modification. *)
Theorem C131_group_mod : forall old inp, let r := dec_GroupMod old inp in
  val r = MkGroupMod (member inp 0 2 (GroupMod_Command old)) (member inp 2 1 (GroupMod_Type old)) (member inp 4 4 (GroupMod_Group old)) (GroupMod_Buckets old)
  /\ (8 <= length inp -> forall v, buckets_report (skipn 8 inp) v <-> v = fail r)
  /\ (length inp < 8 -> fail r = head_report [0; 2; 3; 4] inp).
Proof.
  intros old inp. cbv zeta. destruct (Nat.lt_ge_cases (length inp) 8) as [H|H].
  - split; [|split; [lia|intros _]]; (do 8 (destruct inp as [|? inp]; [destruct old; reflexivity|])); cbn in H; lia.
  - destruct (group_eq old inp H) as [V F]. rewrite V, F. split.
    { unfold member. repeat (match goal with |- context [?a <=? length inp] => destruct (Nat.leb_spec a (length inp)); [|lia] end). reflexivity. }
    split; [|lia]. intros _ v. split.
    + intro R. symmetry. apply (buckets_once _ _ _ R). lia.
    + intros ->. apply buckets_said. lia.
Qed.
Print Assumptions C131_group_mod.

Example C131_bucket_ex :
  let b := [x00; x20; x00; x03; x00; x00; x00; x04; x00; x00; x00; x05; x00; x00; x00; x00] in
  let out := [x00; x00; x00; x10; x00; x00; x00; x09; x00; x10] ++ zeros 6 in
  let old := MkBucket 1 2 3 [AOutput 7 7] in
  dec_Bucket old (b ++ out ++ [xab]) = Res (MkBucket 3 4 5 [AOutput 9 16]) 32 None [xab]
  /\ dec_Bucket old (firstn 9 b) = Res (MkBucket 3 4 3 [AOutput 7 7]) 9 (Some UnexpectedEOF) []
  /\ fail (dec_Bucket old (b ++ [x00; x99])) = Some (EUnknown 153).
Proof. vm_compute. repeat split. Qed.

Example C131_group_mod_ex :
  let b n := [x00; n; x00; x03; x00; x00; x00; x04; x00; x00; x00; x05; x00; x00; x00; x00] in
  let hd := [x00; x01; x02; x00; x00; x00; x00; x08] in
  let old := MkGroupMod 5 6 7 [zero_Bucket] in
  buckets_report (b x10 ++ firstn 8 (b x10)) None
  /\ val (dec_GroupMod old (hd ++ b x10 ++ firstn 8 (b x10))) = MkGroupMod 1 2 8 [zero_Bucket]
  /\ fail (dec_GroupMod old (hd ++ b x10 ++ firstn 8 (b x10))) = None
  /\ fail (dec_GroupMod old (hd ++ b x10 ++ firstn 9 (b x10))) = Some UnexpectedEOF
  /\ fail (dec_GroupMod old (hd ++ b x10 ++ b x18 ++ [x00; x1b; x00; x08; x00; x00; x00; x00])) = Some EPanic
  (* a length of zero swallows the bucket behind it *)
  /\ fail (dec_GroupMod old (hd ++ b x00 ++ b x99)) = Some (EUnknown 153).
Proof.
  cbv zeta. split; [|vm_compute; repeat split]. eapply buckets_next with (k := MkBucket 3 4 5 []).
  - split; [cbn; lia|]. repeat (split; [reflexivity|]). exists [], [], []. split; [reflexivity|]. split; [constructor|]. left. auto.
  - match goal with |- buckets_report ?x _ => change x with [x00; x10; x00; x03; x00; x00; x00; x04] end.
    apply (buckets_end [x00; x10; x00; x03; x00; x00; x00; x04]). cbn. lia.
Qed.
