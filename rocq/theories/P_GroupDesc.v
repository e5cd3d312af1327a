(** C131, continued: descriptions of groups read from arbitrary bytes. *)
From Verif Require Import GroupModel EncodingFacts StepFacts InstructionFacts P_InstrList P_GroupBytes MeterBytesSpec QueueBytesSpec GroupBytesSpec.
Ltac Zify.zify_post_hook ::= Z.div_mod_to_equations.

Lemma ignoring_slice {A L S} (l : L) (hd : step (L * S)) z (zero : A) rd s inp s' n e tl : hd (l, s) inp = Res s' n e tl ->
  let reg := firstn (Z.to_nat (z s')) tl in
  let r := readfunc_loop (Datatypes.S (length reg)) zero rd (fun _ s => s) s' reg in
  val (with_local l (andthen_ignoring hd (fun _ h => limited (z h) (readslice zero rd))) s inp) = snd (val r)
  /\ fail (with_local l (andthen_ignoring hd (fun _ h => limited (z h) (readslice zero rd))) s inp) = fail r.
Proof. intro E. cbv zeta. unfold with_local, andthen_ignoring. rewrite E. cbn [val cnt rest fail]. unfold limited. rewrite slice_eq. split; reflexivity. Qed.

Definition desc_head : list (step (N * GroupDescStats)) :=
  [fu 2 (fun v s => (v, snd s)); sub snd (fun m s => (fst s, m)) (fu 1 set_GroupDescStats_Type); fpad 1; sub snd (fun m s => (fst s, m)) (fu 4 set_GroupDescStats_Group)].

Definition desc_of (old : GroupDescStats) (inp : bytes) : GroupDescStats :=
  MkGroupDescStats (member inp 2 1 (GroupDescStats_Type old)) (member inp 4 4 (GroupDescStats_Group old)) (GroupDescStats_Buckets old).

Lemma desc_head_ok old inp : 8 <= length inp -> seqr desc_head (0%N, old) inp = Res (num 0 2 inp, desc_of old inp) 8 None (skipn 8 inp).
Proof. intro L. do 8 (destruct inp as [|? inp]; [cbn in L; lia|]). reflexivity. Qed.
Lemma desc_head_short old inp : length inp < 8 -> exists k n e, seqr desc_head (0%N, old) inp = Res (k, desc_of old inp) n (Some e) [].
Proof. intro L. do 8 (destruct inp as [|? inp]; [destruct old; eexists; eexists; eexists; reflexivity|]). cbn in L. lia. Qed.

(** C131: a byte string read as the description of a group: a head that breaks off is
    never reported, and buckets are looked for within the length field only. *)
Theorem C131_group_desc : forall old inp, let r := dec_GroupDescStats old inp in
  val r = MkGroupDescStats (member inp 2 1 (GroupDescStats_Type old)) (member inp 4 4 (GroupDescStats_Group old)) (GroupDescStats_Buckets old)
  /\ (8 <= length inp -> forall v, buckets_report (firstn (bands_room (num 0 2 inp)) (skipn 8 inp)) v <-> v = fail r)
  /\ (length inp < 8 -> fail r = None).
Proof.
  intros old inp. cbv zeta. fold (desc_of old inp). destruct (Nat.lt_ge_cases (length inp) 8) as [H|H].
  - destruct (desc_head_short old inp H) as (k & n & e & E).
    destruct (ignoring_slice 0%N _ (fun h => Z.of_N (sub16 (fst h) 8)) zero_Bucket dec_Bucket _ _ _ _ _ _ E) as [V F].
    rewrite buckets_value in V. rewrite firstn_nil in F. split; [exact V|]. split; [lia|]. intros _. etransitivity; [exact F|].
    apply buckets_once; [|cbn; lia]. apply (buckets_end []). cbn. lia.
  - destruct (ignoring_slice 0%N _ (fun h => Z.of_N (sub16 (fst h) 8)) zero_Bucket dec_Bucket _ _ _ _ _ _ (desc_head_ok old inp H)) as [V F].
    rewrite buckets_value in V. cbn [fst] in F.
    assert (Q : Z.to_nat (Z.of_N (sub16 (num 0 2 inp) 8)) = bands_room (num 0 2 inp)).
    { unfold bands_room, sub16. change (uwrap 2) with (fun x : N => (x mod 65536)%N). cbv beta.
      replace (num 0 2 inp + 65536 - 8)%N with (num 0 2 inp + 65528)%N by lia. now rewrite <- Z_N_nat, N2Z.id. }
    rewrite Q in F. split; [exact V|]. split; [|lia]. intros _ v. split.
    + intro R. symmetry. etransitivity; [exact F|]. apply (buckets_once _ _ _ R). lia.
    + intros ->. eapply eq_ind; [|symmetry; exact F]. apply buckets_said. lia.
Qed.
Print Assumptions C131_group_desc.

Example C131_group_desc_ex :
  let b := [x00; x10; x00; x03; x00; x00; x00; x04; x00; x00; x00; x05; x00; x00; x00; x00] in
  let old := MkGroupDescStats 5 6 [zero_Bucket] in
  (val (dec_GroupDescStats old ([x00; x18; x02; x00; x00; x00; x00; x08] ++ b ++ [xff])) = MkGroupDescStats 2 8 [zero_Bucket])
  /\ fail (dec_GroupDescStats old ([x00; x18; x02; x00; x00; x00; x00; x08] ++ b ++ [xff])) = None
  /\ fail (dec_GroupDescStats old ([x00; x19; x02; x00; x00; x00; x00; x08] ++ b ++ [xff])) = Some UnexpectedEOF
  /\ val (dec_GroupDescStats old [x00; x18; x02; x00; x00]) = MkGroupDescStats 2 6 [zero_Bucket]
  /\ fail (dec_GroupDescStats old [x00; x18; x02; x00; x00]) = None.
Proof. vm_compute. repeat split. Qed.
