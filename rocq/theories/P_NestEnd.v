(** C124: nested use of multiplexers does not block, and ends when handlers come in
    layers. *)
From Verif Require Import NestModel NestSpec NestFacts MuxSpec MuxFacts P_Mux P_Nest.

(** A goroutine inside an operation has begun it. *)
Definition inside (s : nest) : Prop :=
  forall i o, nin s i = Some o -> mat (mthreads (nmux s (nmux_of o)) i) <> MIdle.

Lemma inside_step fs body i n s s' : inside s -> ntrans fs body i n s s' -> inside s'.
Proof.
  intros P H. destruct H as [o l M M' E W Hm R].
  destruct (mstep_shape _ _ _ _ _ E) as (Oth & _ & Rs).
  assert (TM : forall j, j <> i -> mthreads M j = mthreads (nmux s (nmux_of o)) j).
  { intros j Hj. destruct W as [(_ & _ & ->)|(_ & _ & ->)]; [reflexivity|]. cbn. unfold mupd. destruct (Nat.eqb_spec j i); congruence. }
  intros j o' Hj. destruct (Nat.eq_dec j i) as [Ej|Nj].
  - subst j. destruct R as [(R & _ & N & _)|(x & _ & _ & N & _)]; rewrite N, put_same in Hj; [|discriminate]. injection Hj as <-.
    rewrite Hm, put_same. destruct Rs as [[_ Rs]|(x & Rs & _)]; [exact Rs|]. rewrite Rs in R.
    apply (f_equal (@length _)) in R. rewrite app_length in R. cbn in R. lia.
  - assert (N : nin s j = Some o') by (destruct R as [(_ & _ & N & _)|(x & _ & _ & N & _)]; rewrite N, put_other in Hj by exact Nj; exact Hj).
    specialize (P _ _ N). rewrite Hm. unfold put. destruct (Nat.eqb_spec (nmux_of o') (nmux_of o)) as [Em|_]; [|exact P].
    rewrite (Oth j Nj), (TM j Nj), <- Em. exact P.
Qed.

Lemma inside_run fs body prog sch : inside (nrun fs body sch (nstart prog)).
Proof. apply nrun_inv; [intros i o H; discriminate|intros; eapply inside_step; eauto]. Qed.

(** Each lock is held by goroutines that are looking for a handler. *)
Lemma locks_run fs body prog sch m : (forall p, plain (fs p)) -> let M := nmux (nrun fs body sch (nstart prog)) m in
  held M /\ forall i, mat (mthreads M i) <> MDead.
Proof.
  intros Hp M. destruct (alone_run fs body prog sch m (fun _ => [])) as [sch' (A1 & A2 & _ & _ & A)]. fold M in A1, A2, A.
  set (pr := fun i => used m i (nrun fs body sch (nstart prog)) ++ []) in *.
  assert (PP : plain_prog fs pr).
  { intros j k h once _. destruct k as [t|p]; [intro x; eexists; reflexivity|apply Hp]. }
  pose proof (held_run fs sch' pr) as Hh. pose proof (proj1 (right_run fs pr sch' PP)) as R. split.
  - intro i. rewrite <- A2. destruct (A i) as [<- _]. apply Hh.
  - intro i. destruct (A i) as [<- _]. specialize (R i). intro D. rewrite D in R. exact R.
Qed.

Lemma ninside_some fs body i n o l M s : mstep fs i n M <> None -> ninside fs body i n o l M s <> None.
Proof.
  intro H. unfold ninside. destruct (mstep fs i n M) as [M'|]; [|congruence]. discriminate.
Qed.

(** C124: with matchers that only look, nested use never blocks: while a goroutine
    has something to do, one of them can go on. *)
Theorem C124_progress : forall fs body prog sch i, (forall p, plain (fs p)) ->
  let s := nrun fs body sch (nstart prog) in
  nbusy s i -> exists j, forall n, nstep fs body j n s <> None.
Proof.
  intros fs body prog sch i Hp s B.
  pose proof (tidy_run fs body prog sch) as [T _]. pose proof (inside_run fs body prog sch) as In. fold s in T, In.
  assert (K : forall m, readers (nmux s m) <> [] -> exists j, forall n, nstep fs body j n s <> None).
  { intros m H. destruct (locks_run fs body prog sch m Hp) as [Hh D]. fold s in Hh, D.
    destruct (readers (nmux s m)) as [|j rs] eqn:E; [congruence|]. exists j. intro n.
    pose proof (proj1 (Hh j)) as Hj. rewrite E in Hj. specialize (Hj (or_introl eq_refl)). specialize (D j).
    destruct (T m j) as [_ Tj]. unfold nstep.
    destruct (mat (mthreads (nmux s m) j)) as [|snap rest r0 r|snap e r0 r|] eqn:Ha; try (destruct Hj; fail); try congruence.
    destruct (nin s j) as [o|]; [|specialize (Tj I); discriminate].
    destruct (Nat.eq_dec (nmux_of o) m) as [Em|Nm]; [|specialize (Tj Nm); discriminate].
    apply ninside_some. rewrite Em. unfold mstep. rewrite Ha.
    destruct rest as [|e rest]; [discriminate|]. destruct (pick n e rest) as [x rest'].
    destruct (match_of fs (ekey x) r) as [[|] r'|]; [destruct (eonce x)| |]; discriminate. }
  destruct (nin s i) as [o|] eqn:N.
  - destruct (readers (nmux s (nmux_of o))) as [|j rs] eqn:E; [|apply (K (nmux_of o)); rewrite E; discriminate].
    exists i. intro n. unfold nstep. rewrite N. apply ninside_some. specialize (In _ _ N).
    destruct (locks_run fs body prog sch (nmux_of o) Hp) as [Hh D]. fold s in Hh, D. pose proof (proj2 (Hh i)) as Hi. rewrite E in Hi. specialize (D i).
    unfold mstep. destruct (mat (mthreads (nmux s (nmux_of o)) i)) as [|snap rest r0 r|snap e r0 r|]; try congruence.
    + destruct (Hi I).
    + rewrite E. destruct (registered (ekey e) (entries (nmux s (nmux_of o)))); discriminate.
  - destruct (ntodo s i) as [|o l] eqn:Td; [destruct B; congruence|].
    destruct (readers (nmux s (nmux_of o))) as [|j rs] eqn:E; [|apply (K (nmux_of o)); rewrite E; discriminate].
    exists i. intro n. unfold nstep. rewrite N, Td. apply ninside_some. unfold mstep, begun. cbn. unfold mupd. rewrite Nat.eqb_refl. cbn.
    rewrite E. destruct (nmop o) as [k h once|r]; [|discriminate].
    destruct (register k h once (nextid (nmux s (nmux_of o))) (entries (nmux s (nmux_of o)))). discriminate.
Qed.
Print Assumptions C124_progress.

(** ** Layers *)
Lemma most_mono b j k : j <= k -> most b j <= most b k.
Proof.
  assert (S1 : forall k, most b k <= most b (S k)).
  { intro i. induction i as [|i IH]; cbn [most]; [lia|]. cbn [most] in IH. apply (Nat.mul_le_mono_l _ _ b) in IH. lia. }
  induction 1 as [|k H IH]; [lia|]. specialize (S1 k). lia.
Qed.

Lemma at_most_app level b l l' : at_most level b (l ++ l') = at_most level b l + at_most level b l'.
Proof. unfold at_most. rewrite map_app, list_sum_app. reflexivity. Qed.

Definition may (P : nat -> Prop) (x : outcome) : Prop := match x with Served _ _ (Chosen e) _ => P (ehandler e) | _ => True end.

Lemma follows_at_most body can level b o x : layered body can level b -> may (can (nmux_of o)) x ->
  S (at_most level b (ncalls body o x)) <= most b (rank level o) /\ registers can (ncalls body o x).
Proof.
  intros [B L] P. destruct o as [m k h once|m r|m r]; try (split; [cbn; lia|intros ? ? ? ? []]).
  cbn [ncalls rank most nmux_of] in *. destruct x as [?|? ? [e| |] r']; try (split; [cbn; lia|intros ? ? ? ? []]).
  cbn [may] in P. destruct (B (ehandler e) r') as [B1 B2]. split; [|exact B1]. apply le_n_S.
  apply Nat.le_trans with (length (body (ehandler e) r') * most b (level m)); [|apply Nat.mul_le_mono_r; exact B2].
  specialize (L m (ehandler e) r'). clear B1 B2. revert L. generalize (body (ehandler e) r') as l. induction l as [|o' l IH]; intro L; [cbn; lia|].
  assert (M : most b (rank level o') <= most b (level m)).
  { apply most_mono. destruct o' as [? ? ? ?|m' q|? ?]; cbn [rank]; try lia. apply (L m' q P). left. reflexivity. }
  unfold at_most in *. cbn [map list_sum fold_right length]. unfold list_sum in IH.
  assert (Q := IH (fun m' q C H => L m' q C (or_intror H))). lia.
Qed.

(** Only handlers that may be there are ever chosen. *)
Definition only (P : nat -> Prop) (M : mux) : Prop :=
  (forall e, In e (entries M) -> P (ehandler e))
  /\ forall i, match mat (mthreads M i) with
     | MScan _ rest _ _ => forall e, In e rest -> P (ehandler e) | MTaking _ e _ _ => P (ehandler e) | _ => True end.

Lemma only_step P fs i n M M' : only P M ->
  (forall k h once l, mat (mthreads M i) = MIdle -> mtodo (mthreads M i) = OHandle k (Some h) once :: l -> P h) ->
  mstep fs i n M = Some M' -> only P M' /\ forall x, mresults M' = mresults M ++ [(i, x)] -> may P x.
Proof.
  intros [O1 O2] R H. apply mstep_trans in H. pose proof (O2 i) as Oi.
  destruct H as [r l A B C D E F|m h once l es x A B C D E F G K|snap r0 r A B C D E|snap rest r0 r A B C D E F
    |snap rest r0 r e rest' r' A B C D E F G|snap rest r0 r e r' A B C D E F G K|snap rest r0 r e r' A B C D E F G K
    |snap e r0 r A B C D E F G|snap e r0 r A B C D E F G]; rewrite A in Oi;
  (split; [split; [|intro j; match goal with X : mthreads M' = _ |- _ => rewrite X end; unfold mupd; destruct (Nat.eqb_spec j i) as [Ej|Nj]; [cbn [mat]|apply O2]]|]);
  try exact I; try (match goal with X : entries M' = entries M |- _ => rewrite X end; exact O1);
  try (match goal with X : mresults M' = mresults M |- _ => rewrite X end; intros z Z; apply (f_equal (@length _)) in Z; rewrite app_length in Z; cbn in Z; lia);
  try (match goal with X : mresults M' = _ |- _ => rewrite X end; intros z Z; apply app_inv_head in Z; injection Z as <-; cbn [may]; auto);
  try (apply Oi; assumption).
  - exact O1.
  - rewrite E. unfold register in C. destruct m; [destruct h; [destruct (registered _ _)|]|]; injection C as <- <-; auto.
    intros e [<-|He]; [|auto]. cbn [ehandler]. apply (R _ _ _ _ A B).
  - intros e' He. apply Oi. apply (Permutation.Permutation_in _ (Permutation.Permutation_sym B)). right. exact He.
  - rewrite D. intros y Hy. apply O1. unfold removed in Hy. apply filter_In in Hy. tauto.
Qed.

Lemma sum_put f f' i g : i < g -> (forall j, j <> i -> f' j = f j) ->
  list_sum (map f' (seq 0 g)) + f i = list_sum (map f (seq 0 g)) + f' i.
Proof.
  intros Hi E.
  assert (G : forall n a, (a <= i < a + n -> list_sum (map f' (seq a n)) + f i = list_sum (map f (seq a n)) + f' i)
    /\ (~ a <= i < a + n -> list_sum (map f' (seq a n)) = list_sum (map f (seq a n)))).
  { induction n as [|n IH]; intro a; cbn [seq map list_sum fold_right]; (split; [|try reflexivity]); intro R; [lia|..];
      change (fold_right Nat.add 0 (map f' (seq (S a) n))) with (list_sum (map f' (seq (S a) n)));
      change (fold_right Nat.add 0 (map f (seq (S a) n))) with (list_sum (map f (seq (S a) n))); destruct (IH (S a)) as [I1 I2].
    - destruct (Nat.eq_dec a i) as [->|N]; [rewrite I2 by lia; lia|]. rewrite (E a N). specialize (I1 ltac:(lia)). lia.
    - rewrite (E a) by lia. rewrite I2 by lia. reflexivity. }
  apply (proj1 (G g 0)). lia.
Qed.

(** How far inside an operation a goroutine is. *)
Definition stage (M : mux) (i : nat) : nat :=
  match mat (mthreads M i) with MScan _ rest _ _ => length rest + 2 | MTaking _ _ _ _ => 1 | _ => 0 end.

Lemma stage_step fs i n M M' : mstep fs i n M = Some M' ->
  length (entries M') + length (mresults M) <= length (entries M) + length (mresults M')
  /\ (mat (mthreads M i) <> MIdle -> stage M' i < stage M i)
  /\ stage M' i <= stage M i + length (entries M) + 2.
Proof.
  intro H. apply mstep_trans in H. unfold stage.
  destruct H as [r l A B C D E F|m h once l es x A B C D E F G K|snap r0 r A B C D E|snap rest r0 r A B C D E F
    |snap rest r0 r e rest' r' A B C D E F G|snap rest r0 r e r' A B C D E F G K|snap rest r0 r e r' A B C D E F G K
    |snap e r0 r A B C D E F G|snap e r0 r A B C D E F G];
  match goal with X : mthreads M' = _ |- _ => rewrite X end; unfold mupd; rewrite Nat.eqb_refl; cbn [mat]; rewrite A;
  match goal with X : entries M' = _ |- _ => rewrite X end; match goal with X : mresults M' = _ |- _ => rewrite X end;
  rewrite ?app_length; cbn [length]; (split; [|split; [intro Z; try congruence|]]); try lia.
  - unfold register in C. destruct m; [destruct h; [destruct (registered _ _)|]|]; injection C as <- <-; cbn [length]; lia.
  - apply Permutation.Permutation_length in B. cbn [length] in B. lia.
  - apply Permutation.Permutation_length in B. cbn [length] in B. lia.
  - unfold removed. assert (length (filter (fun e0 => negb (mkey_eqb (ekey e0) (ekey e))) (entries M)) <= length (entries M)); [|lia].
    clear; induction (entries M) as [|y ys IH]; [reflexivity|]. cbn. destruct (negb _); cbn; lia.
Qed.

(** What a goroutine has still to do in the worst case, in operations and in steps. *)
Definition weight level b (s : nest) (i : nat) : nat := at_most level b (left_over i s).
Definition pot level b (n : nat) (s : nest) (i : nat) : nat :=
  (n + 3) * at_most level b (ntodo s i)
  + match nin s i with None => 0 | Some o => (n + 3) * pred (most b (rank level o)) + stage (nmux s (nmux_of o)) i end.

Definition within (can : nat -> nat -> Prop) level b n g (s : nest) : Prop :=
  length (nlog s) + list_sum (map (weight level b s) (seq 0 g)) <= n
  /\ (forall m, length (entries (nmux s m)) <= length (nlog s))
  /\ (forall i, g <= i -> nin s i = None /\ ntodo s i = [])
  /\ inside s
  /\ (forall m, only (can m) (nmux s m)) /\ forall i, registers can (left_over i s).

Lemma most_pos b k : 1 <= most b k.
Proof. destruct k; cbn [most]; lia. Qed.

Lemma within_step fs body i k s s' can level b n g : layered body can level b -> within can level b n g s -> ntrans fs body i k s s' ->
  within can level b n g s' /\ list_sum (map (pot level b n s') (seq 0 g)) < list_sum (map (pot level b n s) (seq 0 g)).
Proof.
  intros L (W1 & W2 & W3 & W4 & W5 & W6) H. pose proof (inside_step _ _ _ _ _ _ W4 H) as W4'. destruct H as [o l M M' E W Hm R].
  assert (Hi : i < g).
  { destruct (Nat.le_gt_cases g i) as [G|G]; [|exact G]. destruct (W3 i G) as [N T].
    destruct W as [(X & _)|(_ & X & _)]; congruence. }
  destruct (mstep_shape _ _ _ _ _ E) as (Oth & _ & Rs). destruct (stage_step _ _ _ _ _ E) as (S1 & S2 & S3).
  assert (TM : forall j, j <> i -> mthreads M j = mthreads (nmux s (nmux_of o)) j).
  { intros j Hj. destruct W as [(_ & _ & ->)|(_ & _ & ->)]; [reflexivity|]. cbn. unfold mupd. destruct (Nat.eqb_spec j i); congruence. }
  assert (EM : entries M = entries (nmux s (nmux_of o)) /\ mresults M = mresults (nmux s (nmux_of o)))
    by (destruct W as [(_ & _ & ->)|(_ & _ & ->)]; split; reflexivity).
  destruct EM as [EM RM].
  assert (LO : left_over i s = o :: l) by (unfold left_over; destruct W as [(-> & -> & _)|(-> & -> & _)]; reflexivity).
  assert (Same : forall j, j <> i -> nin s' j = nin s j /\ ntodo s' j = ntodo s j).
  { intros j Nj. destruct R as [(_ & -> & -> & _)|(x & _ & -> & -> & _)]; rewrite !put_other by exact Nj; auto. }
  assert (SW : forall j, j <> i -> weight level b s' j = weight level b s j).
  { intros j Nj. unfold weight, left_over. destruct (Same j Nj) as [-> ->]. reflexivity. }
  assert (SP : forall j, j <> i -> pot level b n s' j = pot level b n s j).
  { intros j Nj. unfold pot. destruct (Same j Nj) as [-> ->]. f_equal. destruct (nin s j) as [o'|]; [|reflexivity]. f_equal.
    rewrite Hm. unfold put. destruct (Nat.eqb_spec (nmux_of o') (nmux_of o)) as [Em|_]; [|reflexivity].
    unfold stage. rewrite (Oth j Nj), (TM j Nj), <- Em. reflexivity. }
  assert (Om : only (can (nmux_of o)) M' /\ forall x, mresults M' = mresults M ++ [(i, x)] -> may (can (nmux_of o)) x).
  { apply (only_step _ fs i k M); [| |exact E].
    - destruct W as [(_ & _ & ->)|(_ & _ & ->)]; [apply W5|]. destruct (W5 (nmux_of o)) as [O1 O2]. split; [exact O1|].
      intro j. cbn. unfold mupd. destruct (Nat.eqb_spec j i); [exact I|apply O2].
    - intros q h once l' A Td. destruct W as [(X & _ & EM')|(X & _ & EM')]; rewrite EM' in A, Td; [destruct (W4 _ _ X A)|].
      cbn in Td. unfold mupd in Td. rewrite Nat.eqb_refl in Td. cbn in Td. injection Td as Eo _.
      destruct o as [m' q' h' once'|m' r'|m' r']; try discriminate. cbn in Eo. injection Eo as -> -> ->. cbn [nmux_of].
      apply (W6 i m' q h once). rewrite LO. left. reflexivity. }
  destruct Om as [Om Om'].
  assert (W5' : forall m, only (can m) (nmux s' m)).
  { intro m. rewrite Hm. unfold put. destruct (Nat.eqb_spec m (nmux_of o)) as [->|_]; [exact Om|apply W5]. }
  assert (W6' : forall l', left_over i s' = l' -> registers can l' -> forall j, registers can (left_over j s')).
  { intros l' El Rl j. destruct (Nat.eq_dec j i) as [Ej|Nj]; [subst j; rewrite El; exact Rl|].
    unfold left_over. destruct (Same j Nj) as [-> ->]. apply (W6 j). }
  pose proof (sum_put _ _ i g Hi SW) as UW. pose proof (sum_put _ _ i g Hi SP) as UP.
  assert (WI : weight level b s i = most b (rank level o) + at_most level b l) by (unfold weight; rewrite LO; reflexivity).
  assert (En : length (entries M) <= n) by (rewrite EM; specialize (W2 (nmux_of o)); lia).
  pose proof (most_pos b (rank level o)) as Mp.
  assert (Old : (n + 3) * at_most level b l + (n + 3) * pred (most b (rank level o)) + match nin s i with Some _ => stage M i | None => n + 3 end = pot level b n s i).
  { unfold pot. destruct W as [(X & -> & ->)|(X & -> & _)]; rewrite X; [lia|].
    change (at_most level b (o :: l)) with (most b (rank level o) + at_most level b l). nia. }
  assert (Stp : match nin s i with Some _ => stage M' i < stage M i | None => stage M' i < n + 3 end).
  { destruct W as [(X & _ & EM')|(X & _ & EM')]; rewrite X.
    - apply S2. rewrite EM'. apply (W4 _ _ X).
    - assert (stage M i = 0) by (rewrite EM'; unfold stage; cbn; unfold mupd; rewrite Nat.eqb_refl; reflexivity). lia. }
  destruct R as [(R & T' & N' & G')|(x & R & T' & N' & G')].
  - assert (WI' : weight level b s' i = weight level b s i).
    { rewrite WI. unfold weight, left_over. rewrite T', N', !put_same. reflexivity. }
    assert (PI : pot level b n s' i = (n + 3) * at_most level b l + (n + 3) * pred (most b (rank level o)) + stage M' i).
    { unfold pot. rewrite T', N', !put_same, Hm, put_same. lia. }
    split; [|destruct (nin s i); lia].
    split; [rewrite G'; lia|]. split; [|split; [|split; [exact W4'|split; [exact W5'|]]]].
    + intro m. rewrite G', Hm. unfold put. destruct (Nat.eqb_spec m (nmux_of o)) as [->|_]; [|apply W2].
      specialize (W2 (nmux_of o)). rewrite R in S1. rewrite EM in S1. lia.
    + intros j Gj. destruct (Same j) as [-> ->]; [lia|]. apply W3, Gj.
    + apply (W6' (o :: l)); [unfold left_over; rewrite T', N', !put_same; reflexivity|]. rewrite <- LO. apply W6.
  - destruct (follows_at_most body can level b o x L (Om' x R)) as [Fw Fr].
    assert (WI' : weight level b s' i = at_most level b (ncalls body o x) + at_most level b l).
    { unfold weight, left_over. rewrite T', N', !put_same. cbn [app]. apply at_most_app. }
    assert (PI : pot level b n s' i = (n + 3) * (at_most level b (ncalls body o x) + at_most level b l)).
    { unfold pot. rewrite T', N', !put_same, at_most_app. lia. }
    split.
    + split; [rewrite G', app_length; cbn [length]; lia|]. split; [|split; [|split; [exact W4'|split; [exact W5'|]]]].
      * intro m. rewrite G', app_length, Hm. cbn [length]. unfold put. destruct (Nat.eqb_spec m (nmux_of o)) as [->|_]; [|specialize (W2 m); lia].
        specialize (W2 (nmux_of o)). rewrite R, app_length in S1. cbn [length] in S1. rewrite EM in S1. lia.
      * intros j Gj. destruct (Same j) as [-> ->]; [lia|]. apply W3, Gj.
      * apply (W6' (ncalls body o x ++ l)); [unfold left_over; rewrite T', N', !put_same; reflexivity|].
        intros m q h once Hin. apply in_app_or in Hin. destruct Hin as [Hin|Hin]; [exact (Fr m q h once Hin)|].
        apply (W6 i m q h once). rewrite LO. right. exact Hin.
    + assert (K : (n + 3) * at_most level b (ncalls body o x) <= (n + 3) * pred (most b (rank level o))) by (apply Nat.mul_le_mono_l; lia).
      rewrite Nat.mul_add_distr_l in PI. destruct (nin s i); lia.
Qed.

Lemma within_start can level b g prog : (forall i, registers can (prog i)) -> (forall i, g <= i -> prog i = []) -> within can level b (budget level b g prog) g (nstart prog).
Proof.
  intros Rg G. split; [|split; [|split; [|split; [|split]]]].
  - cbn. unfold budget. apply Nat.eq_le_incl. f_equal.
  - intro m. cbn. lia.
  - intros i Gi. split; [reflexivity|apply G, Gi].
  - intros i o H. discriminate.
  - intro m. split; [intros e []|intro i; exact I].
  - exact Rg.
Qed.

(** C124: when handlers come in layers, the goroutines together perform at most
    [budget] operations, and every execution is finite. *)
Theorem C124_ends : forall fs body prog can level b g sch, layered body can level b -> (forall i, registers can (prog i)) -> (forall i, g <= i -> prog i = []) ->
  let n := budget level b g prog in
  length (nlog (nrun fs body sch (nstart prog))) <= n
  /\ moves fs body sch (nstart prog) <= (n + 3) * n.
Proof.
  intros fs body prog can level b g sch L Rg G n.
  assert (K : forall sch s, within can level b n g s -> within can level b n g (nrun fs body sch s)
     /\ moves fs body sch s <= list_sum (map (pot level b n s) (seq 0 g))).
  { clear sch. induction sch as [|[i k] sch IH]; intros s W; [split; [exact W|cbn; lia]|].
    cbn [nrun fold_left moves]. unfold nact at 2. cbn [fst snd]. destruct (nstep fs body i k s) as [s'|] eqn:E; [|apply IH, W].
    apply nstep_trans in E. destruct (within_step _ _ _ _ _ _ _ _ _ _ _ L W E) as [W' P]. destruct (IH s' W') as [I1 I2].
    split; [exact I1|]. lia. }
  destruct (K sch _ (within_start can level b g prog Rg G)) as [(W & _) M]. fold n in M. split; [lia|].
  eapply Nat.le_trans; [exact M|]. apply Nat.eq_le_incl.
  assert (Z : forall k l, list_sum (map (pot level b k (nstart prog)) l) = (k + 3) * list_sum (map (fun i => at_most level b (prog i)) l)).
  { clear. intros k l. induction l as [|i l IH]; [cbn; lia|]. unfold list_sum in *. cbn [map fold_right]. rewrite IH. unfold pot. cbn [ntodo nstart nin]. lia. }
  apply Z.
Qed.
Print Assumptions C124_ends.

(** C124: so when all goroutines are scheduled again and again, all of them finish. *)
Theorem C124_finishes : forall fs body prog can level b g sch, (forall p, plain (fs p)) -> layered body can level b -> (forall i, registers can (prog i)) -> (forall i, g <= i -> prog i = []) ->
  exists more, forall i, ~ nbusy (nrun fs body (sch ++ more) (nstart prog)) i.
Proof.
  intros fs body prog can level b g sch Hp L Rg G.
  set (n := budget level b g prog).
  assert (K : forall k sch, list_sum (map (pot level b n (nrun fs body sch (nstart prog))) (seq 0 g)) <= k ->
    within can level b n g (nrun fs body sch (nstart prog)) -> exists more, forall i, ~ nbusy (nrun fs body (sch ++ more) (nstart prog)) i).
  { clear sch. induction k as [|k IH]; intros sch P W.
    - exists []. intros i B. rewrite app_nil_r in B. destruct (C124_progress fs body prog sch i Hp B) as [j Hj]. specialize (Hj 0).
      destruct (nstep fs body j 0 (nrun fs body sch (nstart prog))) as [s'|] eqn:E; [|congruence].
      apply nstep_trans in E. destruct (within_step _ _ _ _ _ _ _ _ _ _ _ L W E) as [_ D]. lia.
    - set (s := nrun fs body sch (nstart prog)) in *.
      assert (B : {j | j < g /\ nstep fs body j 0 s <> None} + {forall j, j < g -> nstep fs body j 0 s = None}).
      { clear. induction g as [|g [[j [Hj H]]|IH]]; [right; intros; lia|left; exists j; split; [lia|exact H]|].
        destruct (nstep fs body g 0 s) as [s'|] eqn:E; [left; exists g; split; [lia|congruence]|right].
        intros j Hj. destruct (Nat.eq_dec j g) as [->|N]; [exact E|]. apply IH. lia. }
      destruct B as [[j [_ H]]|B].
      + destruct (nstep fs body j 0 s) as [s'|] eqn:E; [|congruence]. pose proof (nstep_trans _ _ _ _ _ _ E) as T.
        destruct (within_step _ _ _ _ _ _ _ _ _ _ _ L W T) as [W' D].
        assert (R : nrun fs body (sch ++ [(j, 0)]) (nstart prog) = s').
        { rewrite nrun_app. fold s. cbn. unfold nact. cbn [fst snd]. rewrite E. reflexivity. }
        destruct (IH (sch ++ [(j, 0)])) as [more M]; [rewrite R; lia|rewrite R; exact W'|].
        exists ((j, 0) :: more). rewrite <- app_assoc in M. exact M.
      + exists []. intros i Bi. rewrite app_nil_r in Bi. fold s in Bi. destruct (C124_progress fs body prog sch i Hp Bi) as [j Hj]. specialize (Hj 0). fold s in Hj.
        destruct (Nat.le_gt_cases g j) as [Gj|Gj]; [|apply Hj, B, Gj].
        destruct W as (_ & _ & W3 & _). destruct (W3 j Gj) as [N T]. apply Hj. unfold nstep. rewrite N, T. reflexivity. }
  assert (W : within can level b n g (nrun fs body sch (nstart prog))).
  { apply (nrun_inv fs body (within can level b n g)); [apply within_start; assumption|]. intros i k s s' W T. exact (proj1 (within_step _ _ _ _ _ _ _ _ _ _ _ L W T)). }
  exact (K _ sch (le_n _) W).
Qed.
Print Assumptions C124_finishes.

(** The multiplexers of [C124_nested_ex]: 0 above 1. *)
Definition ladder (m h : nat) : Prop := m = 0 /\ (h = 10 \/ h = 7) \/ m = 1 /\ h = 5.
Definition floors (m : nat) : nat := match m with 0 => 1 | _ => 0 end.

Example C124_ends_ex :
  layered bodies ladder floors 1 /\ (forall i, registers ladder (inner_prog i)) /\ (forall i, 2 <= i -> inner_prog i = [])
  /\ budget floors 1 2 inner_prog = 11
  /\ length (nlog (nrun demo bodies (repeat (0, 0) 20 ++ repeat (1, 0) 5) (nstart inner_prog))) = 7
  /\ moves demo bodies (repeat (0, 0) 20 ++ repeat (1, 0) 5) (nstart inner_prog) = 14.
Proof.
  split; [split|split; [|split; [|vm_compute; auto]]].
  - intros h r. split.
    + intros m k f once H. do 21 (destruct h as [|h]; [cbn in H; repeat (destruct H as [H|H]; try discriminate H); try contradiction; try (injection H as <- <- <- <-; left; auto)|]). contradiction.
    + do 21 (destruct h as [|h]; [cbn; auto|]). cbn. auto.
  - intros m h r m' q [[-> [->| ->]]|[-> ->]] H; cbn in H; repeat (destruct H as [H|H]; try discriminate H); try contradiction.
    injection H as <- _. cbn. auto.
  - intros [|[|i]] m k h once H; cbn in H; repeat (destruct H as [H|H]; try discriminate H); try contradiction.
    + injection H as <- _ <- _. left. auto.
    + injection H as <- _ <- _. right. auto.
  - intros [|[|i]] H; [lia|lia|reflexivity].
Qed.
