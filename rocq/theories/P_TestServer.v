(** C61: closing the test server. *)
From Coq Require Import Permutation.
From Verif Require Import TestServerFacts.

(** Every run of a test server: any interleaving of the accept loop, any number of
    calls of Close, their closing goroutines and their timeouts, without direct calls
    of CloseClientConnections.  [timely]: no call of Close runs into its five seconds. *)
Definition runs (timely : bool) (s s' : tserver) : Prop :=
  exists sch, (timely = true -> Forall no_timeout sch) /\ s' = trun 0 sch s.

(** Connection [c] was accepted by the test server. *)
Definition accepted (s : tserver) (c : nat) : Prop := c < fresh s.
(** Connection [c] was reported as new to the test server. *)
Definition reported (s : tserver) (c : nat) : Prop := In c (recorded s).
(** Some call of Close has returned. *)
Definition close_returned (s : tserver) : Prop := exists i, closes s i = CReturned.
(** Nobody has called Close yet. *)
Definition close_not_called (s : tserver) : Prop := forall i, closes s i = CStart.

Lemma runs_inv b s s' r0 : inv r0 (negb b) s -> runs b s s' -> inv r0 (negb b) s'.
Proof. intros I (sch & F & ->). apply inv_run; [exact I|]. destruct b; cbn; auto. Qed.

Lemma runs_from_start b s : runs b tstart s -> inv 0 (negb b) s.
Proof. intro H. eapply runs_inv; eauto using inv_start. Qed.

(** Every connection reported before Close is called is closed once Close has returned. *)
Theorem C61_reported_closed b s1 s2 c : runs b tstart s1 -> close_not_called s1 -> reported s1 c ->
  runs true s1 s2 -> close_returned s2 -> In c (shut s2).
Proof.
  intros R1 N K R2 (i & C). pose proof (inv_from _ _ (runs_from_start _ _ R1) N) as I.
  pose proof (runs_inv true _ _ _ I R2) as I2.
  destruct (returned_phase _ _ _ _ I2 C) as (m & _ & _ & _ & P & E & _ & _ & _ & L).
  rewrite (E eq_refl), app_nil_r in P. apply (Permutation_in c (Permutation_sym P)), in_seq.
  enough (c < length (recorded s1)) by lia. unfold reported in K. destruct I as (_ & B & _). unfold book in B.
  destruct (accepting s1) as [|q|]; [|destruct B as [_ B]|]; rewrite B in *; apply in_seq in K; rewrite seq_length; lia.
Qed.
Print Assumptions C61_reported_closed.

(** At most one accepted connection is left open. *)
Theorem C61_one_escapes s c1 c2 : runs true tstart s -> close_returned s ->
  accepted s c1 -> accepted s c2 -> ~ In c1 (shut s) -> ~ In c2 (shut s) -> c1 = c2.
Proof.
  intros R (i & C) A1 A2 N1 N2. pose proof (runs_from_start _ _ R) as I.
  destruct (returned_phase _ _ _ _ I C) as (m & _ & _ & _ & P & E & _ & _ & F & _).
  rewrite (E eq_refl), app_nil_r in P. unfold accepted in *.
  assert (X : forall c, ~ In c (shut s) -> m <= c).
  { intros c N. destruct (Nat.le_gt_cases m c) as [L|L]; [exact L|]. exfalso. apply N.
    apply (Permutation_in c (Permutation_sym P)), in_seq. lia. }
  pose proof (X _ N1). pose proof (X _ N2). lia.
Qed.
Print Assumptions C61_one_escapes.

(** The connection in the accept loop's hands when Close returns is never closed. *)
Theorem C61_escapes_for_ever b1 b2 s c s' : runs b1 tstart s -> close_returned s -> accepting s = AGot c ->
  runs b2 s s' -> ~ In c (shut s').
Proof.
  intros R (i & C) A (sch & _ & ->) H. pose proof (runs_from_start _ _ R) as I.
  destruct (returned_phase _ _ _ _ I C) as (m & T1 & T2 & T3 & P & _ & T6 & ML & F & _).
  destruct I as (RC & B & _). pose proof B as B'. unfold book in B'. rewrite A in B'. destruct B' as [B1 B2].
  rewrite B2, seq_length in ML.
  assert (D : done m s).
  { repeat (split; [assumption|]). split; [|assumption]. intros q Q. apply (Permutation_in q P), in_seq in Q. lia. }
  destruct (proj1 (done_run m sch s D)) as (_ & _ & _ & _ & _ & S & _).
  specialize (S c (in_or_app _ _ _ (or_introl H))). lia.
Qed.
Print Assumptions C61_escapes_for_ever.

(** After Close has returned no connection is accepted any more. *)
Theorem C61_no_more_accepted b1 b2 s s' : runs b1 tstart s -> close_returned s -> runs b2 s s' -> fresh s' = fresh s.
Proof.
  intros R (i & C) (sch & _ & ->). destruct (returned_done _ _ _ _ (runs_from_start _ _ R) C) as (m & D & _).
  apply (done_run m sch s D).
Qed.
Print Assumptions C61_no_more_accepted.

(** A connection accepted before Close is called, never closed. *)
Theorem C61_close_all_refuted : exists s1 s2 c, runs true tstart s1 /\ close_not_called s1 /\ accepted s1 c
  /\ runs true s1 s2 /\ close_returned s2 /\ forall b s3, runs b s2 s3 -> ~ In c (shut s3).
Proof.
  exists (trun 0 [TAccept; TAccept; TAccept] tstart),
    (trun 0 [TClose 0; TClose 0; TClose 0; TCloser 0; TClose 0; TClose 0] (trun 0 [TAccept; TAccept; TAccept] tstart)), 1.
  split; [eexists; split; [|reflexivity]; intros _; repeat constructor|]. split; [intro i; reflexivity|].
  split; [unfold accepted; cbn; lia|].
  split; [eexists; split; [|reflexivity]; intros _; repeat constructor|]. split; [exists 0; reflexivity|].
  intros b s3 R. eapply (C61_escapes_for_ever true b); [| | |exact R].
  - exists ([TAccept; TAccept; TAccept] ++ [TClose 0; TClose 0; TClose 0; TCloser 0; TClose 0; TClose 0]).
    split; [intros _; repeat constructor|]. symmetry. apply trun_app.
  - exists 0. reflexivity.
  - reflexivity.
Qed.
Print Assumptions C61_close_all_refuted.

(** Calling Close again returns at once and changes nothing. *)
Theorem C61_again b s i : runs b tstart s -> close_returned s -> closes s i = CStart ->
  exists s', tstep 0 (TClose i) s = Some s' /\ closes s' i = CReturned /\ (forall j, j <> i -> closes s' j = closes s j)
    /\ shut s' = shut s /\ pending s' = pending s /\ listening s' = listening s /\ recorded s' = recorded s
    /\ accepting s' = accepting s /\ owner s' = None.
Proof.
  intros R (j & C) N. pose proof (runs_from_start _ _ R) as I.
  destruct (returned_phase _ _ _ _ I C) as (m & T1 & T2 & _). pose proof (proj1 I) as RC.
  destruct s as [a l f r cl o cs ds p k sh bad]; cbn in *; subst bad cl o. rewrite N.
  eexists. split; [reflexivity|]. cbn. split; [apply put_same|]. split; [intros q Q; apply put_other, Q|]. auto 10.
Qed.
Print Assumptions C61_again.

(** However many calls of Close there are, each can return from every state reached,
    without waiting for the five seconds: no deadlock. *)
Theorem C61_returns b s i : runs b tstart s -> exists s', runs true s s' /\ closes s' i = CReturned.
Proof.
  intro R. destruct (close_ends _ s i (runs_from_start _ _ R)) as (sch & F & C).
  exists (trun 0 sch s). split; [exists sch; auto|exact C].
Qed.
Print Assumptions C61_returns.

(** The table of connections is never written while it is read ... *)
Theorem C61_no_conflict b s : runs b tstart s -> raced s = false.
Proof. intro R. apply (runs_from_start _ _ R). Qed.
Print Assumptions C61_no_conflict.

(** ... unless CloseClientConnections is called while the server accepts. *)
Theorem C61_direct_refuted : exists sch, raced (trun 1 sch tstart) = true.
Proof. exists [TAccept; TDirect 0; TAccept]. reflexivity. Qed.
Print Assumptions C61_direct_refuted.

(** Exactly then: a step is a data race if and only if it reports an accepted
    connection while a direct call of CloseClientConnections is under way. *)
Theorem C61_conflict_iff n m s s' : raced s = false -> tstep n m s = Some s' ->
  (raced s' = true <-> m = TAccept /\ (exists c, accepting s = AGot c) /\ exists j, j < n /\ directs s j = DRanging).
Proof.
  destruct s as [a l f r cl o cs ds p k sh bad]. cbn [raced accepting directs]. intros ->. unfold tstep. intro E. split.
  - intro R. destruct m as [|i|i|j|j|c].
    + split; [reflexivity|]. destruct a as [|c|]; [destruct l; injection E as <-; discriminate| |discriminate].
      destruct o; [discriminate|]. injection E as <-. cbn [raced] in R. apply existsb_exists in R as (j & I & D).
      apply in_seq in I. split; [eauto|]. exists j. split; [lia|]. unfold ranging in D. cbn [directs] in D.
      destruct (ds j); congruence.
    + exfalso. destruct (cs i) as [| | |[|w]|]; [destruct o; [|destruct cl]| | | |destruct k|]; try discriminate E;
        injection E as <-; discriminate R.
    + exfalso. destruct (cs i); try discriminate E; injection E as <-; discriminate R.
    + exfalso. destruct (nth_error p j); [|discriminate E]. injection E as <-. discriminate R.
    + exfalso. destruct (j <? n); [|discriminate E]. destruct (ds j); try discriminate E; injection E as <-; discriminate R.
    + exfalso. destruct (_ && _); [|discriminate E]. injection E as <-. discriminate R.
  - intros (-> & (c & ->) & j & J & D). destruct o; [discriminate|]. injection E as <-. cbn [raced].
    apply existsb_exists. exists j. split; [apply in_seq; lia|]. unfold ranging. cbn [directs]. rewrite D. reflexivity.
Qed.
Print Assumptions C61_conflict_iff.

(** Only connections reported as new are closed by the test server, whoever calls what. *)
Theorem C61_only_reported n sch c : In c (shut (trun n sch tstart)) -> reported (trun n sch tstart) c.
Proof.
  unfold reported.
  assert (K : forall sch s, incl (pending s) (recorded s) /\ incl (shut s) (recorded s) ->
    incl (shut (trun n sch s)) (recorded (trun n sch s))).
  { clear sch c. induction sch as [|m sch IH]; intros s (P & H); [exact H|]. cbn [trun fold_left].
    apply IH. unfold tact. destruct s as [a l f r cl o cs ds p k sh bad]. cbn [pending shut recorded] in P, H.
    unfold tstep. destruct bad; [split; assumption|]. destruct m as [|i|i|j|j|c].
    - destruct a as [|c|]; [destruct l| |]; cbn [pending shut recorded]; try (split; assumption).
      destruct o; cbn [pending shut recorded]; [split; assumption|]. split; apply incl_appl; assumption.
    - destruct (cs i) as [| | |[|w]|]; cbn [pending shut recorded]; try (split; assumption).
      + destruct o; [|destruct cl]; cbn [pending shut recorded]; split; assumption.
      + split; [apply incl_refl|assumption].
      + destruct k; cbn [pending shut recorded]; split; assumption.
    - destruct (cs i); cbn [pending shut recorded]; split; assumption.
    - destruct (nth_error p j) as [c|] eqn:E; cbn [pending shut recorded]; [|split; assumption]. split.
      + intros x X. apply P. clear -X. revert j X. induction p as [|y p IH]; intros [|j] X; cbn in *; auto.
        destruct X; eauto.
      + intros x [<-|X]; [|auto]. apply P. eapply nth_error_In; eauto.
    - destruct (j <? n); [destruct (ds j)|]; cbn [pending shut recorded]; split; assumption.
    - destruct (_ && _) eqn:E; cbn [pending shut recorded]; [|split; assumption]. split; [assumption|].
      apply andb_prop in E as (_ & E). apply existsb_exists in E as (y & Y & Q). apply Nat.eqb_eq in Q. subst y.
      intros x [<-|X]; auto. }
  apply (K sch tstart). split; apply incl_nil_l.
Qed.
Print Assumptions C61_only_reported.

(** The goroutines of a call of CloseClientConnections can close all of them. *)
Theorem C61_direct_closes n s j : j < n -> raced s = false -> directs s j = DStart ->
  exists sch, let s' := trun n (TDirect j :: sch) s in
  raced s' = false /\ recorded s' = recorded s /\ forall c, reported s c -> In c (shut s').
Proof.
  intros J R D. exists (map TDirectCloser (recorded s)). destruct s as [a l f r cl o cs ds p k sh bad].
  cbn [raced directs recorded] in R, D |- *. subst bad. unfold reported. cbn [recorded].
  cbn [trun fold_left]. unfold tact at 2 4 6, tstep. rewrite (proj2 (Nat.ltb_lt j n) J), D.
  assert (E : existsb (fun j0 => match put ds j DRanging j0 with DStart => false | _ => true end) (seq 0 n) = true).
  { apply existsb_exists. exists j. split; [apply in_seq; lia|]. unfold put. rewrite Nat.eqb_refl. reflexivity. }
  assert (K : forall l' sh', incl l' r ->
    exists sh2, fold_left (tact n) (map TDirectCloser l') (MkTs a l f r cl o cs (put ds j DRanging) p k sh' false)
                = MkTs a l f r cl o cs (put ds j DRanging) p k sh2 false
      /\ incl sh' sh2 /\ incl l' sh2).
  { induction l' as [|c l' IH]; intros sh' I; [exists sh'; repeat split; auto using incl_refl, incl_nil_l|].
    cbn [map fold_left]. unfold tact at 2, tstep. rewrite E.
    assert (C : existsb (Nat.eqb c) r = true).
    { apply existsb_exists. exists c. split; [apply I; left; reflexivity|apply Nat.eqb_refl]. }
    rewrite C. cbn [andb]. destruct (IH (c :: sh') (fun x X => I x (or_intror X))) as (sh2 & Q & A & B).
    exists sh2. rewrite Q. repeat split.
    - intros x X. apply A. right. exact X.
    - intros x [<-|X]; [apply A; left; reflexivity|auto]. }
  destruct (K r sh (incl_refl r)) as (sh2 & Q & _ & B). rewrite Q. repeat split. exact B.
Qed.
Print Assumptions C61_direct_closes.

Example C61_direct_ex : let s := trun 1 [TAccept; TAccept; TAccept; TAccept] tstart in
  recorded s = [0; 1] /\ raced s = false /\ directs s 0 = DStart
  /\ shut (trun 1 [TDirect 0; TDirectCloser 0; TDirectCloser 1; TDirectCloser 2] s) = [1; 0].
Proof. repeat split. Qed.

(** Three connections, two calls of Close: the first two connections are reported
    before and closed, the third is accepted in time and left open. *)
Example C61_ex : exists s1 s2, runs true tstart s1 /\ close_not_called s1 /\ reported s1 0 /\ reported s1 1
  /\ runs true s1 s2 /\ closes s2 0 = CReturned /\ closes s2 1 = CReturned /\ shut s2 = [1; 0] /\ accepted s2 2.
Proof.
  exists (trun 0 [TAccept; TAccept; TAccept; TAccept] tstart),
    (trun 0 [TClose 0; TAccept; TClose 0; TClose 1; TClose 0; TAccept; TCloser 0; TClose 0; TCloser 0; TClose 0; TClose 0; TClose 1; TAccept; TAccept]
      (trun 0 [TAccept; TAccept; TAccept; TAccept] tstart)).
  split; [eexists; split; [|reflexivity]; intros _; repeat constructor|]. split; [intro i; reflexivity|].
  split; [unfold reported; cbn; auto|]. split; [unfold reported; cbn; auto|].
  split; [eexists; split; [|reflexivity]; intros _; repeat constructor|]. repeat split; unfold accepted; cbn; lia.
Qed.
