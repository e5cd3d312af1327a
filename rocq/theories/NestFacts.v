(** Lemmas about nested use of multiplexers. *)
From Verif Require Import NestModel NestSpec MuxSpec MuxFacts.

Lemma target_eq o : target o = nmux_of o.
Proof. destruct o; reflexivity. Qed.
Lemma asks_eq o : asks o = nmop o.
Proof. destruct o; reflexivity. Qed.
Lemma follows_eq body o x : follows body o x = ncalls body o x.
Proof. destruct o, x as [|? ? [| |] ?]; reflexivity. Qed.

Lemma mstep_shape fs i n M M' : mstep fs i n M = Some M' ->
  (forall j, j <> i -> mthreads M' j = mthreads M j)
  /\ mtodo (mthreads M' i) = match mat (mthreads M i) with MIdle => tl (mtodo (mthreads M i)) | _ => mtodo (mthreads M i) end
  /\ ((mresults M' = mresults M /\ mat (mthreads M' i) <> MIdle)
      \/ exists x, mresults M' = mresults M ++ [(i, x)] /\ mat (mthreads M' i) = MIdle).
Proof.
  intro H. apply mstep_trans in H.
  destruct H as [r l A B C D E F|m h once l es x A B C D E F G K|snap r0 r A B C D E|snap rest r0 r A B C D E F
    |snap rest r0 r e rest' r' A B C D E F G|snap rest r0 r e r' A B C D E F G K|snap rest r0 r e r' A B C D E F G K
    |snap e r0 r A B C D E F G|snap e r0 r A B C D E F G];
  match goal with X : mthreads M' = _ |- _ => rewrite X end; unfold mupd; rewrite Nat.eqb_refl; cbn [mtodo mat];
  (split; [intros j Hj; destruct (Nat.eqb_spec j i); congruence|]); rewrite A; (split; [try rewrite B; reflexivity|]);
  match goal with X : mresults M' = _ |- _ => rewrite X end;
  try (left; split; [reflexivity|discriminate]); right; eexists; split; reflexivity.
Qed.

(** [X] is [M] with more to do. *)
Definition ahead (F : nat -> list mop) (X M : mux) : Prop :=
  entries X = entries M /\ readers X = readers M /\ nextid X = nextid M /\ mresults X = mresults M
  /\ forall i, mat (mthreads X i) = mat (mthreads M i) /\ mtodo (mthreads X i) = mtodo (mthreads M i) ++ F i.

Lemma ahead_upd F X M i l p : (forall j, mat (mthreads X j) = mat (mthreads M j) /\ mtodo (mthreads X j) = mtodo (mthreads M j) ++ F j) ->
  forall j, mat (mupd i (MkMThread (l ++ F i) p) X j) = mat (mupd i (MkMThread l p) M j)
    /\ mtodo (mupd i (MkMThread (l ++ F i) p) X j) = mtodo (mupd i (MkMThread l p) M j) ++ F j.
Proof. intros H j. unfold mupd. destruct (Nat.eqb_spec j i); [subst; split; reflexivity|apply H]. Qed.

Lemma step_ahead fs F i n X M M' : ahead F X M -> mstep fs i n M = Some M' ->
  exists X', mstep fs i n X = Some X' /\ ahead F X' M'.
Proof.
  intros (E & R & N & Q & T). destruct (T i) as [Ti Di]. unfold mstep.
  rewrite Ti, Di, E, R, N, Q. destruct (mat (mthreads M i)) as [|snap rest r0 r|snap e r0 r|]; [| | |discriminate].
  - destruct (mtodo (mthreads M i)) as [|[m h once|r] l]; [discriminate| |]; cbn [app].
    + destruct (readers M); [|discriminate]. destruct (register m h once (nextid M) (entries M)) as [es x].
      intro H. injection H as <-. eexists. split; [reflexivity|]. repeat split; cbn; apply ahead_upd; exact T.
    + intro H. injection H as <-. eexists. split; [reflexivity|]. repeat split; cbn; apply ahead_upd; exact T.
  - destruct rest as [|e0 rest0].
    + intro H. injection H as <-. eexists. split; [reflexivity|]. repeat split; cbn; apply ahead_upd; exact T.
    + destruct (pick n e0 rest0) as [e rest]. destruct (match_of fs (ekey e) r) as [[|] r'|].
      * destruct (eonce e); intro H; injection H as <-; (eexists; split; [reflexivity|]); repeat split; cbn; apply ahead_upd; exact T.
      * intro H. injection H as <-. eexists. split; [reflexivity|]. repeat split; cbn; apply ahead_upd; exact T.
      * intro H. injection H as <-. eexists. split; [reflexivity|]. repeat split; cbn; apply ahead_upd; exact T.
  - destruct (readers M); [|discriminate].
    destruct (registered (ekey e) (entries M)); intro H; injection H as <-; (eexists; split; [reflexivity|]); repeat split; cbn; apply ahead_upd; exact T.
Qed.

(** A step of the nest: one step of one multiplexer. *)
Inductive ntrans (fs : nat -> Request -> verdict) (body : nat -> Request -> list nop) (i n : nat) (s s' : nest) : Prop :=
| ntrans_intro o l M M' :
    mstep fs i n M = Some M' ->
    (nin s i = Some o /\ l = ntodo s i /\ M = nmux s (nmux_of o)
     \/ nin s i = None /\ ntodo s i = o :: l /\ M = begun i (nmop o) (nmux s (nmux_of o))) ->
    nmux s' = put (nmux_of o) M' (nmux s) ->
    (mresults M' = mresults M /\ ntodo s' = put i l (ntodo s) /\ nin s' = put i (Some o) (nin s) /\ nlog s' = nlog s
     \/ exists x, mresults M' = mresults M ++ [(i, x)] /\ ntodo s' = put i (ncalls body o x ++ l) (ntodo s)
          /\ nin s' = put i None (nin s) /\ nlog s' = nlog s ++ [(i, o, x)]) ->
    ntrans fs body i n s s'.

Lemma ninside_trans fs body i n o l M s s' : ninside fs body i n o l M s = Some s' ->
  (nin s i = Some o /\ l = ntodo s i /\ M = nmux s (nmux_of o)
     \/ nin s i = None /\ ntodo s i = o :: l /\ M = begun i (nmop o) (nmux s (nmux_of o))) ->
  ntrans fs body i n s s'.
Proof.
  intros H W. unfold ninside in H. destruct (mstep fs i n M) as [M'|] eqn:E; [|discriminate].
  destruct (mstep_shape _ _ _ _ _ E) as (_ & _ & [[R _]|(x & R & _)]); rewrite R in H.
  - rewrite skipn_all in H. injection H as <-. econstructor; [exact E|exact W|reflexivity|]. left. repeat split; auto.
  - rewrite skipn_app, skipn_all, Nat.sub_diag in H. cbn [app skipn] in H. injection H as <-.
    econstructor; [exact E|exact W|reflexivity|]. right. exists x. repeat split; auto.
Qed.

Lemma nstep_trans fs body i n s s' : nstep fs body i n s = Some s' -> ntrans fs body i n s s'.
Proof.
  unfold nstep. destruct (nin s i) as [o|] eqn:E.
  - intro H. apply (ninside_trans _ _ _ _ _ _ _ _ _ H). left. auto.
  - destruct (ntodo s i) as [|o l] eqn:T; [discriminate|]. intro H. apply (ninside_trans _ _ _ _ _ _ _ _ _ H). right. auto.
Qed.

Lemma nrun_app fs body a b s : nrun fs body (a ++ b) s = nrun fs body b (nrun fs body a s).
Proof. unfold nrun. apply fold_left_app. Qed.

Lemma nrun_inv fs body (P : nest -> Prop) s : P s -> (forall i n s s', P s -> ntrans fs body i n s s' -> P s') ->
  forall sch, P (nrun fs body sch s).
Proof.
  intros H0 Hs sch. revert s H0. induction sch as [|a sch IH]; intros s H0; [exact H0|].
  cbn. apply IH. unfold nact. destruct (nstep fs body (fst a) (snd a) s) as [s'|] eqn:E; [|exact H0].
  eapply Hs; [exact H0|]. apply nstep_trans in E. exact E.
Qed.

(** Goroutines that are not inside an operation on [m] are at rest there; what [m]
    recorded is its part of the log. *)
Definition tidy (s : nest) : Prop :=
  (forall m j, mtodo (mthreads (nmux s m) j) = []
     /\ (match nin s j with Some o => nmux_of o <> m | None => True end -> mat (mthreads (nmux s m) j) = MIdle))
  /\ forall m, mresults (nmux s m) = of_mux m (nlog s).

Lemma put_same {A} i (x : A) f : put i x f i = x.
Proof. unfold put. rewrite Nat.eqb_refl. reflexivity. Qed.
Lemma put_other {A} i j (x : A) f : j <> i -> put i x f j = f j.
Proof. intro H. unfold put. destruct (Nat.eqb_spec j i); congruence. Qed.

Lemma of_mux_app m a b : of_mux m (a ++ b) = of_mux m a ++ of_mux m b.
Proof. unfold of_mux. rewrite filter_app, map_app. reflexivity. Qed.

Lemma tidy_step fs body i n s s' : tidy s -> ntrans fs body i n s s' -> tidy s'.
Proof.
  intros [T Q] H. destruct H as [o l M M' E W Hm R].
  destruct (mstep_shape _ _ _ _ _ E) as (Oth & Td & Rs). set (m := nmux_of o) in *.
  assert (QM : mresults M = of_mux m (nlog s)) by (destruct W as [(_ & _ & ->)|(_ & _ & ->)]; apply Q).
  assert (TM : forall j, j <> i -> mthreads M j = mthreads (nmux s m) j).
  { intros j Hj. destruct W as [(_ & _ & ->)|(_ & _ & ->)]; [reflexivity|]. cbn. unfold mupd. destruct (Nat.eqb_spec j i); congruence. }
  assert (Ti : mtodo (mthreads M' i) = []).
  { rewrite Td. destruct W as [(_ & _ & ->)|(_ & _ & ->)].
    - destruct (T m i) as [-> _]. destruct (mat (mthreads (nmux s m) i)); reflexivity.
    - cbn. unfold mupd. rewrite Nat.eqb_refl. reflexivity. }
  assert (Idle : forall m', m' <> m -> mat (mthreads (nmux s m') i) = MIdle).
  { intros m' Hm'. apply T. destruct W as [(-> & _)|(-> & _)]; [|exact I]. fold m. auto. }
  split.
  - intros m' j. rewrite Hm. destruct (Nat.eq_dec m' m) as [->|Nm]; [rewrite put_same|rewrite (put_other _ _ _ _ Nm)].
    + destruct (Nat.eq_dec j i) as [->|Nj].
      * split; [exact Ti|]. destruct R as [(R & _ & -> & _)|(x & R & _ & -> & _)]; rewrite put_same; [intro K; destruct K; reflexivity|].
        intros _. destruct Rs as [[Rs _]|(x' & _ & Rs)]; [|exact Rs]. rewrite Rs in R.
        apply (f_equal (@length _)) in R. rewrite app_length in R. cbn in R. lia.
      * rewrite (Oth j Nj), (TM j Nj). destruct R as [(_ & _ & -> & _)|(x & _ & _ & -> & _)]; rewrite put_other by exact Nj; apply T.
    + split; [apply T|]. destruct (Nat.eq_dec j i) as [->|Nj]; [intros _; apply Idle; exact Nm|].
      destruct R as [(_ & _ & -> & _)|(x & _ & _ & -> & _)]; rewrite put_other by exact Nj; apply T.
  - intro m'. rewrite Hm. destruct R as [(R & _ & _ & ->)|(x & R & _ & _ & ->)]; unfold put; destruct (Nat.eqb_spec m' m) as [->|Nm].
    + congruence.
    + apply Q.
    + rewrite R, QM, of_mux_app. f_equal. unfold of_mux. cbn [filter map fst snd]; rewrite ?target_eq, ?asks_eq. fold m. rewrite Nat.eqb_refl. reflexivity.
    + rewrite of_mux_app, <- Q. unfold of_mux. cbn [filter map fst snd]; rewrite ?target_eq, ?asks_eq. fold m. destruct (Nat.eqb_spec m m'); [congruence|]. cbn. rewrite app_nil_r. reflexivity.
Qed.

Lemma tidy_run fs body prog sch : tidy (nrun fs body sch (nstart prog)).
Proof. apply nrun_inv; [|intros; eapply tidy_step; eauto]. split; [intros; split; reflexivity|reflexivity]. Qed.

(** Every multiplexer is one that was used alone. *)
Definition alone (fs : nat -> Request -> verdict) (m : nat) (s : nest) : Prop :=
  forall F, exists sch, ahead F (mrun fs sch (mstart (fun i => used m i s ++ F i))) (nmux s m).

Lemma used_step fs body i n s s' o l M M' : mstep fs i n M = Some M' ->
    (nin s i = Some o /\ l = ntodo s i /\ M = nmux s (nmux_of o)
     \/ nin s i = None /\ ntodo s i = o :: l /\ M = begun i (nmop o) (nmux s (nmux_of o))) ->
    (mresults M' = mresults M /\ ntodo s' = put i l (ntodo s) /\ nin s' = put i (Some o) (nin s) /\ nlog s' = nlog s
     \/ exists x, mresults M' = mresults M ++ [(i, x)] /\ ntodo s' = put i (ncalls body o x ++ l) (ntodo s)
          /\ nin s' = put i None (nin s) /\ nlog s' = nlog s ++ [(i, o, x)]) ->
  forall m j, used m j s' = used m j s ++ match nin s i with None => if (nmux_of o =? m) && (i =? j) then [nmop o] else [] | _ => [] end.
Proof.
  intros _ W R m j. rewrite <- target_eq, <- asks_eq. unfold used. destruct (Nat.eq_dec j i) as [->|Nj].
  - destruct W as [(-> & _)|(-> & _)]; destruct R as [(_ & _ & -> & ->)|(x & _ & _ & -> & ->)]; rewrite put_same.
    + rewrite app_nil_r. reflexivity.
    + rewrite !app_nil_r, filter_app, map_app. f_equal. cbn [filter map fst snd]; rewrite ?target_eq, ?asks_eq. rewrite Nat.eqb_refl, andb_true_r.
      destruct (nmux_of o =? m); reflexivity.
    + rewrite app_nil_r, Nat.eqb_refl, andb_true_r. reflexivity.
    + rewrite !app_nil_r, filter_app, map_app. f_equal. cbn [filter map fst snd]; rewrite ?target_eq, ?asks_eq. rewrite Nat.eqb_refl, andb_true_r.
      destruct (nmux_of o =? m); reflexivity.
  - assert (Z : (i =? j) = false) by (apply Nat.eqb_neq; congruence). rewrite Z, andb_false_r.
    assert (Y : match nin s i with Some _ => [] | None => [] end = @nil mop) by (destruct (nin s i); reflexivity). rewrite Y, app_nil_r.
    destruct R as [(_ & _ & -> & ->)|(x & _ & _ & -> & ->)]; rewrite put_other by exact Nj; [reflexivity|].
    rewrite filter_app. cbn [filter map fst snd]; rewrite ?target_eq, ?asks_eq. rewrite Z, andb_false_r, app_nil_r. reflexivity.
Qed.

Lemma mrun_ext fs prog prog' sch : (forall i, prog i = prog' i) -> ahead (fun _ => []) (mrun fs sch (mstart prog)) (mrun fs sch (mstart prog')).
Proof.
  intro E. induction sch as [|a sch IH] using rev_ind; [repeat split; cbn; rewrite app_nil_r; apply E|].
  rewrite !mrun_app. cbn. unfold mact. destruct (mstep fs (fst a) (snd a) (mrun fs sch (mstart prog'))) as [s'|] eqn:K.
  - destruct (step_ahead _ _ _ _ _ _ _ IH K) as (X' & -> & A). exact A.
  - destruct (mstep fs (fst a) (snd a) (mrun fs sch (mstart prog))) as [s'|] eqn:K'; [|exact IH].
    assert (B : ahead (fun _ => []) (mrun fs sch (mstart prog')) (mrun fs sch (mstart prog))).
    { destruct IH as (A1 & A2 & A3 & A4 & A5). repeat split; try congruence; destruct (A5 i) as [P Q]; rewrite app_nil_r in *; congruence. }
    destruct (step_ahead _ _ _ _ _ _ _ B K') as (X' & K2 & _). congruence.
Qed.

Lemma ahead_trans F X Y M : ahead (fun _ => []) X Y -> ahead F Y M -> ahead F X M.
Proof.
  intros (A1 & A2 & A3 & A4 & A5) (B1 & B2 & B3 & B4 & B5). repeat split; try congruence; destruct (A5 i), (B5 i); rewrite app_nil_r in *; congruence.
Qed.

Lemma alone_step fs body i n s s' : tidy s -> (forall m, alone fs m s) -> ntrans fs body i n s s' -> forall m, alone fs m s'.
Proof.
  intros T A H m F. destruct H as [o l M M' E W Hm R].
  pose proof (used_step fs body i n s s' o l M M' E W R m) as U.
  set (G := fun j => match nin s i with None => if (nmux_of o =? m) && (i =? j) then [nmop o] else [] | _ => [] end ++ F j).
  destruct (A m G) as [sch S].
  assert (P : forall j, used m j s' ++ F j = used m j s ++ G j) by (intro j; rewrite U, <- app_assoc; reflexivity).
  rewrite Hm. unfold put. destruct (Nat.eqb_spec m (nmux_of o)) as [Em|Nm].
  - assert (SM : ahead F (mrun fs sch (mstart (fun i => used m i s ++ G i))) M).
    { destruct W as [(N & _ & EM)|(N & _ & EM)]; subst M; rewrite <- Em.
      - destruct S as (S1 & S2 & S3 & S4 & S5). repeat split; auto; [apply S5|]. destruct (S5 i0) as [_ ->]. unfold G. rewrite N. reflexivity.
      - destruct S as (S1 & S2 & S3 & S4 & S5). repeat split; auto; cbn; unfold mupd; destruct (S5 i0) as [S6 S7]; destruct T as [T _];
          destruct (T m i0) as [T0 T1]; destruct (Nat.eqb_spec i0 i) as [->|Ni].
        + rewrite S6. rewrite N in T1. apply T1. exact I.
        + exact S6.
        + rewrite S7, T0. unfold G. rewrite N, Em, !Nat.eqb_refl. reflexivity.
        + rewrite S7. unfold G. rewrite N. destruct (Nat.eqb_spec i i0); [congruence|]. rewrite andb_false_r. reflexivity. }
    destruct (step_ahead _ _ _ _ _ _ _ SM E) as (X' & K & SM').
    exists (sch ++ [(i, n)]). eapply ahead_trans; [apply mrun_ext; exact P|].
    rewrite mrun_app. cbn. unfold mact. cbn [fst snd]. rewrite K. exact SM'.
  - exists sch. eapply ahead_trans; [apply mrun_ext; exact P|].
    destruct S as (S1 & S2 & S3 & S4 & S5). repeat split; auto; [apply S5|]. destruct (S5 i0) as [_ ->]. unfold G.
    destruct (nin s i); [reflexivity|]. destruct (Nat.eqb_spec (nmux_of o) m); [congruence|]. reflexivity.
Qed.

Lemma alone_run fs body prog sch m : alone fs m (nrun fs body sch (nstart prog)).
Proof.
  cut (tidy (nrun fs body sch (nstart prog)) /\ forall m, alone fs m (nrun fs body sch (nstart prog))); [intros [_ H]; apply H|].
  apply nrun_inv.
  - split; [apply (tidy_run fs body prog [])|]. intros m' F. exists []. repeat split.
  - intros i n s s' [T A] H. split; [eapply tidy_step; eauto|eapply alone_step; eauto].
Qed.

(** ** Calls are made depth first *)
Lemma performs_app body l1 : forall l2 lg, performs body (l1 ++ l2) lg ->
  exists a b, lg = a ++ b /\ performs body l1 a /\ performs body l2 b.
Proof.
  induction l1 as [|o l1 IH]; intros l2 lg H; [exists [], lg; repeat split; [constructor|exact H]|].
  cbn in H. inversion H as [|? x ? lg1 lg2 H1 H2]; subst. destruct (IH _ _ H2) as (a & b & -> & Ha & Hb).
  exists ((o, x) :: lg1 ++ a), b. rewrite app_assoc. repeat split; [constructor; assumption|exact Hb].
Qed.

Lemma of_goroutine_app i a b : of_goroutine i (a ++ b) = of_goroutine i a ++ of_goroutine i b.
Proof. unfold of_goroutine. rewrite filter_app, map_app. reflexivity. Qed.

(** What goroutine [i] has still to do. *)
Definition left_over (i : nat) (s : nest) : list nop := match nin s i with Some o => [o] | None => [] end ++ ntodo s i.

Lemma depth_run fs body prog sch i : let s := nrun fs body sch (nstart prog) in
  forall lg, performs body (left_over i s) lg -> performs body (prog i) (of_goroutine i (nlog s) ++ lg).
Proof.
  cbv zeta. apply (nrun_inv fs body (fun s => forall lg, performs body (left_over i s) lg -> performs body (prog i) (of_goroutine i (nlog s) ++ lg))).
  - intros lg H. exact H.
  - intros j n s s' IH H lg. destruct H as [o l M M' E W Hm R]. unfold left_over in *.
    destruct (Nat.eq_dec i j) as [->|Nj].
    + assert (L : match nin s j with Some o => [o] | None => [] end ++ ntodo s j = o :: l).
      { destruct W as [(-> & -> & _)|(-> & -> & _)]; reflexivity. }
      rewrite L in IH. destruct R as [(_ & -> & -> & ->)|(x & _ & -> & -> & ->)]; rewrite !put_same.
      * exact (IH lg).
      * cbn [app]. intro P. apply performs_app in P. destruct P as (a & b & -> & Pa & Pb).
        rewrite of_goroutine_app. unfold of_goroutine at 2. cbn [filter fst snd map]; rewrite ?target_eq, ?asks_eq. rewrite Nat.eqb_refl. cbn [map fst snd].
        rewrite <- app_assoc. apply IH. cbn [app]. constructor; rewrite ?follows_eq; assumption.
    + destruct R as [(_ & -> & -> & ->)|(x & _ & -> & -> & ->)]; rewrite !put_other by exact Nj; [apply IH|].
      rewrite of_goroutine_app. unfold of_goroutine at 2. cbn [filter fst snd map]; rewrite ?target_eq, ?asks_eq.
      destruct (Nat.eqb_spec j i); [congruence|]. rewrite app_nil_r. apply IH.
Qed.
