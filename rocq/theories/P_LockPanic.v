(** C64 with the lock as it is: a goroutine that panicked in a matcher takes no step
    any more. *)
From Verif Require Import LockModel LockSpec LockFacts P_Lock.

Lemma gone_step ms k i j s s' : sound s -> k <> i -> in_matcher (stacks s i) -> ann s = Some j -> ltrans ms k s s' ->
  stacks s' i = stacks s i /\ ann s' = Some j /\ ents s' = ents s /\ incl (rds s') (rds s)
  /\ exists new, fin s' = fin s ++ new /\ Forall (fun y => In (fst y) (rds s) /\ exists e, snd y = Found e) new.
Proof.
  intros So N M A H. pose proof (holder_in s i So (in_matcher_holds _ M)) as R.
  assert (K : forall st, set k st (stacks s) i = stacks s i) by (intro st; apply set_other; congruence).
  assert (Hk : 0 < holds (stacks s k) -> In k (rds s)) by apply (holder_in s k So).
  destruct H as [r l st E A' ->|p once l st E A' ->|w st E A' ->|w st E R' ->|r st E ->|e0 rest0 e rest r st E L I ->
    |e rest r st E Y O ->|e rest r st E Y O ->|e rest r st E Y ->]; try congruence;
  try (rewrite R' in R; destruct R); cbn [stacks ann ents rds fin]; rewrite E, ?holds_cons in Hk;
  (split; [apply K|]); (split; [exact A|]); (split; [reflexivity|]);
  (split; [first [apply release_incl|apply incl_refl]|]); try (exists []; split; [now rewrite app_nil_r|constructor]);
  eexists; (split; [reflexivity|]); repeat constructor; cbn [fst snd]; eauto; apply Hk; lia.
Qed.

(** C64: after a panic of a matcher in goroutine [i], once another goroutine tries to
    register or to dispose of an entry it hangs for ever, nothing changes any more
    and no dispatch ends but those that were searching at that moment. *)
Theorem C64_all_hang : forall ms es prog sch sch' i j, let s := lrun ms sch (lstart es prog) in let s' := lrun ms sch' s in
  in_matcher (stacks s i) -> (forall a, In a sch' -> fst a <> i) -> in_lock (stacks s j) ->
  in_lock (stacks s' j) /\ ents s' = ents s
  /\ exists new, fin s' = fin s ++ new /\ Forall (fun y => In (fst y) (rds s) /\ exists e, snd y = Found e) new.
Proof.
  intros ms es prog sch sch' i j s s' M G J. pose proof (sound_run ms es prog sch) as So. fold s in So.
  assert (A : ann s = Some j) by (apply So; exact J).
  assert (P : sound s' /\ stacks s' i = stacks s i /\ ann s' = Some j /\ ents s' = ents s /\ incl (rds s') (rds s)
    /\ exists new, fin s' = fin s ++ new /\ Forall (fun y => In (fst y) (rds s) /\ exists e, snd y = Found e) new).
  { unfold s'. clear s'. induction sch' as [|a l IH] using rev_ind.
    - split; [exact So|]. split; [reflexivity|]. split; [exact A|]. split; [reflexivity|]. split; [apply incl_refl|].
      exists []. split; [now rewrite app_nil_r|constructor].
    - assert (G' : forall b, In b l -> fst b <> i) by (intros b Hb; apply G, in_or_app; now left).
      destruct (IH G') as (S1 & S2 & S3 & S4 & S5 & new & S6 & S7). unfold lrun. rewrite fold_left_app. cbn [fold_left]. fold (lrun ms l s).
      set (x := lrun ms l s) in *. unfold lact. destruct (lstep ms (fst a) (snd a) x) as [x'|] eqn:E; [|split; [exact S1|]; split; [exact S2|];
        split; [exact S3|]; split; [exact S4|]; split; [exact S5|]; exists new; split; assumption].
      apply lstep_trans in E. assert (Na : fst a <> i) by (apply G, in_or_app; right; now left).
      assert (Mx : in_matcher (stacks x i)) by (rewrite S2; exact M).
      destruct (gone_step ms (fst a) i j x x' S1 Na Mx S3 E) as (T1 & T2 & T3 & T4 & new' & T5 & T6).
      split; [eapply sound_next; eauto|]. split; [congruence|]. split; [exact T2|]. split; [congruence|].
      split; [eapply incl_tran; eauto|]. exists (new ++ new'). split; [rewrite T5, S6, app_assoc; reflexivity|].
      apply Forall_app. split; [exact S7|]. eapply Forall_impl; [|exact T6]. intros y [Y1 Y2]. split; [apply S5, Y1|exact Y2]. }
  destruct P as (S1 & S2 & S3 & S4 & _ & S6). split; [apply S1, S3|]. split; [exact S4|exact S6].
Qed.
Print Assumptions C64_all_hang.

(** C64: and whoever is about to register or to dispose gets there with its next step,
    unless somebody is there already. *)
Theorem C64_gets_there : forall ms n j s, to_write (stacks s j) -> ann s = None ->
  exists s', lstep ms j n s = Some s' /\ in_lock (stacks s' j).
Proof.
  intros ms n j s [(p & once & l & st & E)|(w & st & E)] A; unfold lstep; rewrite E, A; eexists; (split; [reflexivity|]);
    cbn [stacks]; rewrite set_same; do 2 eexists; reflexivity.
Qed.
Print Assumptions C64_gets_there.

(** Goroutine 0 is in matcher 1 when it panics; goroutine 1 registers, and goroutine 2
    then waits, for a request that would be accepted. *)
Example C64_all_hang_ex :
  let prog i := match i with 0 => [LServe 9] | 1 => [LRegister 7 false] | 2 => [LServe 1] | _ => [] end in
  let s := lrun looks [(0, 0); (0, 0)] (lstart [(1, false)] prog) in
  in_matcher (stacks s 0) /\ to_write (stacks s 1) /\ ann s = None
  /\ fin (lrun looks (repeat (2, 0) 3) s) = [(2, Found (Some (1, false)))]
  /\ in_lock (stacks (lrun looks [(1, 0)] s) 1) /\ fin (lrun looks ((1, 0) :: repeat (2, 0) 3) s) = [].
Proof.
  cbn zeta. split; [exists (1, false), [], 9; right; left; reflexivity|]. split; [left; do 4 eexists; reflexivity|]. split; [reflexivity|].
  split; [vm_compute; reflexivity|]. split; [do 2 eexists; reflexivity|vm_compute; reflexivity].
Qed.
