(** C125: with matchers that leave the multiplexer alone, the multiplexer with its lock
    does what the multiplexer of MuxModel does. *)
From Verif Require Import MuxModel MuxFacts.
From Verif Require Import LockModel LockSpec LockFacts LockTieSpec P_Lock.

Lemma pick_rel n : forall e0 l x0 m e rest, same_entry e0 x0 -> Forall2 same_entry l m -> pick n e0 l = (e, rest) ->
  same_entry e (fst (choose n x0 m)) /\ Forall2 same_entry rest (snd (choose n x0 m)).
Proof.
  induction n as [|n IH]; intros e0 l x0 m e rest H F P; [injection P as <- <-; auto|].
  revert P. destruct F as [|f y l m Hf F]; intro P; [injection P as <- <-; cbn; auto|]. cbn in P |- *. destruct (pick n f l) as [e' rest'] eqn:E. injection P as <- <-.
  destruct (IH _ _ _ _ _ _ Hf F E) as [I1 I2]. destruct (choose n y m) as [x' r']. cbn in *. auto.
Qed.

Lemma same_key e x p : same_entry e x -> mkey_eqb (ekey e) (KPtr p) = (fst x =? p).
Proof. intros ->. reflexivity. Qed.

Lemma registered_rel p l m : Forall2 same_entry l m -> registered (KPtr p) l = there p m.
Proof. induction 1 as [|e x l m H F IH]; [reflexivity|]. unfold registered, there in *. cbn [existsb]. rewrite IH, (same_key _ _ _ H). reflexivity. Qed.

Lemma removed_rel p l m : Forall2 same_entry l m -> Forall2 same_entry (removed (KPtr p) l) (apply (Remove p) m).
Proof.
  induction 1 as [|e x l m H F IH]; [constructor|]. unfold removed, apply in *. cbn [filter]. rewrite (same_key _ _ _ H). destruct (fst x =? p); cbn [negb]; [exact IH|now constructor].
Qed.

Lemma there_present p es : there p es = true <-> present p es.
Proof.
  unfold there, present. rewrite existsb_exists. split.
  - intros ([q o] & Hin & E). apply Nat.eqb_eq in E. cbn in E. subst q. now exists o.
  - intros (o & Hin). exists (p, o). split; [exact Hin|apply Nat.eqb_refl].
Qed.
Lemma absent_present p es : there p es = false -> ~ present p es.
Proof. intros H K. apply there_present in K. congruence. Qed.

Lemma absent_filter p es : there p es = false -> apply (Remove p) es = es.
Proof.
  induction es as [|x es IH]; [reflexivity|]. cbn. destruct (fst x =? p); [discriminate|]. cbn. intro H. f_equal. apply IH, H.
Qed.

Definition tied (ask : nat -> Request) (st : list frame) (t : mthread) : Prop :=
  exists l, match st with
  | [Todo l'] => l' = l /\ mat t = MIdle
  | [Looking rest r; Todo l'] => l' = l /\ exists snap rest', mat t = MScan snap rest' (ask r) (ask r) /\ Forall2 same_entry rest' rest
  | [Todo k; Asking x rest r; Todo l'] => l' = l /\ k = [] /\ exists snap e0 rest0 n e rest',
      mat t = MScan snap (e0 :: rest0) (ask r) (ask r) /\ pick n e0 rest0 = (e, rest') /\ same_entry e x /\ Forall2 same_entry rest' rest
  | [Wants (Remove p); Todo l'] | [Announced (Remove p); Todo l'] =>
      l' = l /\ exists snap e r, mat t = MTaking snap e (ask r) (ask r) /\ same_entry e (p, true)
  | [Announced (Add p once); Todo l'] => l = LRegister p once :: l' /\ mat t = MIdle
  | _ => False
  end /\ mtodo t = map (same_op ask) l.

Definition tie (ask : nat -> Request) (M : mux) (s : lmux) : Prop :=
  Forall2 same_entry (entries M) (ents s) /\ (forall j, In j (readers M) <-> In j (rds s))
  /\ (forall j, tied ask (stacks s j) (mthreads M j)) /\ Forall2 same_end (mresults M) (fin s).

Lemma readers_none M s : (forall j, In j (readers M) <-> In j (rds s)) -> rds s = [] -> readers M = [].
Proof. intros H R. destruct (readers M) as [|j l]; [reflexivity|]. assert (X : In j (rds s)) by (apply H; now left). rewrite R in X. destruct X. Qed.

Lemma dropped M s i : NoDup (rds s) -> (forall j, In j (readers M) <-> In j (rds s)) ->
  forall j, In j (drop_reader i (readers M)) <-> In j (release i (rds s)).
Proof.
  intros ND H j. rewrite drop_reader_in, H. split.
  - intros [K N]. apply (count_occ_In Nat.eq_dec). rewrite release_count. apply (count_occ_In Nat.eq_dec) in K. destruct (Nat.eq_dec i j); [congruence|lia].
  - intro K. split; [apply (release_incl i), K|]. intros ->. destruct (release_nodup i (rds s) ND) as [_ X]. auto.
Qed.

Lemma tie_step ms ask fs i n M s s' : quiet ms -> (forall p r, fs p (ask r) = Says (says ms p r) (ask r)) ->
  sound s -> (forall j, flat (stacks s j)) -> tie ask M s -> lstep ms i n s = Some s' ->
  exists sch, tie ask (mrun fs sch M) s'.
Proof.
  intros Qt Hf So Fl (T1 & T2 & T3 & T4) H. pose proof (Fl i) as Fi. pose proof (T3 i) as Ti. pose proof (sound_nodup s So Fl) as ND.
  assert (Upd : forall st t, tied ask st t -> forall j, tied ask (set i st (stacks s) j) (mupd i t M j)).
  { intros st t Ht j. unfold set, mupd. destruct (j =? i); [exact Ht|apply T3]. }
  unfold lstep in H. destruct Fi as [l|rest r l|x rest r l|w l|w l]; destruct Ti as (l0 & Ti & Td); cbn beta iota in Ti.
  - destruct Ti as [<- Ma]. destruct l as [|[p once|r] l]; [discriminate| |].
    + destruct (ann s); [discriminate|]. injection H as <-. exists []. split; [exact T1|]. split; [exact T2|]. split; [|exact T4].
      intro j. cbn [stacks mrun fold_left]. unfold set. destruct (Nat.eqb_spec j i) as [->|N]; [|apply T3].
      exists (LRegister p once :: l). split; [split; [reflexivity|exact Ma]|exact Td].
    + destruct (ann s); [discriminate|]. injection H as <-. exists [(i, 0)]. cbn [mrun fold_left]. unfold mact. cbn [fst snd]. unfold mstep.
      rewrite Ma, Td. cbn [map same_op]. split; [exact T1|]. split; [intro j; cbn; rewrite T2; reflexivity|]. split; [|exact T4].
      cbn [stacks mthreads]. apply Upd. exists l. split; [split; [reflexivity|]; eexists _, _; split; [reflexivity|exact T1]|reflexivity].
  - destruct Ti as [<- (snap & rest' & Ma & Fr)]. destruct rest as [|x0 rest].
    + injection H as <-. inversion Fr; subst. exists [(i, 0)]. cbn [mrun fold_left]. unfold mact. cbn [fst snd]. unfold mstep. rewrite Ma.
      split; [exact T1|]. split; [apply dropped; assumption|]. split.
      * cbn [stacks mthreads]. apply Upd. exists l. split; [split; reflexivity|exact Td].
      * cbn. apply Forall2_app; [exact T4|]. constructor; [|constructor]. split; [reflexivity|]. cbn. do 2 eexists. reflexivity.
    + inversion Fr as [|e0 ? rest0 ? He Fr']; subst. destruct (choose n x0 rest) as [x rest1] eqn:C. injection H as <-. rewrite Qt.
      exists []. split; [exact T1|]. split; [exact T2|]. split; [|exact T4].
      intro j. cbn [stacks mrun fold_left]. unfold set. destruct (Nat.eqb_spec j i) as [->|N]; [|apply T3].
      destruct (pick n e0 rest0) as [e rest2] eqn:P. pose proof (pick_rel _ _ _ _ _ _ _ He Fr' P) as [R1 R2]. rewrite C in R1, R2. cbn in R1, R2.
      exists l. split; [split; [reflexivity|]; split; [reflexivity|]; exists snap, e0, rest0, n, e, rest2; auto|exact Td].
  - destruct Ti as [<- (_ & snap & e0 & rest0 & m & e & rest' & Ma & P & Se & Fr)].
    assert (Mt : match_of fs (ekey e) (ask r) = Says (says ms (fst x) r) (ask r)) by (rewrite Se; apply Hf).
    assert (On : eonce e = snd x) by (rewrite Se; reflexivity).
    exists [(i, m)]. cbn [mrun fold_left]. unfold mact. cbn [fst snd]. unfold mstep. rewrite Ma, P, Mt.
    destruct (says ms (fst x) r); [rewrite On; destruct (snd x) eqn:Ox|]; injection H as <-.
    + split; [exact T1|]. split; [apply dropped; assumption|]. split; [|exact T4].
      cbn [stacks mthreads]. apply Upd. exists l. split; [split; [reflexivity|]; exists snap, e, r; split; [reflexivity|]|exact Td].
      unfold same_entry in *. cbn [fst snd]. rewrite <- Ox. exact Se.
    + split; [exact T1|]. split; [apply dropped; assumption|]. split.
      * cbn [stacks mthreads]. apply Upd. exists l. split; [split; reflexivity|exact Td].
      * cbn. apply Forall2_app; [exact T4|]. constructor; [|constructor]. split; [reflexivity|]. cbn. split; [exact Ox|]. do 3 eexists. split; [reflexivity|exact Se].
    + split; [exact T1|]. split; [exact T2|]. split; [|exact T4].
      cbn [stacks mthreads]. apply Upd. exists l. split; [split; [reflexivity|]; exists snap, rest'; auto|exact Td].
  - destruct (ann s); [discriminate|]. injection H as <-. exists []. split; [exact T1|]. split; [exact T2|]. split; [|exact T4].
    intro j. cbn [stacks mrun fold_left]. unfold set. destruct (Nat.eqb_spec j i) as [->|N]; [|apply T3]. exists l0. split; [|exact Td].
    destruct w; [destruct Ti|exact Ti].
  - destruct (rds s) as [|k ks] eqn:R; [|discriminate]. injection H as <-.
    assert (Rn : readers M = []) by (apply (readers_none M s); [rewrite R; exact T2|exact R]).
    destruct w as [p once|p].
    + destruct Ti as [-> Ma]. exists [(i, 0)]. cbn [mrun fold_left]. unfold mact. cbn [fst snd]. unfold mstep. rewrite Ma, Td, Rn. cbn [map same_op].
      unfold register. rewrite (registered_rel p _ _ T1). cbn [apply]. destruct (there p (ents s)) eqn:Th.
      * split; [exact T1|]. split; [intro j; reflexivity|]. split.
        -- cbn [stacks mthreads]. apply Upd. exists l. split; [split; reflexivity|reflexivity].
        -- cbn. apply Forall2_app; [exact T4|]. constructor; [|constructor]. split; [reflexivity|]. cbn. left. split; [now apply there_present|reflexivity].
      * split; [constructor; [reflexivity|exact T1]|]. split; [intro j; reflexivity|]. split.
        -- cbn [stacks mthreads]. apply Upd. exists l. split; [split; reflexivity|reflexivity].
        -- cbn. apply Forall2_app; [exact T4|]. constructor; [|constructor]. split; [reflexivity|]. cbn. right. split; [now apply absent_present|]. eexists. split; reflexivity.
    + destruct Ti as [<- (snap & e & r & Ma & Se)]. exists [(i, 0)]. cbn [mrun fold_left]. unfold mact. cbn [fst snd]. unfold mstep. rewrite Ma, Rn.
      assert (Ek : ekey e = KPtr p) by (rewrite Se; reflexivity). rewrite Ek, (registered_rel p _ _ T1). destruct (there p (ents s)) eqn:Th.
      * split; [apply removed_rel, T1|]. split; [intro j; reflexivity|]. split.
        -- cbn [stacks mthreads]. apply Upd. exists l. split; [split; reflexivity|exact Td].
        -- cbn. apply Forall2_app; [exact T4|]. constructor; [|constructor]. split; [reflexivity|]. cbn. do 2 eexists. left. split; [now apply there_present|]. eexists. split; [reflexivity|exact Se].
      * split; [cbn [ents entries]; rewrite (absent_filter _ _ Th); exact T1|]. split; [intro j; reflexivity|]. split.
        -- cbn [stacks mthreads]. apply Upd. exists l. split; [split; reflexivity|exact Td].
        -- cbn. apply Forall2_app; [exact T4|]. constructor; [|constructor]. split; [reflexivity|]. cbn. do 2 eexists. right. split; [now apply absent_present|reflexivity].
Qed.

(** C125: with matchers that leave the multiplexer alone, every run under the lock has
    the entries and outcomes of a run of the multiplexer of C21 - C25, so what is
    proved there holds under the lock. *)
Theorem C125_as_without_lock : forall ms ask fs prog sch, quiet ms -> (forall p r, fs p (ask r) = Says (says ms p r) (ask r)) ->
  let s := lrun ms sch (lstart [] prog) in
  exists sch', let x := mrun fs sch' (mstart (fun i => map (same_op ask) (prog i))) in
  Forall2 same_entry (entries x) (ents s) /\ Forall2 same_end (mresults x) (fin s).
Proof.
  intros ms ask fs prog sch Qt Hf. cbn zeta.
  assert (P : exists sch', tie ask (mrun fs sch' (mstart (fun i => map (same_op ask) (prog i)))) (lrun ms sch (lstart [] prog))).
  { induction sch as [|a sch IH] using rev_ind.
    - exists []. split; [constructor|]. split; [intro j; reflexivity|]. split; [|constructor]. intro j. exists (prog j). split; [split; reflexivity|reflexivity].
    - destruct IH as [sch' T]. unfold lrun in *. rewrite fold_left_app. cbn [fold_left]. unfold lact at 1.
      destruct (lstep ms (fst a) (snd a) (fold_left (lact ms) sch (lstart [] prog))) as [s'|] eqn:E; [|exists sch'; exact T].
      destruct (tie_step ms ask fs _ _ _ _ _ Qt Hf (sound_run ms [] prog sch) (flat_run ms [] prog sch Qt) T E) as [more T'].
      exists (sch' ++ more). unfold mrun in *. rewrite fold_left_app. exact T'. }
  destruct P as (sch' & T1 & _ & _ & T4). exists sch'. split; assumption.
Qed.
Print Assumptions C125_as_without_lock.

(** The transaction of a request is the matcher that accepts it; two goroutines race
    for a disposable entry. *)
Example C125_as_without_lock_ex :
  let ask r := MkRequest (MkHeader 4 2 0 (N.of_nat r)) (BCopy None [] None false) 1 3 0 in
  let fs p q := Says (N.of_nat p =? Header_Transaction (Request_Header q))%N q in
  let prog i := match i with 0 => [LRegister 1 true; LRegister 1 false; LServe 1] | 1 => [LServe 1] | _ => [] end in
  quiet looks /\ (forall p r, fs p (ask r) = Says (says looks p r) (ask r))
  /\ fin (lrun looks (repeat (0, 0) 7 ++ repeat (1, 0) 3 ++ [(0, 0); (1, 0); (1, 0); (0, 0); (0, 0); (1, 0); (1, 0)]) (lstart [] prog))
     = [(0, Wrote (Add 1 true) []); (0, Wrote (Add 1 false) [(1, true)]); (0, Wrote (Remove 1) [(1, true)]); (1, Wrote (Remove 1) [])].
Proof.
  cbn zeta. split; [intros p r; reflexivity|]. split; [|vm_compute; reflexivity].
  intros p r. cbn. f_equal. destruct (N.eqb_spec (N.of_nat p) (N.of_nat r)); destruct (Nat.eqb_spec p r); try reflexivity; lia.
Qed.
