(** C125: matchers that use the multiplexer they are registered with, and how long
    registrations wait. *)
From Verif Require Import LockModel LockSpec LockFacts.

Definition blocked (st : list frame) : Prop := to_read st \/ to_write st \/ in_lock st.

Lemma holder_in s i : sound s -> 0 < holds (stacks s i) -> In i (rds s).
Proof. intros (_ & Ct & _) H. apply (count_occ_In Nat.eq_dec). rewrite Ct. exact H. Qed.
Lemma in_holder s i : sound s -> In i (rds s) -> 0 < holds (stacks s i).
Proof. intros (_ & Ct & _) H. rewrite <- Ct. now apply (count_occ_In Nat.eq_dec). Qed.

Lemma release_incl i l : incl (release i l) l.
Proof.
  induction l as [|j l IH]; [intros x []|]. cbn. destruct (j =? i); [intros x H; now right|]. intros x [->|H]; [now left|right; now apply IH].
Qed.

Lemma sound_next ms i s s' : sound s -> ltrans ms i s s' -> sound s'.
Proof. intros (Sh & Ct & An) H. split; [eapply shaped_step; eauto|]. split; [eapply count_step; eauto|eapply ann_step; eauto]. Qed.

Lemma hung_step ms k i j s s' : sound s -> in_matcher (stacks s i) -> ann s = Some j -> blocked (stacks s i) -> ltrans ms k s s' ->
  stacks s' i = stacks s i /\ ann s' = Some j /\ ents s' = ents s /\ incl (rds s') (rds s)
  /\ exists new, fin s' = fin s ++ new /\ Forall (fun y => In (fst y) (rds s) /\ exists e, snd y = Found e) new.
Proof.
  intros So M A B H. pose proof (holder_in s i So (in_matcher_holds _ M)) as R.
  assert (K : k <> i -> forall st, set k st (stacks s) i = stacks s i) by (intros N st; apply set_other; congruence).
  assert (Hk : 0 < holds (stacks s k) -> In k (rds s)) by apply (holder_in s k So).
  assert (Ki : k = i -> False).
  { intros ->. destruct B as [(r & l & st & E)|[[(p & o & l & st & E)|(w & st & E)]|(w & st & E)]]; rewrite E in *;
      destruct H; try congruence. rewrite H0 in R. destruct R. }
  destruct H as [r l st E A' ->|p once l st E A' ->|w st E A' ->|w st E R' ->|r st E ->|e0 rest0 e rest r st E L I ->
    |e rest r st E Y O ->|e rest r st E Y O ->|e rest r st E Y ->]; try congruence;
  try (rewrite R' in R; destruct R); cbn [stacks ann ents rds fin]; rewrite E, ?holds_cons in Hk;
  (split; [apply K; intro; auto|]); (split; [exact A|]); (split; [reflexivity|]);
  (split; [first [apply release_incl|apply incl_refl]|]); try (exists []; split; [now rewrite app_nil_r|constructor]);
  eexists; (split; [reflexivity|]); repeat constructor; cbn [fst snd]; eauto; apply Hk; lia.
Qed.

(** C125: once a goroutine that asks a matcher is about to dispatch or register
    again, or is in Lock, while a goroutine (itself or another) is in Lock, both
    hang for ever, nothing is registered or removed any more, and no dispatch ends
    but those that were searching at that moment. *)
Theorem C125_hangs : forall ms es prog sch sch' i j, let s := lrun ms sch (lstart es prog) in let s' := lrun ms sch' s in
  in_matcher (stacks s i) -> to_read (stacks s i) \/ to_write (stacks s i) \/ in_lock (stacks s i) -> in_lock (stacks s j) ->
  stacks s' i = stacks s i /\ in_lock (stacks s' j) /\ ents s' = ents s
  /\ exists new, fin s' = fin s ++ new /\ Forall (fun y => In (fst y) (rds s) /\ exists e, snd y = Found e) new.
Proof.
  intros ms es prog sch sch' i j s s' M B J. pose proof (sound_run ms es prog sch) as So. fold s in So.
  assert (A : ann s = Some j) by (apply So; exact J).
  assert (P : sound s' /\ stacks s' i = stacks s i /\ ann s' = Some j /\ ents s' = ents s /\ incl (rds s') (rds s)
    /\ exists new, fin s' = fin s ++ new /\ Forall (fun y => In (fst y) (rds s) /\ exists e, snd y = Found e) new).
  { unfold s'. apply (lrun_inv ms (fun x => sound x /\ stacks x i = stacks s i /\ ann x = Some j /\ ents x = ents s /\ incl (rds x) (rds s)
      /\ exists new, fin x = fin s ++ new /\ Forall (fun y => In (fst y) (rds s) /\ exists e, snd y = Found e) new)).
    - intros k x x' (S1 & S2 & S3 & S4 & S5 & new & S6 & S7) H.
      destruct (hung_step ms k i j x x' S1) as (T1 & T2 & T3 & T4 & new' & T5 & T6); try rewrite S2; auto.
      split; [eapply sound_next; eauto|]. split; [congruence|]. split; [exact T2|]. split; [congruence|].
      split; [eapply incl_tran; eauto|]. exists (new ++ new'). split; [rewrite T5, S6, app_assoc; reflexivity|].
      apply Forall_app. split; [exact S7|]. eapply Forall_impl; [|exact T6]. intros y [Y1 Y2]. split; [apply S5, Y1|exact Y2].
    - split; [exact So|]. split; [reflexivity|]. split; [exact A|]. split; [reflexivity|]. split; [apply incl_refl|].
      exists []. split; [now rewrite app_nil_r|constructor]. }
  destruct P as (S1 & S2 & S3 & S4 & _ & S6). split; [exact S2|]. split; [apply S1, S3|]. split; [exact S4|exact S6].
Qed.
Print Assumptions C125_hangs.

(** C125: a matcher that registers, or dispatches to a disposable entry, on the
    multiplexer that asks it never returns, and neither does the dispatch that
    asked, whatever the other goroutines do. *)
Theorem C125_write_inside : forall ms es prog sch sch' i, let s := lrun ms sch (lstart es prog) in let s' := lrun ms sch' s in
  in_matcher (stacks s i) -> to_write (stacks s i) \/ in_lock (stacks s i) ->
  in_matcher (stacks s' i) /\ (to_write (stacks s' i) \/ in_lock (stacks s' i))
  /\ filter (fun y => fst y =? i) (fin s') = filter (fun y => fst y =? i) (fin s).
Proof.
  intros ms es prog sch sch' i s s' M B. pose proof (sound_run ms es prog sch) as So. fold s in So.
  assert (P : sound s' /\ in_matcher (stacks s' i) /\ (to_write (stacks s' i) \/ in_lock (stacks s' i))
     /\ filter (fun y => fst y =? i) (fin s') = filter (fun y => fst y =? i) (fin s)); [|tauto].
  unfold s'. apply (lrun_inv ms (fun x => sound x /\ in_matcher (stacks x i) /\ (to_write (stacks x i) \/ in_lock (stacks x i))
     /\ filter (fun y => fst y =? i) (fin x) = filter (fun y => fst y =? i) (fin s))); [|tauto].
  intros k x x' (S1 & S2 & S3 & S4) H. pose proof (sound_next _ _ _ _ S1 H) as S1'. split; [exact S1'|].
  destruct (Nat.eq_dec k i) as [Ek|N].
  - subst k. pose proof (holder_in x i S1 (in_matcher_holds _ S2)) as R.
    assert (Inm : forall f st, in_matcher (f :: st) -> match f with Asking _ _ _ => False | _ => True end -> in_matcher st).
    { intros f st (e & rest & r & [->|Hin]) F; [destruct F|]. now exists e, rest, r. }
    destruct S3 as [[(p & o & l & st & E)|(w & st & E)]|(w & st & E)]; rewrite E in *; destruct H; try congruence; subst; cbn [stacks fin]; rewrite set_same;
      try (rewrite H0 in R; destruct R).
    + rewrite E in H. injection H as <- <- <- <-. apply Inm in S2; [|exact I]. split; [|split; [right; do 2 eexists; reflexivity|exact S4]].
      destruct S2 as (e & rest & r & Hin). exists e, rest, r. right. right. exact Hin.
    + rewrite E in H. injection H as <- <-. apply Inm in S2; [|exact I]. split; [|split; [right; do 2 eexists; reflexivity|exact S4]].
      destruct S2 as (e & rest & r & Hin). exists e, rest, r. right. exact Hin.
  - assert (Nf : forall d, filter (fun y => fst y =? i) (fin x ++ [(k, d)]) = filter (fun y => fst y =? i) (fin x)).
    { intro d. rewrite filter_app. cbn. destruct (Nat.eqb_spec k i); [congruence|]. apply app_nil_r. }
    destruct H as [r l st E A' ->|p once l st E A' ->|w st E A' ->|w st E R' ->|r st E ->|e0 rest0 e rest r st E L I' ->
      |e rest r st E Y O ->|e rest r st E Y O ->|e rest r st E Y ->]; cbn [stacks fin]; rewrite set_other by congruence; rewrite ?Nf; auto.
Qed.
Print Assumptions C125_write_inside.

(** ** Matchers that only dispatch *)
Definition harmless (f : frame) : Prop :=
  match f with
  | Todo l => no_registrations l
  | Looking rest _ => Forall (fun e => snd e = false) rest
  | Asking e rest _ => snd e = false /\ Forall (fun e => snd e = false) rest
  | Wants _ | Announced _ => False
  end.

(** C125: matchers may dispatch on the multiplexer that asks them as long as nothing
    is registered meanwhile and no entry is disposable: every goroutine that has
    something to do can go on at any time. *)
Theorem C125_read_inside : forall ms es prog sch i n, let s := lrun ms sch (lstart es prog) in
  Forall (fun e => snd e = false) es -> (forall j, no_registrations (prog j)) -> (forall p r, no_registrations (inner ms p r)) ->
  unfinished s i -> lstep ms i n s <> None.
Proof.
  intros ms es prog sch i n s He Hp Hi U. pose proof (sound_run ms es prog sch) as So. fold s in So.
  assert (P : ann s = None /\ ents s = es /\ forall j, Forall harmless (stacks s j)).
  { unfold s. apply (lrun_inv ms (fun x => ann x = None /\ ents x = es /\ forall j, Forall harmless (stacks x j))).
    - intros k x x' (A & E' & Q) H. pose proof (Q k) as Qk.
      assert (One : forall st, Forall harmless st -> forall j, Forall harmless (set k st (stacks x) j)).
      { intros st Hs j. destruct (Nat.eq_dec j k) as [Ej|N]; [subst j; rewrite set_same; exact Hs|rewrite set_other by exact N; apply Q]. }
      destruct H as [r l st E A' ->|p once l st E A' ->|w st E A' ->|w st E R' ->|r st E ->|e0 rest0 e rest r st E L I' ->
        |e rest r st E Y O ->|e rest r st E Y O ->|e rest r st E Y ->]; rewrite E in Qk; cbn [ann ents stacks].
      + split; [reflexivity|]. split; [exact E'|]. apply One. inversion Qk as [|? ? K1 K2]; subst. constructor; [exact He|]. constructor; [|exact K2].
        intros p o Hin. apply (K1 p o). right. exact Hin.
      + inversion Qk as [|? ? K1 K2]; subst. destruct (K1 p once). left. reflexivity.
      + inversion Qk as [|? ? K1 K2]; subst. destruct K1.
      + inversion Qk as [|? ? K1 K2]; subst. destruct K1.
      + split; [exact A|]. split; [exact E'|]. apply One. inversion Qk; assumption.
      + split; [exact A|]. split; [exact E'|]. apply One. inversion Qk as [|? ? K1 K2]; subst. cbn in K1. rewrite Forall_forall in K1.
        constructor; [apply Hi|]. constructor; [|exact K2]. split; [apply K1, I'; now left|]. apply Forall_forall. intros y Hy. apply K1, I'. now right.
      + inversion Qk as [|? ? K1 K2]; subst. inversion K2 as [|? ? K3 K4]; subst. destruct K3. congruence.
      + split; [exact A|]. split; [exact E'|]. apply One. inversion Qk as [|? ? K1 K2]; subst. inversion K2; assumption.
      + split; [exact A|]. split; [exact E'|]. apply One. inversion Qk as [|? ? K1 K2]; subst. inversion K2 as [|? ? K3 K4]; subst.
        constructor; [exact (proj2 K3)|exact K4].
    - split; [reflexivity|]. split; [reflexivity|]. intro j. repeat constructor. apply Hp. }
  destruct P as (A & _ & Q). specialize (Q i). pose proof (proj1 So i) as Sh. unfold unfinished in U. unfold lstep.
  destruct (stacks s i) as [|[[|[p once|r] l]|[|e0 rest0] r|e rest r|w|w] st] eqn:E.
  - inversion Sh as [? B| | |]; subst; inversion B.
  - destruct (shaped_cons _ _ Sh) as [->|(e & rest & r & st' & -> & _)]; [congruence|]. destruct (says ms (fst e) r); [destruct (snd e)|]; discriminate.
  - inversion Q as [|? ? K1 K2]; subst. destruct (K1 p once). left. reflexivity.
  - rewrite A. discriminate.
  - discriminate.
  - destruct (choose n e0 rest0). discriminate.
  - destruct (shaped_cons _ _ Sh).
  - inversion Q as [|? ? K1 K2]; subst. destruct K1.
  - inversion Q as [|? ? K1 K2]; subst. destruct K1.
Qed.
Print Assumptions C125_read_inside.

(** ** Matchers that leave the multiplexer alone *)
Inductive flat : list frame -> Prop :=
| fl_todo l : flat [Todo l]
| fl_look rest r l : flat [Looking rest r; Todo l]
| fl_ask e rest r l : flat [Todo []; Asking e rest r; Todo l]
| fl_wants w l : flat [Wants w; Todo l]
| fl_ann w l : flat [Announced w; Todo l].

Lemma flat_step ms k s s' : quiet ms -> (forall j, flat (stacks s j)) -> ltrans ms k s s' -> forall j, flat (stacks s' j).
Proof.
  intros Qt F H. pose proof (F k) as Fk.
  assert (One : forall st, flat st -> forall j, flat (set k st (stacks s) j)).
  { intros st Hs j. destruct (Nat.eq_dec j k) as [Ej|N]; [subst j; rewrite set_same; exact Hs|rewrite set_other by exact N; apply F]. }
  destruct H as [r l st E A' ->|p once l st E A' ->|w st E A' ->|w st E R' ->|r st E ->|e0 rest0 e rest r st E L I' ->
    |e rest r st E Y O ->|e rest r st E Y O ->|e rest r st E Y ->]; rewrite E in Fk; cbn [stacks]; apply One; inversion Fk; subst; rewrite ?Qt; constructor.
Qed.

Lemma flat_run ms es prog sch : quiet ms -> forall j, flat (stacks (lrun ms sch (lstart es prog)) j).
Proof. intro Qt. apply (lrun_inv ms (fun s => forall j, flat (stacks s j))); [intros; eapply flat_step; eauto|constructor]. Qed.

Lemma holder_moves ms s k n : sound s -> (forall j, flat (stacks s j)) -> In k (rds s) -> lstep ms k n s <> None.
Proof.
  intros So F R. apply in_holder in R; [|exact So]. specialize (F k). unfold lstep. destruct F; cbn in R; try lia.
  - destruct rest as [|e rest]; [discriminate|]. destruct (choose n e rest). discriminate.
  - destruct (says ms (fst e) r); [destruct (snd e)|]; discriminate.
Qed.

(** C125: with other matchers nobody hangs: while a goroutine has something to do, one
    of them can go on. *)
Theorem C125_quiet_progress : forall ms es prog sch i, let s := lrun ms sch (lstart es prog) in
  quiet ms -> unfinished s i -> exists j, forall n, lstep ms j n s <> None.
Proof.
  intros ms es prog sch i s Qt U. pose proof (sound_run ms es prog sch) as So. pose proof (flat_run ms es prog sch Qt) as F. fold s in So, F.
  destruct (rds s) as [|k rs] eqn:R; [|exists k; intro n; apply holder_moves; auto; rewrite R; now left].
  destruct (ann s) as [j|] eqn:A.
  - exists j. intro n. destruct (proj1 (proj2 (proj2 So) j) A) as (w & st & E). unfold lstep. rewrite E, R. discriminate.
  - exists i. intro n. pose proof (proj2 (proj2 So) i) as Ai. rewrite A in Ai. unfold unfinished in U. specialize (F i). unfold lstep. destruct F.
    + destruct l as [|[p o|r] l]; [congruence| |]; rewrite A; discriminate.
    + destruct rest as [|e rest]; [discriminate|]. destruct (choose n e rest). discriminate.
    + destruct (says ms (fst e) r); [destruct (snd e)|]; discriminate.
    + rewrite A. discriminate.
    + assert (X : None = Some i) by (apply Ai; do 2 eexists; reflexivity). discriminate X.
Qed.
Print Assumptions C125_quiet_progress.

Lemma flat_holds st : flat st -> holds st <= 1.
Proof. destruct 1; cbn; lia. Qed.

Lemma sum_same (f g : nat -> nat) l : (forall j, In j l -> f j = g j) -> list_sum (map f l) = list_sum (map g l).
Proof. intro H. f_equal. apply map_ext_in. exact H. Qed.

Lemma sum_release (f : nat -> nat) k l : In k l -> list_sum (map f (release k l)) + f k = list_sum (map f l).
Proof.
  induction l as [|j l IH]; [intros []|]. intro H. cbn [release map list_sum fold_right]. unfold list_sum in *.
  destruct (Nat.eqb_spec j k) as [->|N]; [lia|]. destruct H as [->|H]; [congruence|]. cbn [map fold_right]. specialize (IH H). lia.
Qed.

Lemma sum_one (f g : nat -> nat) k l : NoDup l -> In k l -> (forall j, j <> k -> g j = f j) ->
  list_sum (map g l) + f k = list_sum (map f l) + g k.
Proof.
  intros ND H E. induction ND as [|j l N ND IH]; [destruct H|]. cbn [map list_sum fold_right]. unfold list_sum in *. destruct H as [->|H].
  - assert (X : map g l = map f l) by (apply map_ext_in; intros j Hj; apply E; intros ->; auto). rewrite X. lia.
  - rewrite (E j) by (intros ->; auto). specialize (IH H). lia.
Qed.

Lemma release_nodup k l : NoDup l -> NoDup (release k l) /\ ~ In k (release k l).
Proof.
  induction 1 as [|j l N ND IH]; [split; [constructor|intros []]|]. cbn. destruct (Nat.eqb_spec j k) as [->|M]; [auto|].
  destruct IH as [I1 I2]. split; [constructor; [intro H; apply N, (release_incl k l), H|exact I1]|]. intros [->|H]; [congruence|auto].
Qed.

Definition load (s : lmux) : nat := list_sum (map (fun j => to_look (stacks s j)) (rds s)).

Lemma sound_nodup s : sound s -> (forall j, flat (stacks s j)) -> NoDup (rds s).
Proof.
  intros (_ & Ct & _) F. apply (NoDup_count_occ Nat.eq_dec). intro j. rewrite Ct. apply flat_holds, F.
Qed.

Lemma load_step ms i k n s s' : sound s -> (forall j, flat (stacks s j)) -> ann s = Some i -> k <> i -> lstep ms k n s = Some s' ->
  In k (rds s) /\ ann s' = Some i /\ incl (rds s') (rds s) /\ load s' < load s.
Proof.
  intros So F A N H. apply lstep_trans in H. pose proof (sound_nodup s So F) as ND. pose proof (F k) as Fk.
  assert (K : In k (rds s)).
  { apply holder_in; [exact So|]. destruct H as [r l st E A' ->|p once l st E A' ->|w st E A' ->|w st E R' ->|r st E ->|e0 rest0 e rest r st E L I' ->
    |e rest r st E Y O ->|e rest r st E Y O ->|e rest r st E Y ->]; try congruence; rewrite E, ?holds_cons; try lia.
    assert (X : ann s = Some k) by (apply So; rewrite E; do 2 eexists; reflexivity). congruence. }
  split; [exact K|]. pose proof (release_nodup k _ ND) as [RN RK].
  assert (Out : forall st, list_sum (map (fun j => to_look (set k st (stacks s) j)) (release k (rds s))) + to_look (stacks s k) = load s).
  { intro st. unfold load. rewrite <- (sum_release (fun j => to_look (stacks s j)) k (rds s) K). f_equal. apply sum_same.
    intros j Hj. rewrite set_other; [reflexivity|]. intros ->. auto. }
  assert (Same : forall st, list_sum (map (fun j => to_look (set k st (stacks s) j)) (rds s)) + to_look (stacks s k) = load s + to_look st).
  { intro st. rewrite (sum_one (fun j => to_look (stacks s j)) (fun j => to_look (set k st (stacks s) j)) k (rds s) ND K);
      [rewrite set_same; reflexivity|]. intros j Nj. now rewrite set_other. }
  destruct H as [r l st E A' ->|p once l st E A' ->|w st E A' ->|w st E R' ->|r st E ->|e0 rest0 e rest r st E L I' ->
    |e rest r st E Y O ->|e rest r st E Y O ->|e rest r st E Y ->]; try congruence; try (rewrite R' in K; destruct K);
    cbn [ann rds]; (split; [exact A|]); (split; [first [apply release_incl|apply incl_refl]|]); unfold load at 1; cbn [rds stacks].
  - specialize (Out st). rewrite E in Out. cbn [to_look] in Out. lia.
  - specialize (Same (Todo (inner ms (fst e) r) :: Asking e rest r :: st)). rewrite E in Same. cbn [to_look length] in Same. lia.
  - specialize (Out (Wants (Remove (fst e)) :: st)). rewrite E in Out. cbn [to_look] in Out. lia.
  - specialize (Out st). rewrite E in Out. cbn [to_look] in Out. lia.
  - specialize (Same (Looking rest r :: st)). rewrite E in Same. cbn [to_look] in Same. lia.
Qed.

(** C125: then a goroutine in Lock waits only for the searches that are going on when
    it arrives: whatever is scheduled, nobody else moves, they need no more steps
    than they have entries left to look at, each of them can go on, and when the
    last is done Lock can. *)
Theorem C125_writer_waits : forall ms es prog sch sch' i, quiet ms ->
  let s := lrun ms sch (lstart es prog) in let s' := lrun ms sch' s in
  in_lock (stacks s i) -> Forall (fun a => fst a <> i) sch' ->
  moved ms sch' s <= list_sum (map (fun j => to_look (stacks s j)) (rds s))
  /\ in_lock (stacks s' i) /\ incl (rds s') (rds s)
  /\ (forall j n, In j (rds s') -> lstep ms j n s' <> None)
  /\ (rds s' = [] -> forall n, lstep ms i n s' <> None).
Proof.
  intros ms es prog sch sch' i Qt s s' B N. pose proof (sound_run ms es prog sch) as So. pose proof (flat_run ms es prog sch Qt) as F. fold s in So, F.
  assert (A : ann s = Some i) by (apply So; exact B).
  assert (P : sound s' /\ (forall j, flat (stacks s' j)) /\ ann s' = Some i /\ incl (rds s') (rds s) /\ moved ms sch' s <= load s).
  { unfold s'. clearbody s. clear B s'. revert s So F A. induction N as [|[k n] sch' Nk N IH]; intros s So F A.
    - cbn. repeat split; auto; try apply So; [apply incl_refl|lia].
    - cbn [fst] in Nk. cbn [lrun fold_left moved]. unfold lact at 2 4 6 8. cbn [fst snd]. destruct (lstep ms k n s) as [x|] eqn:E; [|apply IH; assumption].
      destruct (load_step ms i k n s x So F A Nk E) as (K & A' & I' & L). apply lstep_trans in E.
      destruct (IH x (sound_next _ _ _ _ So E) (flat_step _ _ _ _ Qt F E) A') as (P1 & P2 & P3 & P4 & P5).
      split; [exact P1|]. split; [exact P2|]. split; [exact P3|]. split; [eapply incl_tran; eauto|]. lia. }
  destruct P as (P1 & P2 & P3 & P4 & P5). split; [exact P5|]. split; [apply P1; exact P3|]. split; [exact P4|]. split.
  - intros j n H. apply holder_moves; assumption.
  - intros R n. destruct (proj1 (proj2 (proj2 P1) i) P3) as (w & st & E). unfold lstep. rewrite E, R. discriminate.
Qed.
Print Assumptions C125_writer_waits.

(** Matcher 2 registers matcher 3 when it is asked, matcher 4 asks the multiplexer
    about request 0 when it is asked about request 9; matcher 1 only looks. *)
Definition users : matchers :=
  MkMatchers (fun p r => match p with 2 => [LRegister 3 false] | 4 => if r =? 9 then [LServe 0] else [] | _ => [] end)
             (fun p r => match p with 1 => r =? 8 | _ => r =? 9 end).
Definition looks : matchers := MkMatchers (fun _ _ => []) (fun p r => p =? r).

(** C125: a matcher that registers an entry stops the multiplexer for every
    goroutine. *)
Theorem C125_register_inside_refuted : exists es prog sch, es = [(2, false); (1, false)] /\ prog 0 = [LServe 9] /\ prog 1 = [LServe 8] /\
  forall sch', let s := lrun users (sch ++ sch') (lstart es prog) in fin s = [] /\ ents s = es /\ unfinished s 0 /\ unfinished s 1.
Proof.
  set (es := [(2, false); (1, false)]). set (prog := fun i => match i with 0 => [LServe 9] | 1 => [LServe 8] | _ => [] end).
  exists es, prog, [(0, 0); (0, 0); (0, 0)]. split; [reflexivity|]. split; [reflexivity|]. split; [reflexivity|]. intros sch'.
  unfold lrun. rewrite fold_left_app. fold (lrun users [(0, 0); (0, 0); (0, 0)] (lstart es prog)).
  set (s := lrun users [(0, 0); (0, 0); (0, 0)] (lstart es prog)). fold (lrun users sch' s). cbn zeta.
  assert (M : in_matcher (stacks s 0)) by (exists (2, false), [(1, false)], 9; right; right; left; reflexivity).
  assert (L : in_lock (stacks s 0)) by (do 2 eexists; reflexivity).
  destruct (C125_hangs users es prog [(0, 0); (0, 0); (0, 0)] sch' 0 0 M (or_intror (or_intror L)) L) as (S1 & S2 & S3 & new & S4 & S5).
  fold s in S1, S2, S3, S4, S5.
  assert (Q : ann (lrun users sch' s) = Some 0 /\ stacks (lrun users sch' s) 1 = [Todo [LServe 8]] /\ fin (lrun users sch' s) = []).
  { clear. induction sch' as [|a sch' IH] using rev_ind; [auto|]. unfold lrun in *. rewrite fold_left_app. cbn [fold_left].
    set (x := fold_left (lact users) sch' s) in *. destruct IH as (A & B & C).
    pose proof (sound_run users es prog ([(0, 0); (0, 0); (0, 0)] ++ sch')) as So. unfold lrun in So. rewrite fold_left_app in So.
    change (fold_left (lact users) [(0, 0); (0, 0); (0, 0)] (lstart es prog)) with s in So. fold x in So.
    pose proof (C125_hangs users es prog [(0, 0); (0, 0); (0, 0)] sch' 0 0) as H. cbn zeta in H. unfold lrun in H.
    change (fold_left (lact users) [(0, 0); (0, 0); (0, 0)] (lstart es prog)) with s in H. fold x in H.
    destruct H as (H1 & _ & _ & _); [exists (2, false), [(1, false)], 9; right; right; left; reflexivity|right; right; do 2 eexists; reflexivity|do 2 eexists; reflexivity|].
    unfold lact. destruct (lstep users (fst a) (snd a) x) as [y|] eqn:E; [|auto].
    destruct (Nat.eq_dec (fst a) 0) as [E0|N0].
    { rewrite E0 in E. unfold lstep in E. rewrite H1 in E. cbn in E. destruct (rds x) eqn:R; [|discriminate].
      pose proof (holder_in x 0 So) as K. rewrite H1, R in K. destruct K. cbn. lia. }
    destruct (Nat.eq_dec (fst a) 1) as [E1|N1].
    { rewrite E1 in E. unfold lstep in E. rewrite B, A in E. discriminate. }
    exfalso.
    assert (T : forall l i, i <> 0 -> i <> 1 -> stacks (lrun users l (lstart es prog)) i = [Todo []]).
    { clear. intros l i N0 N1. apply (lrun_inv users (fun x => stacks x i = [Todo []])).
      - intros k x x' H T. destruct (Nat.eq_dec k i) as [Ek|N]; [subst k; destruct T; congruence|].
        destruct T; subst x'; cbn [stacks]; rewrite set_other by congruence; exact H.
      - destruct i as [|[|i]]; [congruence|congruence|reflexivity]. }
    specialize (T ([(0, 0); (0, 0); (0, 0)] ++ sch') (fst a) N0 N1). unfold lrun in T. rewrite fold_left_app in T.
    change (fold_left (lact users) [(0, 0); (0, 0); (0, 0)] (lstart es prog)) with s in T. fold x in T.
    unfold lstep in E. rewrite T in E. discriminate. }
  destruct Q as (Q1 & Q2 & Q3). split; [exact Q3|]. split; [exact S3|]. split; [unfold unfinished; rewrite S1; discriminate|].
  unfold unfinished. rewrite Q2. discriminate.
Qed.
Print Assumptions C125_register_inside_refuted.

(** C125: a matcher that dispatches works alone, but hangs when a registration comes
    in between. *)
Theorem C125_dispatch_inside_refuted : exists es prog sch, es = [(4, false)] /\ prog 0 = [LServe 9] /\ prog 1 = [LRegister 1 false] /\
  (forall sch', let s := lrun users (sch ++ sch') (lstart es prog) in unfinished s 0 /\ unfinished s 1)
  /\ exists sch', let s := lrun users sch' (lstart es prog) in
       fin s = [(0, Found None); (0, Found (Some (4, false))); (1, Wrote (Add 1 false) es)] /\ ~ unfinished s 0 /\ ~ unfinished s 1.
Proof.
  set (es := [(4, false)]). set (prog := fun i => match i with 0 => [LServe 9] | 1 => [LRegister 1 false] | _ => [] end).
  exists es, prog, [(0, 0); (0, 0); (1, 0)]. split; [reflexivity|]. split; [reflexivity|]. split; [reflexivity|]. split.
  - intros sch'. unfold lrun. rewrite fold_left_app. fold (lrun users [(0, 0); (0, 0); (1, 0)] (lstart es prog)).
    set (s := lrun users [(0, 0); (0, 0); (1, 0)] (lstart es prog)). fold (lrun users sch' s). cbn zeta.
    assert (M : in_matcher (stacks s 0)) by (exists (4, false), [], 9; right; left; reflexivity).
    assert (L : in_lock (stacks s 1)) by (do 2 eexists; reflexivity).
    assert (R : to_read (stacks s 0)) by (do 3 eexists; reflexivity).
    destruct (C125_hangs users es prog [(0, 0); (0, 0); (1, 0)] sch' 0 1 M (or_introl R) L) as (S1 & (w & st & S2) & _).
    fold s in S1, S2. split; unfold unfinished; [rewrite S1|rewrite S2]; discriminate.
  - exists (repeat (0, 0) 8 ++ repeat (1, 0) 2). vm_compute. split; [reflexivity|]. split; intro H; apply H; reflexivity.
Qed.
Print Assumptions C125_dispatch_inside_refuted.

(** The multiplexer of [C125_register_inside_refuted] before the last step: the
    matcher is asked and about to register. *)
Example C125_write_inside_ex :
  let s := lrun users [(0, 0); (0, 0)] (lstart [(2, false); (1, false)] (fun i => match i with 0 => [LServe 9] | _ => [] end)) in
  in_matcher (stacks s 0) /\ to_write (stacks s 0) /\ rds s = [0].
Proof.
  split; [exists (2, false), [(1, false)], 9; right; left; reflexivity|]. split; [left; do 4 eexists; reflexivity|reflexivity].
Qed.

Example C125_read_inside_ex :
  let s := lrun users [(0, 0); (0, 0); (1, 0); (1, 0)] (lstart [(4, false); (1, false)] (fun i => match i with 0 | 1 => [LServe 9] | _ => [] end)) in
  in_matcher (stacks s 0) /\ in_matcher (stacks s 1) /\ rds s = [1; 0] /\ unfinished s 0
  /\ fin (lrun users (repeat (0, 0) 8 ++ repeat (1, 0) 12) s)
     = [(0, Found None); (0, Found (Some (4, false))); (1, Found None); (1, Found (Some (4, false)))].
Proof.
  split; [exists (4, false), [(1, false)], 9; right; left; reflexivity|]. split; [exists (4, false), [(1, false)], 9; right; left; reflexivity|].
  split; [reflexivity|]. split; [discriminate|]. vm_compute. reflexivity.
Qed.

(** Two searches are going on when goroutine 2 arrives with a registration; goroutine
    3 has to wait. *)
Example C125_writer_waits_ex :
  let prog i := match i with 0 => [LServe 1] | 1 => [LServe 5] | 2 => [LRegister 7 false] | 3 => [LServe 1] | _ => [] end in
  let s := lrun looks [(0, 0); (1, 0); (1, 1); (2, 0)] (lstart [(1, true); (2, false); (3, false)] prog) in
  quiet looks /\ in_lock (stacks s 2) /\ rds s = [1; 0] /\ list_sum (map (fun j => to_look (stacks s j)) (rds s)) = 13
  /\ moved looks (repeat (3, 0) 9 ++ repeat (1, 0) 9 ++ repeat (0, 0) 9) s = 8
  /\ lstep looks 3 0 s = None /\ lstep looks 2 0 s = None
  /\ lstep looks 2 0 (lrun looks (repeat (3, 0) 9 ++ repeat (1, 0) 9 ++ repeat (0, 0) 9) s) <> None.
Proof.
  cbn zeta. split; [intros p r; reflexivity|]. split; [do 2 eexists; reflexivity|]. vm_compute. repeat split; try reflexivity. discriminate.
Qed.
