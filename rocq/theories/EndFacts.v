(** Facts about the end of a connection. *)
From Coq Require Import Lia.
From Coq Require Export Permutation.
From Verif Require Import EndModel EndSpec.

(** The handler that has the lock. *)
Definition writer {A} (s : state A) : list nat := match writing s with Some (i, _) => [i] | None => [] end.

(** Where the bytes behind the complete replies come from: the reply being
    written, or one that failed. *)
Definition tail_of {A} (d : dialogue A) (s : state A) (p : list A) : Prop :=
  match writing s with None => p = [] | Some (i, r) => answer d i = p ++ r end \/
  over s = true /\ (exists i r, In (i, false) (returned s) /\ answer d i = p ++ r /\ r <> []) /\
  match writing s with None => True | Some (j, r) => r = answer d j end.

Record lawful {A} (d : dialogue A) (s : state A) : Prop := {
  l_all : Permutation (map fst (returned s) ++ writer s ++ waiting s) (seq 0 (arrived s));
  l_bound : arrived s <= total d;
  l_over : over s = true -> arrived s = total d;
  l_failed : over s = false -> forall i b, In (i, b) (returned s) -> b = true;
  l_out : exists p, out s = frames d (successes (returned s)) ++ p /\ tail_of d s p;
  l_turn : in_turn d = true ->
    map fst (returned s) ++ writer s ++ waiting s = seq 0 (arrived s) /\
    length (writer s ++ waiting s) <= 1 /\ (over s = true -> calm s = true) /\
    forall i b, In (i, b) (returned s) -> b = true }.

Lemma lawful_opened {A} (d : dialogue A) : lawful d opened.
Proof.
  constructor; cbn; try lia; try tauto; try discriminate.
  - constructor.
  - exists []. split; [reflexivity|]. now left.
  - intros _. repeat split; auto; tauto.
Qed.

Lemma calm_true {A} (s : state A) : calm s = true <-> waiting s = [] /\ writing s = None.
Proof. unfold calm. destruct (waiting s), (writing s); split; intros; try discriminate; intuition discriminate. Qed.

Lemma existsb_in i l : existsb (Nat.eqb i) l = true <-> In i l.
Proof.
  rewrite existsb_exists. split; [intros (j & H & E); apply Nat.eqb_eq in E; now subst|].
  intro H. exists i. now rewrite Nat.eqb_refl.
Qed.

Lemma without_perm i l : NoDup l -> In i l -> Permutation (i :: without i l) l.
Proof.
  induction l as [|j l IH]; intros N I; [destruct I|]. inversion N; subst. unfold without. cbn [filter].
  destruct (Nat.eqb_spec i j) as [->|D]; cbn [negb].
  - apply perm_skip. clear - H1. induction l as [|k l IH]; [constructor|]. cbn [filter].
    destruct (Nat.eqb_spec j k) as [->|D]; cbn [negb]; [exfalso; apply H1; now left|].
    apply perm_skip, IH. intro; apply H1; now right.
  - destruct I as [->|I]; [contradiction|]. eapply perm_trans; [apply perm_swap|]. apply perm_skip, IH; assumption.
Qed.

Lemma NoDup_app_right {X} (a b : list X) : NoDup (a ++ b) -> NoDup b.
Proof. induction a as [|x a IH]; [auto|]. intro N. inversion N; auto. Qed.

Lemma successes_app a b : successes (a ++ b) = successes a ++ successes b.
Proof. unfold successes. now rewrite filter_app, map_app. Qed.

Lemma frames_app {A} (d : dialogue A) a b : frames d (a ++ b) = frames d a ++ frames d b.
Proof. unfold frames. now rewrite map_app, concat_app. Qed.

Ltac bools := repeat match goal with
  | H : _ && _ = true |- _ => apply andb_true_iff in H; destruct H
  | H : negb _ = true |- _ => apply negb_true_iff in H
  | H : (_ <? _) = true |- _ => apply Nat.ltb_lt in H
  | H : (_ =? _) = true |- _ => apply Nat.eqb_eq in H
  end.

Lemma lawful_move {A} (d : dialogue A) s m s' : lawful d s -> move_on d s m = Some s' -> lawful d s'.
Proof.
  intros [La Lb Lo Lf Lp Lt] M. destruct m; cbn [move_on] in M.
  - (* Next *)
    destruct (_ && _ && _) eqn:C; [|discriminate]. injection M as <-. bools.
    constructor; unfold writer, tail_of, calm in *; cbn [arrived waiting writing out over returned] in *; auto; try lia.
    + rewrite !app_assoc, seq_S. apply Permutation_app_tail. now rewrite <- app_assoc.
    + congruence.
    + intro T. destruct (Lt T) as (E & _ & _ & F). rewrite T in H0. cbn in H0.
      destruct (waiting s) eqn:W; [|discriminate]. destruct (writing s) eqn:V; [discriminate|].
      cbn [app length] in *. rewrite app_nil_r in E. rewrite E, seq_S. repeat split; auto; congruence.
  - (* Stop *)
    destruct (_ && _ && _) eqn:C; [|discriminate]. injection M as <-. bools.
    constructor; unfold writer, tail_of, calm in *; cbn [arrived waiting writing out over returned] in *; auto; try lia; try discriminate.
    + destruct Lp as (p & E & [T|T]); exists p; [tauto|]. destruct T; congruence.
    + intro T. destruct (Lt T) as (E & L & _ & F). rewrite T in H0. cbn in H0. auto.
  - (* Lock *)
    destruct (writing s) eqn:V; [discriminate|]. destruct (existsb _ _) eqn:X; [|discriminate]. injection M as <-.
    apply existsb_in in X.
    constructor; unfold writer, tail_of, calm in *; cbn [arrived waiting writing out over returned] in *; rewrite ?V in *; auto.
    + eapply perm_trans; [|exact La]. apply Permutation_app_head. cbn [app]. apply without_perm; [|exact X].
      cbn [app] in La. eapply NoDup_app_right, (Permutation_NoDup (Permutation_sym La)), seq_NoDup.
    + destruct Lp as (p & E & [->|T]); [exists []; split; [assumption|]; left; reflexivity|].
      exists p. split; [exact E|]. right. destruct T as (T1 & T2 & _). auto.
    + intro T. destruct (Lt T) as (E & L & K & F). cbn [app length] in *.
      destruct (waiting s) as [|w [|w' ws]]; [destruct X| |cbn in L; lia].
      destruct X as [->|[]]. unfold without. cbn [filter]. rewrite Nat.eqb_refl. cbn.
      repeat split; auto; try (intro O; specialize (K O); discriminate).
  - (* Byte *)
    destruct (writing s) as [[i [|b r]]|] eqn:V; try discriminate. destruct (over s) eqn:O; [discriminate|]. injection M as <-.
    constructor; unfold writer, tail_of, calm in *; cbn [arrived waiting writing out over returned] in *; rewrite ?V in *; auto; try discriminate.
    + destruct Lp as (p & E & [T|T]); [|destruct T; congruence].
      exists (p ++ [b]). split; [now rewrite E, app_assoc|]. left. rewrite <- app_assoc. exact T.
  - (* Break *)
    destruct (writing s) as [[i [|b r]]|] eqn:V; try discriminate. destruct (over s) eqn:O; [|discriminate]. injection M as <-.
    constructor; unfold writer, tail_of, calm in *; cbn [arrived waiting writing out over returned] in *; rewrite ?V in *; auto; try discriminate.
    + rewrite map_app. cbn [map fst app] in *. rewrite <- app_assoc. exact La.
    + destruct Lp as (p & E & T). exists p. rewrite successes_app. cbn. rewrite app_nil_r. split; [exact E|]. right.
      split; [reflexivity|]. split; [|exact I]. destruct T as [T|(_ & (j & q & T1 & T2) & _)].
      * exists i, (b :: r). split; [apply in_or_app; right; now left|]. split; [exact T|discriminate].
      * exists j, q. split; [apply in_or_app; now left|exact T2].
    + intro T. destruct (Lt T) as (_ & _ & K & _). specialize (K eq_refl). destruct (waiting s); discriminate.
  - (* Done *)
    destruct (writing s) as [[i [|b r]]|] eqn:V; try discriminate. injection M as <-.
    constructor; unfold writer, tail_of, calm in *; cbn [arrived waiting writing out over returned] in *; rewrite ?V in *; auto.
    + rewrite map_app. cbn [map fst app] in *. rewrite <- app_assoc. exact La.
    + intros O j b H. apply in_app_or in H. destruct H as [H|[H|[]]]; [eapply Lf; eauto|]. congruence.
    + destruct Lp as (p & E & T). rewrite successes_app, frames_app. change (successes [(i, true)]) with [i].
      unfold frames at 2. cbn [map concat]. rewrite app_nil_r. destruct T as [T|(O & (j & q & T1 & T2) & T)].
      * exists []. rewrite app_nil_r in *. rewrite T. split; [exact E|now left].
      * exists p. rewrite <- T, app_nil_r. split; [exact E|]. right. split; [exact O|]. split; [|exact I].
        exists j, q. split; [apply in_or_app; now left|exact T2].
    + intro T. destruct (Lt T) as (E & L & K & F). rewrite map_app. cbn [map fst app length] in *.
      rewrite <- app_assoc. split; [exact E|]. split; [lia|]. split.
      * intro O. specialize (K O). destruct (waiting s); discriminate.
      * intros j b H. apply in_app_or in H. destruct H as [H|[H|[]]]; [eapply F; eauto|]. congruence.
Qed.

Lemma lawful_course {A} (d : dialogue A) l : forall s, lawful d s -> lawful d (course d l s).
Proof.
  induction l as [|m l IH]; intros s L; [exact L|]. cbn [course]. apply IH.
  destruct (move_on d s m) eqn:E; [eapply lawful_move; eauto|exact L].
Qed.

Lemma reached {A} (d : dialogue A) l : lawful d (course d l opened).
Proof. apply lawful_course, lawful_opened. Qed.

(** Progress. *)
Definition progress {A} (s : state A) : nat :=
  arrived s + (if over s then 1 else 0) + length (writer s) + length (out s) + 2 * length (returned s).

Lemma progress_move {A} (d : dialogue A) s m s' : move_on d s m = Some s' -> progress s' = S (progress s).
Proof.
  intro M. unfold progress, writer. destruct m; cbn [move_on] in M;
    repeat match type of M with
    | context [if ?c then _ else _] => let C := fresh "C" in destruct c eqn:C; [|try discriminate]
    | context [match writing s with _ => _ end] => destruct (writing s) as [[? [|? ?]]|] eqn:?; try discriminate
    end; try discriminate; injection M as <-; cbn [arrived waiting writing out over returned];
    repeat match goal with E : writing s = _ |- _ => rewrite E end; rewrite ?app_length; cbn [length]; try lia.
  bools. rewrite H1. lia.
Qed.

Lemma moves_progress {A} (d : dialogue A) l : forall s, progress (course d l s) = moves d l s + progress s.
Proof.
  induction l as [|m l IH]; intro s; [reflexivity|]. cbn [course moves].
  destruct (move_on d s m) eqn:E; rewrite IH; [rewrite (progress_move _ _ _ _ E)|]; lia.
Qed.

Lemma incl_perm (l m : list nat) : NoDup l -> incl l m -> exists r, Permutation m (l ++ r).
Proof.
  revert m. induction l as [|x l IH]; intros m N I; [exists m; reflexivity|]. inversion N; subst.
  destruct (in_split x m) as (a & b & ->); [apply I; now left|].
  destruct (IH (a ++ b)) as [r R]; [assumption| |].
  - intros y Hy. assert (y <> x) by congruence. specialize (I y (or_intror Hy)).
    apply in_or_app. apply in_app_or in I. destruct I as [I|[I|I]]; auto. congruence.
  - exists r. cbn [app]. eapply perm_trans; [apply Permutation_sym, Permutation_middle|]. now apply perm_skip.
Qed.

Lemma frames_all {A} (d : dialogue A) : frames d (seq 0 (total d)) = concat (answers d).
Proof.
  unfold frames, total, answer. f_equal. set (l := answers d). clearbody l.
  assert (E : forall k, map (fun i => nth (i - k) l []) (seq k (length l)) = l).
  { induction l as [|x l IH]; intro k; [reflexivity|]. cbn [length seq map]. rewrite Nat.sub_diag. cbn [nth]. f_equal.
    rewrite <- (IH (S k)) at 2. apply map_ext_in. intros i Hi. apply in_seq in Hi.
    replace (i - k) with (S (i - S k)) by lia. reflexivity. }
  rewrite <- (E 0) at 2. apply map_ext. intro i. now rewrite Nat.sub_0_r.
Qed.

Lemma frames_le {A} (d : dialogue A) l : NoDup l -> incl l (seq 0 (total d)) -> length (frames d l) <= length (concat (answers d)).
Proof.
  intros N I. destruct (incl_perm _ _ N I) as [r R]. rewrite <- frames_all. unfold frames. rewrite <- !flat_map_concat_map.
  rewrite (Permutation_length (Permutation_flat_map (answer d) R)), flat_map_app, app_length. lia.
Qed.

Lemma successes_in l i : In i (successes l) <-> In (i, true) l.
Proof.
  unfold successes. rewrite in_map_iff. split.
  - intros ((j & b) & <- & H). apply filter_In in H. destruct H as [H E]. cbn in E. now subst b.
  - intro H. exists (i, true). split; [reflexivity|]. apply filter_In. auto.
Qed.

Lemma successes_nodup l : NoDup (map fst l) -> NoDup (successes l).
Proof.
  induction l as [|[i b] l IH]; intro N; [constructor|]. cbn [map fst] in N. inversion N; subst.
  unfold successes in *. cbn [filter snd]. destruct b; [|auto]. cbn [map fst]. constructor; [|auto].
  intro H. apply H1. apply in_map_iff in H. destruct H as (x & <- & H). apply filter_In in H. apply in_map. tauto.
Qed.

(** The replies on the wire and the beginning of a further one. *)
Lemma out_shape {A} (d : dialogue A) s : lawful d s ->
  exists p, out s = frames d (successes (returned s)) ++ p /\
    (p = [] \/ exists i r, answer d i = p ++ r /\ ~ In i (successes (returned s)) /\ i < arrived s).
Proof.
  intros [La Lb Lo Lf (p & E & T) Lt]. exists p. split; [exact E|].
  assert (N : NoDup (map fst (returned s) ++ writer s ++ waiting s)).
  { eapply Permutation_NoDup; [apply Permutation_sym, La|apply seq_NoDup]. }
  assert (B : forall i, In i (map fst (returned s) ++ writer s ++ waiting s) -> i < arrived s).
  { intros i H. apply (Permutation_in _ La), in_seq in H. lia. }
  destruct T as [T|(_ & (i & r & I & F & R) & _)].
  - unfold writer in *. destruct (writing s) as [[i r]|]; [|now left]. right. exists i, r. split; [exact T|]. cbn [app] in N. split.
    + intro H. apply successes_in in H. apply NoDup_remove_2 in N. apply N, in_or_app. left.
      apply in_map_iff. now exists (i, true).
    + apply B, in_or_app. right. now left.
  - right. exists i, r. split; [exact F|]. split.
    + intro H. apply successes_in in H.
      assert (M : NoDup (map fst (returned s))).
      { clear - N. revert N. generalize (writer s ++ waiting s). induction (map fst (returned s)) as [|x l IH]; intros m N; [constructor|].
        cbn [app] in N. inversion N; subst. constructor; [|eauto]. intro; apply H1, in_or_app; now left. }
      clear - M I H. induction (returned s) as [|[j b] l IH]; [destruct I|]. cbn [map fst] in M. inversion M; subst.
      destruct I as [I|I]; destruct H as [H|H].
      * congruence.
      * injection I as -> ->. apply H2. apply in_map_iff. now exists (i, true).
      * injection H as -> ->. apply H2. apply in_map_iff. now exists (i, false).
      * auto.
    + apply B, in_or_app. left. apply in_map_iff. now exists (i, false).
Qed.

Lemma returned_nodup {A} (d : dialogue A) s : lawful d s -> NoDup (map fst (returned s)).
Proof.
  intros [La _ _ _ _ _].
  assert (N : NoDup (map fst (returned s) ++ writer s ++ waiting s)) by (eapply Permutation_NoDup; [apply Permutation_sym, La|apply seq_NoDup]).
  clear La. revert N. generalize (writer s ++ waiting s). induction (map fst (returned s)) as [|x l IH]; intros m N; [constructor|].
  cbn [app] in N. inversion N; subst. constructor; [|eauto]. intro; apply H1, in_or_app; now left.
Qed.

Lemma returned_below {A} (d : dialogue A) s i : lawful d s -> In i (map fst (returned s)) -> i < arrived s.
Proof.
  intros [La _ _ _ _ _] H. assert (I : In i (seq 0 (arrived s))) by (apply (Permutation_in _ La), in_or_app; now left).
  apply in_seq in I. lia.
Qed.

Lemma out_le {A} (d : dialogue A) s : lawful d s -> length (out s) <= length (concat (answers d)).
Proof.
  intro L. pose proof (returned_nodup d s L) as N. destruct (out_shape d s L) as (p & -> & T). pose proof L as [].
  assert (B : forall i, In i (successes (returned s)) -> In i (seq 0 (total d))).
  { intros i H. apply in_seq. apply successes_in in H.
    assert (i < arrived s); [|lia]. apply (returned_below d s i L). apply in_map_iff. now exists (i, true). }
  apply successes_nodup in N. destruct T as [->|(i & r & E & X & Y)].
  - rewrite app_nil_r. apply frames_le; assumption.
  - assert (length (frames d (successes (returned s) ++ [i])) <= length (concat (answers d))) as H.
    { apply frames_le.
      - eapply Permutation_NoDup; [apply Permutation_cons_append|]. now constructor.
      - intros j Hj. apply in_app_or in Hj. destruct Hj as [Hj|[->|[]]]; auto. apply in_seq. lia. }
    rewrite frames_app, app_length in H. unfold frames at 2 in H. cbn [map concat] in H.
    rewrite app_nil_r, E, app_length in H. rewrite app_length. lia.
Qed.

Lemma progress_bound {A} (d : dialogue A) s : lawful d s -> progress s <= 3 * total d + 1 + length (concat (answers d)).
Proof.
  intro L. pose proof (out_le d s L). destruct L as [La Lb _ _ _ _]. unfold progress.
  apply Permutation_length in La. rewrite !app_length, map_length, seq_length in La. destruct (over s); lia.
Qed.

(** What is the case when nothing can happen any more. *)
Lemma rest {A} (d : dialogue A) s : lawful d s -> finished d s ->
  over s = true /\ calm s = true /\ arrived s = total d.
Proof.
  intros L F. assert (V : writing s = None).
  { destruct (writing s) as [[i [|b r]]|] eqn:V; [| |reflexivity]; exfalso.
    - specialize (F Done). cbn [move_on] in F. now rewrite V in F.
    - destruct (over s) eqn:O; [specialize (F Break)|specialize (F Byte)]; cbn [move_on] in F; now rewrite V, O in F. }
  assert (W : waiting s = []).
  { destruct (waiting s) as [|i w] eqn:W; [reflexivity|]. exfalso. specialize (F (Lock i)). cbn [move_on] in F.
    rewrite V, W in F. cbn [existsb] in F. now rewrite Nat.eqb_refl in F. }
  assert (C : calm s = true) by (now apply calm_true).
  assert (O : over s = true).
  { destruct (over s) eqn:O; [reflexivity|]. exfalso. destruct L as [_ Lb _ _ _ _].
    destruct (Nat.eq_dec (arrived s) (total d)) as [E|E].
    - specialize (F Stop). cbn [move_on] in F. now rewrite O, C, orb_true_r, (proj2 (Nat.eqb_eq _ _) E) in F.
    - specialize (F Next). cbn [move_on] in F. rewrite O, C, orb_true_r in F.
      rewrite (proj2 (Nat.ltb_lt _ _)) in F by lia. discriminate. }
  split; [exact O|]. split; [exact C|]. now apply L.
Qed.

Lemma finished_or {A} (d : dialogue A) s : lawful d s -> finished d s \/ exists m s', move_on d s m = Some s'.
Proof.
  intro L. destruct (writing s) as [[i [|b r]]|] eqn:V.
  - right. exists Done. cbn [move_on]. rewrite V. eauto.
  - right. destruct (over s) eqn:O; [exists Break|exists Byte]; cbn [move_on]; rewrite V, O; eauto.
  - destruct (waiting s) as [|i w] eqn:W.
    + assert (C : calm s = true) by (now apply calm_true). destruct (over s) eqn:O.
      * left. intros []; cbn [move_on]; rewrite ?V, ?O, ?W, ?andb_false_r; reflexivity.
      * right. destruct L as [_ Lb _ _ _ _]. destruct (Nat.eq_dec (arrived s) (total d)) as [E|E].
        -- exists Stop. cbn [move_on]. rewrite O, C, orb_true_r, (proj2 (Nat.eqb_eq _ _) E). cbn. eauto.
        -- exists Next. cbn [move_on]. rewrite O, C, orb_true_r. rewrite (proj2 (Nat.ltb_lt _ _)) by lia. cbn. eauto.
    + right. exists (Lock i). cbn [move_on]. rewrite V, W. cbn [existsb]. rewrite Nat.eqb_refl. cbn. eauto.
Qed.

Lemma course_app {A} (d : dialogue A) a : forall b s, course d (a ++ b) s = course d b (course d a s).
Proof. induction a as [|m a IH]; intros b s; [reflexivity|]. cbn [app course]. apply IH. Qed.

Lemma can_finish {A} (d : dialogue A) s : lawful d s -> exists l, finished d (course d l s).
Proof.
  remember (3 * total d + 1 + length (concat (answers d)) - progress s) as k eqn:K. revert s K.
  induction k as [k IH] using lt_wf_ind. intros s K L. destruct (finished_or d s L) as [F|(m & s' & M)].
  - exists []. exact F.
  - pose proof (lawful_move d s m s' L M) as L'. pose proof (progress_move d s m s' M). pose proof (progress_bound d s' L').
    destruct (IH (3 * total d + 1 + length (concat (answers d)) - progress s')) with (s := s') as [l F]; [lia|reflexivity|exact L'|].
    exists (m :: l). cbn [course]. now rewrite M.
Qed.

(** Nothing is written to a closed connection. *)
Lemma closed_move {A} (d : dialogue A) s m s' : over s = true -> move_on d s m = Some s' -> over s' = true /\ out s' = out s.
Proof.
  intros O M. destruct m; cbn [move_on] in M;
    repeat match type of M with
    | context [if ?c then _ else _] => let C := fresh "C" in destruct c eqn:C; [|try discriminate]
    | context [match writing s with _ => _ end] => destruct (writing s) as [[? [|? ?]]|] eqn:?; try discriminate
    end; try discriminate; injection M as <-; cbn [over out]; auto; congruence.
Qed.

Lemma closed_course {A} (d : dialogue A) l : forall s, over s = true -> over (course d l s) = true /\ out (course d l s) = out s.
Proof.
  induction l as [|m l IH]; intros s O; [auto|]. cbn [course]. destruct (move_on d s m) as [s'|] eqn:M; [|auto].
  destruct (closed_move d s m s' O M) as [O' E]. rewrite <- E. auto.
Qed.

(** A schedule that lets chosen handlers write. *)
Lemma run_next {A} (d : dialogue A) n : in_turn d = false -> n <= total d ->
  course d (repeat Next n) opened = MkState n (seq 0 n) None [] false [].
Proof.
  intros T. induction n as [|n IH]; intro H; [reflexivity|]. rewrite <- Nat.add_1_r, repeat_app, course_app, IH by lia.
  cbn [repeat course move_on arrived over]. rewrite T, (proj2 (Nat.ltb_lt _ _)) by lia. cbn [negb orb andb waiting writing out over returned].
  now rewrite Nat.add_1_r, seq_S.
Qed.

Lemma run_bytes {A} (d : dialogue A) k : forall n w i b o r, k <= length b ->
  course d (repeat Byte k) (MkState n w (Some (i, b)) o false r) = MkState n w (Some (i, skipn k b)) (o ++ firstn k b) false r.
Proof.
  induction k as [|k IH]; intros n w i b o r H; [cbn; now rewrite app_nil_r|]. destruct b as [|x b]; [cbn in H; lia|].
  cbn [repeat course move_on writing over arrived waiting out returned]. rewrite IH by (cbn in H; lia). cbn [skipn firstn].
  now rewrite <- app_assoc.
Qed.

Lemma run_lock {A} (d : dialogue A) n w i o b r : In i w ->
  course d [Lock i] (MkState n w None o b r) = MkState n (without i w) (Some (i, answer d i)) o b r.
Proof. intro H. cbn [course move_on writing waiting arrived out over returned]. now rewrite (proj2 (existsb_in _ _) H). Qed.

Lemma without_in i j l : In j (without i l) <-> In j l /\ j <> i.
Proof.
  unfold without. rewrite filter_In. split; intros [H E]; split; auto.
  - apply negb_true_iff, Nat.eqb_neq in E. congruence.
  - apply negb_true_iff, Nat.eqb_neq. congruence.
Qed.

Lemma run_writes {A} (d : dialogue A) ws : forall n w o r, NoDup ws -> incl ws w ->
  exists l, course d l (MkState n w None o false r) =
    MkState n (fold_left (fun w i => without i w) ws w) None (o ++ frames d ws) false (r ++ map (fun i => (i, true)) ws).
Proof.
  induction ws as [|i ws IH]; intros n w o r N I.
  - exists []. cbn. now rewrite !app_nil_r.
  - inversion N; subst. destruct (IH n (without i w) (o ++ answer d i) (r ++ [(i, true)]) H2) as [l E].
    { intros j Hj. apply without_in. split; [apply I; now right|congruence]. }
    exists ([Lock i] ++ repeat Byte (length (answer d i)) ++ [Done] ++ l).
    rewrite !course_app, run_lock by (apply I; now left). rewrite run_bytes by lia. rewrite skipn_all, firstn_all.
    cbn [course move_on writing arrived waiting out over returned]. rewrite E. unfold frames. cbn [map concat fold_left].
    now rewrite <- !app_assoc.
Qed.

Lemma fold_without ws : forall w j, In j w -> ~ In j ws -> In j (fold_left (fun w i => without i w) ws w).
Proof.
  induction ws as [|i ws IH]; intros w j H N; [exact H|]. cbn [fold_left]. apply IH.
  - apply without_in. split; [exact H|]. intro; apply N; now left.
  - intro; apply N; now right.
Qed.
