(** Lemmas about the worker pool. *)
From Verif Require Export RunnerModel RunnerSpec.
From Coq Require Import Lia Permutation.

Lemma put_length {A} (x : A) : forall l n, length (put n x l) = length l.
Proof. induction l as [|y l IH]; intros [|n]; cbn; auto. Qed.

Lemma put_perm {A B} (f : A -> list B) h' : forall l j h, nth_error l j = Some h ->
  Permutation (flat_map f (put j h' l) ++ f h) (flat_map f l ++ f h').
Proof.
  induction l as [|y l IH]; intros [|j] h H; cbn in *; try discriminate.
  - injection H as ->. rewrite (Permutation_app_comm (f h' ++ _) (f h)), <- app_assoc. apply Permutation_app_head.
    apply Permutation_app_comm.
  - rewrite <- !app_assoc. apply Permutation_app_head. apply IH. exact H.
Qed.

Lemma prun_app body a b p : prun body (a ++ b) p = prun body b (prun body a p).
Proof. apply fold_left_app. Qed.

Lemma prun_inv body (P : pool -> Prop) p : P p -> (forall m p p', P p -> pstep body m p = Some p' -> P p') ->
  forall sch, P (prun body sch p).
Proof.
  intros H0 Hs sch. revert p H0. induction sch as [|a sch IH]; intros p H0; [exact H0|].
  cbn. apply IH. unfold pact. destruct (pstep body a p) as [p'|] eqn:E; [|exact H0]. eapply Hs; eassumption.
Qed.

(** Transitions. *)
Inductive ptrans (body : nat -> list nat) (p : pool) : pool -> Prop :=
| PInit : on p = false ->
    ptrans body p (MkPool (num p) true (queue p) (repeat Waiting (num p)) (callers p) (submitted p) (begun p) (finished p))
| PSubmit i f l : nth_error (callers p) i = Some (f :: l) -> on p = true -> length (queue p) < num p ->
    ptrans body p (MkPool (num p) (on p) (queue p ++ [f]) (workers p) (put i l (callers p)) (submitted p ++ [f]) (begun p) (finished p))
| PBegin w f q : nth_error (workers p) w = Some Waiting -> queue p = f :: q ->
    ptrans body p (MkPool (num p) (on p) q (put w (Running f (body f)) (workers p)) (callers p) (submitted p) (begun p ++ [f]) (finished p))
| PFinish w f : nth_error (workers p) w = Some (Running f []) ->
    ptrans body p (MkPool (num p) (on p) (queue p) (put w Waiting (workers p)) (callers p) (submitted p) (begun p) (finished p ++ [f]))
| PNested w f g l : nth_error (workers p) w = Some (Running f (g :: l)) -> length (queue p) < num p ->
    ptrans body p (MkPool (num p) (on p) (queue p ++ [g]) (put w (Running f l) (workers p)) (callers p) (submitted p ++ [g]) (begun p) (finished p)).

Lemma pstep_trans body m p p' : pstep body m p = Some p' -> ptrans body p p'.
Proof.
  destruct m as [i|w]; cbn [pstep].
  - unfold caller_step. destruct (nth_error (callers p) i) as [[|f l]|] eqn:Hi; try discriminate.
    destruct (on p) eqn:Ho.
    + unfold send. destruct (Nat.ltb_spec (length (queue p)) (num p)); [|discriminate]. cbn. intro E. injection E as <-.
      apply (PSubmit body p i f l Hi Ho). assumption.
    + intro E. injection E as <-. apply PInit. exact Ho.
  - unfold worker_step. destruct (nth_error (workers p) w) as [[|f [|g l]]|] eqn:Hw; try discriminate.
    + destruct (queue p) as [|f q] eqn:Hq; [discriminate|]. intro E. injection E as <-. apply (PBegin body p w f q Hw Hq).
    + intro E. injection E as <-. apply (PFinish body p w f Hw).
    + unfold send. destruct (Nat.ltb_spec (length (queue p)) (num p)); [|discriminate]. cbn. intro E. injection E as <-.
      apply (PNested body p w f g l Hw). assumption.
Qed.

(** ** The invariant *)
Definition sound (n : nat) (p : pool) : Prop :=
  num p = n
  /\ (on p = false -> workers p = [] /\ queue p = [] /\ submitted p = [] /\ begun p = [] /\ finished p = [])
  /\ (on p = true -> length (workers p) = n)
  /\ length (queue p) <= n
  /\ submitted p = begun p ++ queue p
  /\ Permutation (begun p) (finished p ++ running p).

Definition runs (w : worker) : list nat := match w with Running f _ => [f] | Waiting => [] end.

Lemma running_put p w x y : nth_error (workers p) w = Some x ->
  forall q, workers q = put w y (workers p) ->
  Permutation (running q ++ runs x) (running p ++ runs y).
Proof. intros H q E. unfold running. rewrite E. apply (put_perm runs). exact H. Qed.

Lemma repeat_waiting n : flat_map (fun w => match w with Running f _ => [f] | Waiting => [] end) (repeat Waiting n) = [].
Proof. induction n; cbn; auto. Qed.

Lemma sound_step n body p p' : sound n p -> ptrans body p p' -> sound n p'.
Proof.
  intros (N & Off & On & Q & S & R) T. destruct T.
  - destruct (Off H) as (W0 & Q0 & S0 & B0 & F0). split; [exact N|]. cbn [on workers queue submitted begun finished].
    split; [discriminate|]. split; [intros _; rewrite repeat_length; exact N|]. split; [exact Q|]. split; [exact S|].
    unfold running. cbn [workers]. rewrite B0, F0, repeat_waiting. constructor.
  - split; [exact N|]. cbn [on workers queue submitted begun finished].
    split; [congruence|]. split; [exact On|]. split; [rewrite app_length; cbn; lia|]. split; [rewrite S, app_assoc; reflexivity|exact R].
  - assert (O : on p = true). { destruct (on p) eqn:O; [reflexivity|]. destruct (Off eq_refl) as (_ & Q0 & _). congruence. }
    split; [exact N|]. cbn [on workers queue submitted begun finished].
    split; [congruence|]. split; [rewrite put_length; exact On|]. rewrite H0 in Q, S. cbn in Q. split; [lia|].
    split; [rewrite S, <- app_assoc; reflexivity|].
    set (p' := MkPool _ _ _ _ _ _ _ _). pose proof (running_put p w _ _ H p' eq_refl) as P. cbn [runs] in P. rewrite app_nil_r in P.
    rewrite P, app_assoc, R. reflexivity.
  - assert (O : on p = true). { destruct (on p) eqn:O; [reflexivity|]. destruct (Off eq_refl) as (W0 & _). rewrite W0 in H. destruct w; discriminate. }
    split; [exact N|]. cbn [on workers queue submitted begun finished].
    split; [congruence|]. split; [rewrite put_length; exact On|]. split; [exact Q|]. split; [exact S|].
    set (p' := MkPool _ _ _ _ _ _ _ _). pose proof (running_put p w _ _ H p' eq_refl) as P. cbn [runs] in P. rewrite app_nil_r in P.
    rewrite R, <- P, <- app_assoc. apply Permutation_app_head. apply Permutation_app_comm.
  - assert (O : on p = true). { destruct (on p) eqn:O; [reflexivity|]. destruct (Off eq_refl) as (W0 & _). rewrite W0 in H. destruct w; discriminate. }
    split; [exact N|]. cbn [on workers queue submitted begun finished].
    split; [congruence|]. split; [rewrite put_length; exact On|]. split; [rewrite app_length; cbn; lia|].
    split; [rewrite S, app_assoc; reflexivity|].
    set (p' := MkPool _ _ _ _ _ _ _ _). pose proof (running_put p w _ _ H p' eq_refl) as P. cbn [runs] in P.
    apply Permutation_app_inv_r in P. rewrite P. exact R.
Qed.

Lemma sound_run n body cs sch : sound n (prun body sch (pstart n cs)).
Proof.
  apply (prun_inv body (sound n)).
  - repeat split; cbn; auto; try discriminate. lia.
  - intros m p p' H E. eapply sound_step; [exact H|eapply pstep_trans; exact E].
Qed.

Lemma running_bound p : length (running p) <= length (workers p).
Proof. unfold running. induction (workers p) as [|[|f l] ws IH]; cbn; lia. Qed.

(** ** Functions that do not call Run themselves *)
Definition leaves (cs : list (list nat)) (p : pool) : Prop :=
  (forall w f l, nth_error (workers p) w = Some (Running f l) -> l = [])
  /\ Permutation (submitted p ++ concat (callers p)) (concat cs).

Lemma put_cases {A} (x : A) : forall l n m y, nth_error (put n x l) m = Some y -> y = x \/ nth_error l m = Some y.
Proof.
  induction l as [|z l IH]; intros [|n] [|m] y H; cbn in *; try discriminate; eauto.
  left. congruence.
Qed.

Lemma concat_put i (f : nat) l : forall cs, nth_error cs i = Some (f :: l) -> Permutation (f :: concat (put i l cs)) (concat cs).
Proof.
  induction i as [|i IH]; intros [|c cs] H; cbn in *; try discriminate.
  - injection H as ->. reflexivity.
  - rewrite Permutation_middle. apply Permutation_app_head. apply IH. exact H.
Qed.

Lemma nth_error_repeat {A} (x y : A) n k : nth_error (repeat x n) k = Some y -> y = x.
Proof. intro H. apply nth_error_In in H. eapply repeat_spec. exact H. Qed.

Lemma leaves_step body cs p p' : (forall f, body f = []) -> leaves cs p -> ptrans body p p' -> leaves cs p'.
Proof.
  intros Hb (L & P) T. destruct T; split; cbn [workers submitted callers]; auto.
  - intros w f l H0. apply nth_error_repeat in H0. discriminate.
  - rewrite <- P, <- app_assoc. apply Permutation_app_head. cbn. apply concat_put. exact H.
  - intros v g l Hv. apply put_cases in Hv. destruct Hv as [E|Hv]; [injection E as -> ->; apply Hb|eapply L; exact Hv].
  - intros v g l Hv. apply put_cases in Hv. destruct Hv as [E|Hv]; [discriminate|eapply L; exact Hv].
  - specialize (L _ _ _ H). discriminate.
  - specialize (L _ _ _ H). discriminate.
Qed.

Lemma leaves_run n body cs sch : (forall f, body f = []) -> leaves cs (prun body sch (pstart n cs)).
Proof.
  intro Hb. apply (prun_inv body (leaves cs)).
  - split; [intros [|w] f l H; discriminate|reflexivity].
  - intros m p p' H E. eapply leaves_step; [exact Hb|exact H|eapply pstep_trans; exact E].
Qed.

Lemma stuck_done n body cs p : 0 < n -> sound n p -> leaves cs p -> stuck body p ->
  concat (callers p) = [] /\ queue p = [] /\ running p = [] /\ Permutation (finished p) (concat cs).
Proof.
  intros N (Hn & Off & On & Q & S & R) (L & P) K.
  assert (Wk : forall w x, nth_error (workers p) w = Some x -> x = Waiting).
  { intros w x H. destruct x as [|f l]; [reflexivity|]. pose proof (L w f l H) as ->. specialize (K (PWorker w)). cbn in K.
    unfold worker_step in K. rewrite H in K. discriminate. }
  assert (Rn : running p = []).
  { unfold running. revert Wk. generalize (workers p). induction l as [|x l IH]; intro Wk; [reflexivity|]. cbn.
    rewrite (Wk 0 x eq_refl). apply IH. intros w y H. apply (Wk (Datatypes.S w) y H). }
  assert (Q0 : queue p = []).
  { destruct (on p) eqn:O; [|apply (Off eq_refl)]. destruct (queue p) as [|f q] eqn:E; [reflexivity|].
    specialize (On eq_refl). destruct (workers p) as [|x ws] eqn:Ew; [cbn in On; lia|].
    pose proof (Wk 0 x eq_refl) as ->. specialize (K (PWorker 0)). cbn in K. unfold worker_step in K. rewrite Ew, E in K. discriminate. }
  assert (C0 : concat (callers p) = []).
  { assert (C : forall i l, nth_error (callers p) i = Some l -> l = []).
    { intros i [|f l] H; [reflexivity|]. specialize (K (PCaller i)). cbn in K. unfold caller_step in K. rewrite H in K.
      destruct (on p); [|discriminate]. unfold send in K. rewrite Q0, Hn in K. cbn in K. destruct n; [lia|]. discriminate. }
    revert C. generalize (callers p). induction l as [|x l IH]; intro C; [reflexivity|]. cbn. rewrite (C 0 x eq_refl). cbn. apply IH.
    intros i y H. apply (C (Datatypes.S i) y H). }
  split; [exact C0|]. split; [exact Q0|]. split; [exact Rn|].
  rewrite <- P, C0, app_nil_r, S, Q0, app_nil_r, R, Rn, app_nil_r. reflexivity.
Qed.

(** ** Work left *)
Definition pwork (p : pool) : nat :=
  (if on p then 0 else 1) + 3 * length (concat (callers p)) + 2 * length (queue p) + length (running p).

Lemma pwork_step n body cs p p' : (forall f, body f = []) -> sound n p -> leaves cs p -> ptrans body p p' -> pwork p' < pwork p.
Proof.
  intros Hb (_ & Off & _) (L & _) T. destruct T; unfold pwork; cbn [on callers queue workers].
  - rewrite H. unfold running. cbn [workers]. rewrite repeat_waiting. cbn [length]. lia.
  - rewrite H0, app_length. pose proof (Permutation_length (concat_put _ _ _ _ H)) as E. cbn [length] in *. unfold running. cbn [workers]. lia.
  - rewrite H0. set (p' := MkPool _ _ _ _ _ _ _ _). pose proof (Permutation_length (running_put p w _ _ H p' eq_refl)) as P.
    rewrite !app_length in P. cbn [runs length] in *. lia.
  - set (p' := MkPool _ _ _ _ _ _ _ _). pose proof (Permutation_length (running_put p w _ _ H p' eq_refl)) as P.
    rewrite !app_length in P. cbn [runs length] in *. lia.
  - specialize (L _ _ _ H). discriminate.
Qed.

Lemma busy_bound n body cs : (forall f, body f = []) -> forall sch p, sound n p -> leaves cs p -> busy body sch p -> length sch <= pwork p.
Proof.
  intros Hb. induction sch as [|m sch IH]; intros p S L B; cbn [length busy] in *; [lia|].
  destruct B as (p' & E & B). pose proof (pstep_trans body m p p' E) as T. pose proof (pwork_step n body cs p p' Hb S L T).
  specialize (IH p' (sound_step _ _ _ _ S T) (leaves_step _ _ _ _ Hb L T) B). lia.
Qed.

Lemma stuck_or body p : stuck body p \/ exists m p', pstep body m p = Some p'.
Proof.
  set (can m := match pstep body m p with Some _ => true | None => false end).
  set (cand := map PCaller (seq 0 (length (callers p))) ++ map PWorker (seq 0 (length (workers p)))).
  destruct (existsb can cand) eqn:E.
  - right. apply existsb_exists in E. destruct E as (m & _ & H). exists m. unfold can in H. destruct (pstep body m p) as [p'|]; [eauto|discriminate].
  - left. intro m. destruct (pstep body m p) as [p'|] eqn:H; [|reflexivity]. exfalso.
    assert (X : existsb can cand = true); [|congruence]. apply existsb_exists. exists m. split; [|unfold can; rewrite H; reflexivity].
    apply in_or_app. destruct m as [i|w]; [left|right]; apply in_map_iff; [exists i|exists w]; (split; [reflexivity|]); apply in_seq; (split; [lia|]); cbn.
    + cbn in H. unfold caller_step in H. apply nth_error_Some. destruct (nth_error (callers p) i); [discriminate|]. discriminate.
    + cbn in H. unfold worker_step in H. apply nth_error_Some. destruct (nth_error (workers p) w); [discriminate|]. discriminate.
Qed.

Lemma pool_settles n body cs : (forall f, body f = []) -> forall k p, pwork p <= k -> sound n p -> leaves cs p ->
  exists sch, busy body sch p /\ stuck body (prun body sch p).
Proof.
  intros Hb. induction k as [|k IH]; intros p W S L; (destruct (stuck_or body p) as [K|(m & p' & E)]; [exists []; split; [exact I|exact K]|]);
    pose proof (pstep_trans body m p p' E) as T; pose proof (pwork_step n body cs p p' Hb S L T); [lia|].
  destruct (IH p' ltac:(lia) (sound_step _ _ _ _ S T) (leaves_step _ _ _ _ Hb L T)) as (sch & B & K).
  exists (m :: sch). split; [cbn; eauto|]. cbn. unfold pact at 2. rewrite E. exact K.
Qed.

(** ** Deadlock *)
Lemma full_blocked body p :
  (forall i l, nth_error (callers p) i = Some l -> l = [] \/ on p = true) ->
  (forall w x, nth_error (workers p) w = Some x -> exists f g l, x = Running f (g :: l)) ->
  length (queue p) = num p -> stuck body p.
Proof.
  intros C W Q [i|w]; cbn.
  - unfold caller_step. destruct (nth_error (callers p) i) as [[|f l]|] eqn:E; try reflexivity.
    destruct (C i _ E) as [X|X]; [discriminate|]. rewrite X. unfold send. rewrite Q, Nat.ltb_irrefl. reflexivity.
  - unfold worker_step. destruct (nth_error (workers p) w) as [x|] eqn:E; [|reflexivity].
    destruct (W w x E) as (f & g & l & ->). unfold send. rewrite Q, Nat.ltb_irrefl. reflexivity.
Qed.

Definition again (_ : nat) : list nat := [0].
Definition taking (n k : nat) (left_over : nat) : pool :=
  MkPool n true [] (repeat (Running 0 [0]) k ++ repeat Waiting (n - k)) [repeat 0 left_over] (repeat 0 k) (repeat 0 k) [].

Lemma repeat_end {A} (x : A) n : repeat x n ++ [x] = repeat x (S n).
Proof. induction n as [|n IH]; [reflexivity|]. cbn [repeat app]. rewrite IH. reflexivity. Qed.

Lemma put_mid {A} (x y : A) l : forall d, put (length d) y (d ++ x :: l) = (d ++ [y]) ++ l.
Proof. induction d as [|z d IH]; cbn; [reflexivity|f_equal; exact IH]. Qed.

Lemma take_one n k r : k < n -> prun again [PCaller 0; PWorker k] (taking n k (S r)) = taking n (S k) r.
Proof.
  intro K. unfold taking. replace (n - k) with (S (n - S k)) by lia. remember (n - S k) as d.
  change (repeat Waiting (S d)) with (Waiting :: repeat Waiting d). change (repeat 0 (S r)) with (0 :: repeat 0 r).
  set (ws := repeat (Running 0 [0]) k ++ Waiting :: repeat Waiting d).
  assert (E : nth_error ws k = Some Waiting).
  { unfold ws. rewrite nth_error_app2 by (rewrite repeat_length; lia). rewrite repeat_length, Nat.sub_diag. reflexivity. }
  assert (F : put k (Running 0 [0]) ws = repeat (Running 0 [0]) (S k) ++ repeat Waiting d).
  { unfold ws. rewrite <- (repeat_length (Running 0 [0]) k) at 1. rewrite put_mid, repeat_end. reflexivity. }
  cbn [prun fold_left]. unfold pact. cbn [pstep]. unfold caller_step. cbn [callers nth_error on].
  unfold send. cbn [queue length num]. destruct (Nat.ltb_spec 0 n); [|lia]. cbn [option_map].
  unfold with_caller. cbn [num on queue workers callers submitted begun finished put app].
  unfold worker_step. cbn [workers queue]. rewrite E. cbn [num on callers submitted begun finished again].
  rewrite !repeat_end. fold (again 0). unfold again. rewrite F. reflexivity.
Qed.

Lemma take_all n : forall k r, k <= n -> prun again (flat_map (fun w => [PCaller 0; PWorker w]) (seq 0 k)) (taking n 0 (k + r)) = taking n k r.
Proof.
  induction k as [|k IH]; intros r K; [reflexivity|].
  rewrite seq_S, flat_map_app, prun_app. replace (S k + r) with (k + S r) by lia. rewrite IH by lia.
  cbn [flat_map app]. apply take_one. lia.
Qed.

Lemma fill_all n ws b f : forall k q s, length q + k <= n ->
  prun again (repeat (PCaller 0) k) (MkPool n true q ws [repeat 0 k] s b f)
  = MkPool n true (q ++ repeat 0 k) ws [[]] (s ++ repeat 0 k) b f.
Proof.
  induction k as [|k IH]; intros q s K; [cbn; rewrite !app_nil_r; reflexivity|].
  cbn [repeat]. change (prun again (?m :: ?t) ?p) with (prun again t (pact again p m)).
  unfold pact. cbn [pstep]. unfold caller_step. cbn [callers nth_error on]. unfold send. cbn [queue num].
  destruct (Nat.ltb_spec (length q) n); [|lia]. cbn [option_map]. unfold with_caller.
  cbn [num on queue workers callers submitted begun finished put]. rewrite IH by (rewrite app_length; cbn; lia).
  rewrite <- !app_assoc. reflexivity.
Qed.

Lemma deadlock n : 0 < n -> exists sch, let p := prun again sch (pstart n [repeat 0 (n + n)]) in
  stuck again p /\ queue p = repeat 0 n /\ running p = repeat 0 n /\ finished p = [] /\ waiting_calls p = repeat 0 n.
Proof.
  intro N. exists ([PCaller 0] ++ flat_map (fun w => [PCaller 0; PWorker w]) (seq 0 n) ++ repeat (PCaller 0) n).
  rewrite !prun_app.
  assert (E : prun again [PCaller 0] (pstart n [repeat 0 (n + n)]) = taking n 0 (n + n)).
  { destruct n; [lia|]. reflexivity. }
  rewrite E, take_all by lia. unfold taking. rewrite fill_all by (cbn; lia). rewrite Nat.sub_diag. cbn [repeat app].
  rewrite app_nil_r. split; [|split; [reflexivity|split; [|split; [reflexivity|]]]].
  - apply full_blocked; cbn [callers workers queue num on].
    + auto.
    + intros w x H. apply nth_error_repeat in H. subst x. exists 0, 0, []. reflexivity.
    + apply repeat_length.
  - unfold running. cbn [workers]. clear. induction n; cbn; congruence.
  - unfold waiting_calls. cbn [workers callers concat app]. clear. induction n; cbn; congruence.
Qed.
