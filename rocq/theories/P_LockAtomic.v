(** C125: with matchers that leave the multiplexer alone the lock makes operations happen as
    if one at a time, except that requests for the same disposable entry can be lost. *)
From Verif Require Import LockModel LockSpec LockFacts P_Lock LockAtomicSpec.

Lemma choose_all n : forall e0 l x rest, choose n e0 l = (x, rest) -> forall y, In y (x :: rest) <-> In y (e0 :: l).
Proof.
  induction n as [|n IH]; intros e0 l x rest H y; [injection H as <- <-; reflexivity|].
  destruct l as [|f l]; [injection H as <- <-; reflexivity|]. cbn in H. destruct (choose n f l) as [x' rest'] eqn:E. injection H as <- <-.
  specialize (IH _ _ _ _ E y). cbn [In] in *. tauto.
Qed.

Lemma there_spec p es : there p es = true <-> exists o, In (p, o) es.
Proof.
  unfold there. rewrite existsb_exists. split.
  - intros ([q o] & I & E). apply Nat.eqb_eq in E. cbn in E. subst. now exists o.
  - intros (o & I). exists (p, o). split; [exact I|apply Nat.eqb_refl].
Qed.

(** What goroutine [i] has still to finish, and what it knows in the loop. *)
Definition pending (st : list frame) : option (list lop) :=
  match st with
  | [Todo l] => Some l
  | [Looking _ r; Todo l] | [Todo []; Asking _ _ r; Todo l] => Some (LServe r :: l)
  | [Announced (Add p once); Todo l] => Some (LRegister p once :: l)
  | _ => None
  end.
Definition knows (ms : matchers) (M : list entry) (st : list frame) : Prop :=
  match st with
  | Looking rest r :: _ => incl rest M /\ forall e, In e M -> In e rest \/ says ms (fst e) r = false
  | Todo _ :: Asking x rest r :: _ => incl (x :: rest) M /\ forall e, In e M -> In e (x :: rest) \/ says ms (fst e) r = false
  | _ => True
  end.

Definition orderly (ms : matchers) (prog : nat -> list lop) (s : lmux) : Prop :=
  in_turn (fun _ => alone ms) prog (fin s) (ents s)
  /\ Forall (fun e => snd e = false) (ents s)
  /\ forall i, knows ms (ents s) (stacks s i) /\ pending (stacks s i) = Some (skipn (share i (fin s)) (prog i)).

Lemma share_snoc i h k d : share i (h ++ [(k, d)]) = share i h + (if k =? i then 1 else 0).
Proof. unfold share. rewrite filter_app, app_length. cbn. now destruct (k =? i). Qed.

Lemma skipn_head {A} (l : list A) : forall n x r, skipn n l = x :: r -> nth_error l n = Some x /\ skipn (S n) l = r.
Proof.
  induction l as [|a l IH]; intros [|n] x r H; try discriminate.
  - injection H as <- <-. auto.
  - apply IH, H.
Qed.

Lemma in_skipn {A} (l : list A) : forall n x, In x (skipn n l) -> In x l.
Proof. induction l as [|a l IH]; intros [|n] x H; try exact H. right. eapply IH, H. Qed.

Lemma no_reader s i : sound s -> rds s = [] -> holds (stacks s i) = 0.
Proof. intros (_ & Ct & _) R. now rewrite <- Ct, R. Qed.

(** A step in which goroutine [k] finishes its operation. *)
Lemma ends ms prog s k o d M' st l :
  orderly ms prog s -> pending (stacks s k) = Some (o :: l) -> alone ms (ents s) o d M' ->
  Forall (fun e => snd e = false) M' ->
  st = [Todo l] -> (forall i, i <> k -> knows ms M' (stacks s i)) ->
  in_turn (fun _ => alone ms) prog (fin s ++ [(k, d)]) M' /\ Forall (fun e => snd e = false) M'
  /\ forall i, knows ms M' (set k st (stacks s) i)
       /\ pending (set k st (stacks s) i) = Some (skipn (share i (fin s ++ [(k, d)])) (prog i)).
Proof.
  intros (T & P & K) E A F -> Kn. destruct (K k) as [_ Ek]. rewrite Ek in E. injection E as E. apply skipn_head in E as [N R].
  split; [eapply ZNext; eauto|]. split; [exact F|]. intro i. rewrite share_snoc. destruct (Nat.eqb_spec k i) as [->|Ne].
  - rewrite set_same. split; [exact I|]. rewrite Nat.add_1_r, R. now destruct l.
  - rewrite set_other by congruence. rewrite Nat.add_0_r. split; [apply Kn; congruence|apply K].
Qed.

(** A step in which it goes on with it. *)
Lemma goes_on ms prog s k st :
  orderly ms prog s -> pending st = pending (stacks s k) -> knows ms (ents s) st ->
  forall i, knows ms (ents s) (set k st (stacks s) i) /\ pending (set k st (stacks s) i) = Some (skipn (share i (fin s)) (prog i)).
Proof.
  intros (T & P & K) E Kn i. destruct (Nat.eq_dec i k) as [->|Ne].
  - rewrite set_same, E. split; [exact Kn|apply K].
  - rewrite set_other by exact Ne. apply K.
Qed.

Lemma orderly_step ms prog k n s s' : quiet ms -> (forall i, permanent (prog i)) -> sound s -> (forall j, flat (stacks s j)) ->
  orderly ms prog s -> lstep ms k n s = Some s' -> orderly ms prog s'.
Proof.
  intros Qt Pm So F O H. pose proof O as (T & P & K). destruct (K k) as [Kk Pk]. pose proof (F k) as Fk. unfold lstep in H.
  assert (Perm : forall p once l, skipn (share k (fin s)) (prog k) = LRegister p once :: l -> once = false).
  { intros p once l E. destruct once; [|reflexivity]. exfalso. apply (Pm k p), (in_skipn _ (share k (fin s))). rewrite E. now left. }
  inversion Fk as [l Es|rest r l Es|e rest r l Es|w l Es|w l Es]; symmetry in Es; rewrite Es in H, Kk, Pk; cbn [knows] in Kk.
  - destruct l as [|[p once|r] l]; [discriminate| |]; (destruct (ann s) eqn:A; [discriminate|]); injection H as <-;
      (split; [exact T|]); (split; [exact P|]); cbn [ents stacks fin]; apply goes_on; auto; rewrite ?Es; try reflexivity; try exact I.
    split; [apply incl_refl|]. intros e He. now left.
  - destruct rest as [|e0 rest0].
    + injection H as <-. unfold orderly. cbn [ents stacks fin].
      apply (ends ms prog s k (LServe r) (Found None) (ents s) [Todo l] l); auto; [now rewrite Es| |intros i _; apply K].
      apply AMisses. intros e He. destruct (proj2 Kk e He) as [[]|Y]. exact Y.
    + destruct (choose n e0 rest0) as [x rest] eqn:C. injection H as <-. pose proof (choose_all _ _ _ _ _ C) as Al.
      split; [exact T|]. split; [exact P|]. cbn [ents stacks fin]. rewrite Qt. apply goes_on; auto; [now rewrite Es|]. destruct Kk as [Ki Ka].
      split; [intros y Hy; apply Ki, Al, Hy|]. intros y Hy. destruct (Ka y Hy) as [G|G]; [left; now apply Al|now right].
  - destruct Kk as [Ki Ka]. destruct (says ms (fst e) r) eqn:Y.
    + assert (Pe : snd e = false) by (rewrite Forall_forall in P; apply P, Ki; now left). rewrite Pe in H. injection H as <-.
      unfold orderly. cbn [ents stacks fin].
      apply (ends ms prog s k (LServe r) (Found (Some e)) (ents s) [Todo l] l); auto; [now rewrite Es| |intros i _; apply K].
      apply AFinds; [apply Ki; now left|exact Y].
    + injection H as <-. split; [exact T|]. split; [exact P|]. cbn [ents stacks fin]. apply goes_on; auto; [now rewrite Es|].
      split; [intros y Hy; apply Ki; now right|]. intros y Hy. destruct (Ka y Hy) as [[G|G]|G]; [subst y; now right|now left|now right].
  - discriminate.
  - destruct (rds s) as [|j js] eqn:R; [|discriminate]. injection H as <-. destruct w as [p once|p]; [|discriminate].
    cbn [pending] in Pk. injection Pk as Pk. pose proof (Perm p once l (eq_sym Pk)) as ->.
    unfold orderly. cbn [ents stacks fin].
    apply (ends ms prog s k (LRegister p false) (Wrote (Add p false) (ents s)) _ [Todo l] l); auto; [now rewrite Es| | |].
    + cbn [apply]. destruct (there p (ents s)) eqn:Th; [apply there_spec in Th as [o Ho]; eapply ATwice, Ho|].
      apply AAdds. intros o Ho. assert (X : there p (ents s) = true) by (apply there_spec; eauto). congruence.
    + cbn [apply]. destruct (there p (ents s)); [exact P|]. constructor; [reflexivity|exact P].
    + intros i _. pose proof (no_reader s i So R) as Nr. destruct (F i); cbn in Nr; try discriminate; exact I.
Qed.

(** C125: whatever the schedule, as long as matchers leave the multiplexer alone and nothing
    disposable is registered, the results are those of the operations carried out one at a
    time in the order in which they ended, those of each goroutine in its order. *)
Theorem C125_one_at_a_time : forall ms prog sch, let s := lrun ms sch (lstart [] prog) in
  quiet ms -> (forall i, permanent (prog i)) -> in_turn (fun _ => alone ms) prog (fin s) (ents s).
Proof.
  intros ms prog sch s Qt Pm.
  enough (X : sound s /\ (forall j, flat (stacks s j)) /\ orderly ms prog s) by apply X.
  unfold s. clear s.
  assert (G : forall sch s, sound s /\ (forall j, flat (stacks s j)) /\ orderly ms prog s ->
    let s' := lrun ms sch s in sound s' /\ (forall j, flat (stacks s' j)) /\ orderly ms prog s').
  { clear sch. induction sch as [|a sch IH]; intros s X; [exact X|]. cbn. apply IH. unfold lact.
    destruct (lstep ms (fst a) (snd a) s) as [s'|] eqn:E; [|exact X]. destruct X as (So & F & O). pose proof (lstep_trans _ _ _ _ _ E) as Tr.
    split; [eapply sound_next; eauto|]. split; [eapply flat_step; eauto|]. eapply orderly_step; eauto. }
  apply G. split; [apply (sound_run ms [] prog [])|]. split; [apply (flat_run ms [] prog [] Qt)|].
  split; [constructor|]. split; [constructor|]. intro i. cbn. split; [exact I|]. destruct (prog i); reflexivity.
Qed.
Print Assumptions C125_one_at_a_time.

(** Two goroutines register matcher 7, and dispatch a request that it accepts; a third
    dispatches between. *)
Definition two_regs (i : nat) : list lop :=
  match i with 0 => [LRegister 7 false; LServe 1] | 1 => [LRegister 7 false] | 2 => [LServe 1] | _ => [] end.
Definition sevens : matchers := MkMatchers (fun _ _ => []) (fun p _ => p =? 7).
Example C125_one_at_a_time_ex :
  let s := lrun sevens [(2, 0); (0, 0); (2, 0); (1, 0); (0, 0); (1, 0); (0, 0); (1, 0); (0, 0); (1, 0); (0, 0); (0, 0); (0, 0); (1, 0); (1, 0)]
             (lstart [] two_regs) in
  quiet sevens /\ (forall i, permanent (two_regs i))
  /\ fin s = [(2, Found None); (0, Wrote (Add 7 false) []); (1, Wrote (Add 7 false) [(7, false)]); (0, Found (Some (7, false)))]
  /\ ents s = [(7, false)].
Proof.
  split; [intros p r; reflexivity|]. split; [|vm_compute; auto].
  intros i p. destruct i as [|[|[|i]]]; cbn; intuition discriminate.
Qed.

(** ** With disposable entries *)

(** Matcher [p] is registered or has been taken. *)
Definition known (s : lmux) (p : nat) : Prop :=
  (exists o, In (p, o) (ents s)) \/ exists j M0 o, In (j, Wrote (Remove p) M0) (fin s) /\ In (p, o) M0.

(** Goroutine with stack [st] has still to finish [l]. *)
Inductive waits (ms : matchers) (s : lmux) : list frame -> list lop -> Prop :=
| wt_todo l : waits ms s [Todo l] l
| wt_look rest r l : waits ms s [Looking rest r; Todo l] (LServe r :: l)
| wt_ask e rest r l : waits ms s [Todo []; Asking e rest r; Todo l] (LServe r :: l)
| wt_add p once l : waits ms s [Announced (Add p once); Todo l] (LRegister p once :: l)
| wt_wants p r l : says ms p r = true -> known s p -> waits ms s [Wants (Remove p); Todo l] (LServe r :: l)
| wt_take p r l : says ms p r = true -> known s p -> waits ms s [Announced (Remove p); Todo l] (LServe r :: l).

Definition orderly1 (ms : matchers) (prog : nat -> list lop) (s : lmux) : Prop :=
  in_turn (taking ms) prog (fin s) (ents s)
  /\ forall i, knows ms (ents s) (stacks s i) /\ waits ms s (stacks s i) (skipn (share i (fin s)) (prog i)).

Lemma waits_mono ms s s' st l : (forall p, known s p -> known s' p) -> waits ms s st l -> waits ms s' st l.
Proof. intros H W. destruct W; constructor; auto. Qed.

Lemma known_fin s s' x : ents s' = ents s -> fin s' = fin s ++ x -> forall p, known s p -> known s' p.
Proof.
  intros E F p [(o & H)|(j & M0 & o & H & K)]; [left; exists o; now rewrite E|right; exists j, M0, o; rewrite F; split; [apply in_or_app; now left|exact K]].
Qed.

Lemma known_write s s' w k : ents s' = apply w (ents s) -> fin s' = fin s ++ [(k, Wrote w (ents s))] -> forall p, known s p -> known s' p.
Proof.
  intros E F p [(o & H)|(j & M0 & o & H & K)].
  - destruct w as [q once|q]; cbn in E.
    + left. exists o. rewrite E. destruct (there q (ents s)); [exact H|now right].
    + destruct (Nat.eq_dec p q) as [->|N].
      * right. exists k, (ents s), o. rewrite F. split; [apply in_or_app; right; now left|exact H].
      * left. exists o. rewrite E. apply filter_In. split; [exact H|]. cbn. destruct (Nat.eqb_spec p q); [contradiction|reflexivity].
  - right. exists j, M0, o. rewrite F. split; [apply in_or_app; now left|exact K].
Qed.

Lemma ends1 ms prog s s' k o d l :
  orderly1 ms prog s -> waits ms s (stacks s k) (o :: l) -> skipn (share k (fin s)) (prog k) = o :: l ->
  taking ms (fin s) (ents s) o d (ents s') -> fin s' = fin s ++ [(k, d)] -> stacks s' = set k [Todo l] (stacks s) ->
  (forall p, known s p -> known s' p) -> (forall i, i <> k -> knows ms (ents s') (stacks s i)) -> orderly1 ms prog s'.
Proof.
  intros (T & K) W E A F St Kn Ks. apply skipn_head in E as [N R]. unfold orderly1. rewrite F, St.
  split; [eapply ZNext; eauto|]. intro i. rewrite share_snoc. destruct (Nat.eqb_spec k i) as [->|Ne].
  - rewrite set_same. split; [exact I|]. rewrite Nat.add_1_r, R. constructor.
  - rewrite set_other by congruence. rewrite Nat.add_0_r. split; [apply Ks; congruence|]. eapply waits_mono; [exact Kn|apply K].
Qed.

Lemma goes_on1 ms prog s s' k st :
  orderly1 ms prog s -> ents s' = ents s -> fin s' = fin s -> stacks s' = set k st (stacks s) ->
  waits ms s st (skipn (share k (fin s)) (prog k)) -> knows ms (ents s) st -> orderly1 ms prog s'.
Proof.
  intros (T & K) E F St W Kn. unfold orderly1. rewrite E, F, St. split; [exact T|].
  assert (M : forall p, known s p -> known s' p) by (apply (known_fin s s' []); [exact E|now rewrite app_nil_r]).
  intro i. destruct (Nat.eq_dec i k) as [->|Ne].
  - rewrite set_same. split; [exact Kn|eapply waits_mono; eauto].
  - rewrite set_other by exact Ne. split; [apply K|eapply waits_mono; [exact M|apply K]].
Qed.

Lemma orderly1_step ms prog k n s s' : quiet ms -> sound s -> orderly1 ms prog s -> lstep ms k n s = Some s' -> orderly1 ms prog s'.
Proof.
  intros Qt So O H. pose proof O as (T & K). destruct (K k) as [Kk Wk]. unfold lstep in H.
  remember (stacks s k) as st eqn:Es. remember (skipn (share k (fin s)) (prog k)) as todo eqn:Et. pose proof Wk as Wk'.
  assert (Quiet : rds s = [] -> forall M' i, knows ms M' (stacks s i)).
  { intros R M' i. pose proof (no_reader s i So R) as Nr. destruct (K i) as [_ Wi].
    destruct Wi; cbn in Nr; try discriminate; exact I. }
  destruct Wk as [l|rest r l|e rest r l|p once l|p r l Y Kp|p r l Y Kp]; cbn [knows] in Kk.
  - destruct l as [|[p once|r] l]; [discriminate| |]; (destruct (ann s) eqn:A; [discriminate|]); injection H as <-;
      (eapply goes_on1; [exact O|reflexivity..| |]); rewrite <- ?Et; try constructor; [apply incl_refl|intros e He; now left].
  - destruct rest as [|e0 rest0].
    + injection H as <-. apply (ends1 ms prog s _ k (LServe r) (Found None) l); auto; [now rewrite <- Es| | |intros i _; apply K].
      * apply GAlone; [|discriminate]. apply AMisses. intros e He. destruct (proj2 Kk e He) as [[]|Y]. exact Y.
      * eapply known_fin; reflexivity.
    + destruct (choose n e0 rest0) as [x rest] eqn:C. injection H as <-. pose proof (choose_all _ _ _ _ _ C) as Al. rewrite Qt.
      eapply goes_on1; [exact O|reflexivity..| |]; rewrite <- ?Et; [constructor|]. destruct Kk as [Ki Ka].
      split; [intros y Hy; apply Ki, Al, Hy|]. intros y Hy. destruct (Ka y Hy) as [G|G]; [left; now apply Al|now right].
  - destruct Kk as [Ki Ka]. destruct (says ms (fst e) r) eqn:Y.
    + destruct (snd e) eqn:Pe; injection H as <-.
      * eapply goes_on1; [exact O|reflexivity..| |exact I]; rewrite <- ?Et. constructor; [exact Y|].
        left. exists (snd e). rewrite <- surjective_pairing. apply Ki. now left.
      * apply (ends1 ms prog s _ k (LServe r) (Found (Some e)) l); auto; [now rewrite <- Es| | |intros i _; apply K].
        -- apply GAlone; [apply AFinds; [apply Ki; now left|exact Y]|]. intros e' X. now injection X as <-.
        -- eapply known_fin; reflexivity.
    + injection H as <-. eapply goes_on1; [exact O|reflexivity..| |]; rewrite <- ?Et; [constructor|].
      split; [intros y Hy; apply Ki; now right|]. intros y Hy. destruct (Ka y Hy) as [[G|G]|G]; [subst y; now right|now left|now right].
  - destruct (rds s) as [|j js] eqn:R; [|discriminate]. injection H as <-.
    apply (ends1 ms prog s _ k (LRegister p once) (Wrote (Add p once) (ents s)) l); auto; [now rewrite <- Es| |].
    + apply GAlone; [|discriminate]. cbn [ents apply]. destruct (there p (ents s)) eqn:Th; [apply there_spec in Th as [o Ho]; eapply ATwice, Ho|].
      apply AAdds. intros o Ho. assert (X : there p (ents s) = true) by (apply there_spec; eauto). congruence.
    + apply (known_write s _ (Add p once) k); reflexivity.
  - destruct (ann s) eqn:A; [discriminate|]. injection H as <-. eapply goes_on1; [exact O|reflexivity..| |exact I]; rewrite <- ?Et. now constructor.
  - destruct (rds s) as [|j js] eqn:R; [|discriminate]. injection H as <-.
    apply (ends1 ms prog s _ k (LServe r) (Wrote (Remove p) (ents s)) l); auto; [now rewrite <- Es| |].
    + cbn [ents apply]. destruct (there p (ents s)) eqn:Th; [apply there_spec in Th as [o Ho]; eapply GTakes; eauto|].
      assert (No : forall o, ~ In (p, o) (ents s)).
      { intros o Ho. assert (X : there p (ents s) = true) by (apply there_spec; eauto). congruence. }
      destruct Kp as [(o & Ho)|(j & M0 & o & Hj & Ho)]; [destruct (No o Ho)|].
      assert (Id : filter (fun e => negb (fst e =? p)) (ents s) = ents s).
      { revert No. generalize (ents s). induction l0 as [|[q o'] es IH]; intro No; [reflexivity|]. cbn.
        destruct (Nat.eqb_spec q p) as [->|Nq]; [destruct (No o'); now left|]. cbn. f_equal. apply IH. intros o1 H1. apply (No o1). now right. }
      rewrite Id. eapply GLost; eauto.
    + apply (known_write s _ (Remove p) k); reflexivity.
Qed.

(** C125: with disposable entries as well the results are those of operations carried out one
    at a time in the order in which they ended, but a request whose disposable entry
    another request has taken meanwhile is lost. *)
Theorem C125_one_at_a_time_but_lost : forall ms prog sch, let s := lrun ms sch (lstart [] prog) in
  quiet ms -> in_turn (taking ms) prog (fin s) (ents s).
Proof.
  intros ms prog sch s Qt.
  enough (X : sound s /\ orderly1 ms prog s) by apply X.
  unfold s. clear s.
  assert (G : forall sch s, sound s /\ orderly1 ms prog s -> let s' := lrun ms sch s in sound s' /\ orderly1 ms prog s').
  { clear sch. induction sch as [|a sch IH]; intros s X; [exact X|]. cbn. apply IH. unfold lact.
    destruct (lstep ms (fst a) (snd a) s) as [s'|] eqn:E; [|exact X]. destruct X as (So & O). pose proof (lstep_trans _ _ _ _ _ E) as Tr.
    split; [eapply sound_next; eauto|]. eapply orderly1_step; eauto. }
  apply G. split; [apply (sound_run ms [] prog [])|].
  split; [constructor|]. intro i. cbn. split; [exact I|]. constructor.
Qed.
Print Assumptions C125_one_at_a_time_but_lost.

(** Two requests for one disposable entry; the second is lost. *)
Definition one_for_two (i : nat) : list lop :=
  match i with 0 => [LRegister 7 true; LServe 1] | 1 => [LServe 1] | _ => [] end.
Example C125_one_at_a_time_but_lost_ex :
  let s := lrun sevens [(0, 0); (0, 0); (0, 0); (1, 0); (0, 0); (1, 0); (0, 0); (1, 0); (0, 0); (0, 0); (1, 0); (1, 0)] (lstart [] one_for_two) in
  quiet sevens
  /\ fin s = [(0, Wrote (Add 7 true) []); (0, Wrote (Remove 7) [(7, true)]); (1, Wrote (Remove 7) [])] /\ ents s = [].
Proof. split; [intros p r; reflexivity|]. vm_compute. auto. Qed.

(** ** Every order can occur *)

Definition resting (prog : nat -> list lop) (h : list (nat * done)) (M : list entry) (s : lmux) : Prop :=
  ents s = M /\ rds s = [] /\ ann s = None /\ fin s = h /\ forall i, stacks s i = [Todo (skipn (share i h) (prog i))].

Lemma run_step ms i n s s1 (P : lmux -> Prop) : lstep ms i n s = Some s1 -> (exists sch, P (lrun ms sch s1)) -> exists sch, P (lrun ms sch s).
Proof. intros E (sch & H). exists ((i, n) :: sch). cbn. unfold lact. cbn [fst snd]. rewrite E. exact H. Qed.

Lemma choose_any x l : forall e0, In x (e0 :: l) -> exists n rest, choose n e0 l = (x, rest).
Proof.
  induction l as [|f l IH]; intros e0 [<-|H]; [exists 0, []; reflexivity|destruct H|exists 0, (f :: l); reflexivity|].
  destruct (IH f H) as (n & rest & E). exists (S n). cbn. rewrite E. eexists. reflexivity.
Qed.

Lemma rest_after prog h i d o l s : (forall j, j <> i -> stacks s j = [Todo (skipn (share j h) (prog j))]) ->
  skipn (share i h) (prog i) = o :: l -> stacks s i = [Todo l] ->
  forall j, stacks s j = [Todo (skipn (share j (h ++ [(i, d)])) (prog j))].
Proof.
  intros H E St j. apply skipn_head in E as [_ R]. rewrite share_snoc. destruct (Nat.eqb_spec i j) as [<-|N].
  - now rewrite Nat.add_1_r, R.
  - rewrite Nat.add_0_r. apply H. congruence.
Qed.

Lemma nth_skipn {A} (l : list A) : forall n x, nth_error l n = Some x -> skipn n l = x :: skipn (S n) l.
Proof. induction l as [|a l IH]; intros [|n] x H; try discriminate; [now injection H as ->|apply IH, H]. Qed.

Definition missed (i : nat) (l : list lop) (s s' : lmux) : Prop :=
  ents s' = ents s /\ rds s' = [] /\ ann s' = ann s /\ fin s' = fin s ++ [(i, Found None)] /\ stacks s' i = [Todo l]
  /\ forall j, j <> i -> stacks s' j = stacks s j.

Lemma misses_all ms i r l : quiet ms -> forall rest s, (forall e, In e rest -> says ms (fst e) r = false) ->
  stacks s i = [Looking rest r; Todo l] -> rds s = [i] ->
  exists sch, missed i l s (lrun ms sch s).
Proof.
  intros Qt. intro rest. remember (length rest) as n eqn:Hn. revert rest Hn.
  induction n as [|n IH]; intros rest Hn s No St R; (destruct rest as [|e rest]; [|]); try discriminate Hn.
  - eapply (run_step ms i 0 s _ (missed i l s)); [unfold lstep; rewrite St; reflexivity|]. exists []. unfold missed. cbn. rewrite R. cbn. rewrite Nat.eqb_refl, set_same.
    repeat split; auto. intros j N. now rewrite set_other.
  - injection Hn as Hn. eapply (run_step ms i 0 s _ (missed i l s)); [unfold lstep; rewrite St; cbn [choose]; reflexivity|]. rewrite Qt.
    eapply (run_step ms i 0 _ _ (missed i l s)); [unfold lstep; cbn [stacks]; rewrite set_same; rewrite (No e (or_introl eq_refl)); reflexivity|]. cbn [ents rds ann fin stacks].
    destruct (IH rest Hn (MkLmux (ents s) (rds s) (ann s) (set i [Looking rest r; Todo l] (set i [Todo []; Asking e rest r; Todo l] (stacks s))) (fin s)))
      as (sch & A & B & C & D & E & F); [intros x Hx; apply No; now right|apply set_same|exact R|].
    exists sch. cbn [ents rds ann fin stacks] in *. repeat (split; [assumption|]). intros j N. rewrite F by exact N. now rewrite !set_other.
Qed.

Lemma resting_next ms prog h M i o d M' s : quiet ms -> resting prog h M s -> nth_error (prog i) (share i h) = Some o ->
  alone ms M o d M' -> (forall e, d = Found (Some e) -> snd e = false) ->
  exists sch, resting prog (h ++ [(i, d)]) M' (lrun ms sch s).
Proof.
  intros Qt (E & R & A & F & St) N Al Pe. apply nth_skipn in N. pose proof (St i) as Si. rewrite N in Si.
  set (l := skipn (S (share i h)) (prog i)) in *.
  assert (Wr : forall p once, o = LRegister p once -> d = Wrote (Add p once) M -> M' = apply (Add p once) M ->
    exists sch, resting prog (h ++ [(i, d)]) M' (lrun ms sch s)).
  { intros p once -> -> ->. eapply (run_step ms i 0); [unfold lstep; rewrite Si, A; reflexivity|].
    eapply (run_step ms i 0); [unfold lstep; cbn [stacks]; rewrite set_same; cbn [rds]; rewrite R; reflexivity|].
    exists []. cbn [lrun fold_left]. unfold resting. cbn [ents rds ann fin]. rewrite E, F. repeat (split; [reflexivity|]).
    eapply rest_after; [|exact N|cbn [stacks]; apply set_same]. intros j Nj. cbn [stacks]. rewrite !set_other by exact Nj. apply St. }
  destruct Al as [p once No|p once o' Hi|r e Hi Y|r No].
  - apply (Wr p once); auto. cbn. destruct (there p M) eqn:Th; [|reflexivity]. apply there_spec in Th as [o Ho]. destruct (No o Ho).
  - apply (Wr p once); auto. cbn. now rewrite (proj2 (there_spec p M) (ex_intro _ o' Hi)).
  - eapply (run_step ms i 0); [unfold lstep; rewrite Si, A; reflexivity|]. rewrite E, R. destruct M as [|e0 M]; [destruct Hi|].
    destruct (choose_any _ _ _ Hi) as (n & rest & C).
    eapply (run_step ms i n); [unfold lstep; cbn [stacks]; rewrite set_same, C; reflexivity|]. rewrite Qt.
    eapply (run_step ms i 0); [unfold lstep; cbn [stacks]; rewrite set_same, Y, (Pe e eq_refl); reflexivity|].
    exists []. cbn [lrun fold_left]. unfold resting. cbn [ents rds ann fin release]. rewrite F, Nat.eqb_refl. repeat (split; [reflexivity|]).
    eapply rest_after; [|exact N|cbn [stacks]; apply set_same]. intros j Nj. cbn [stacks]. rewrite !set_other by exact Nj. apply St.
  - eapply (run_step ms i 0); [unfold lstep; rewrite Si, A; reflexivity|]. rewrite E, R.
    destruct (misses_all ms i r l Qt M (MkLmux M [i] None (set i [Looking M r; Todo l] (stacks s)) (fin s)) No) as (sch & B1 & B2 & B3 & B4 & B5 & B6);
      [apply set_same|reflexivity|]. exists sch. cbn [ents rds ann fin stacks] in *. unfold resting.
    do 3 (split; [assumption|]). split; [now rewrite B4, F|]. eapply rest_after; [|exact N|exact B5]. intros j Nj. rewrite B6 by exact Nj. rewrite set_other by exact Nj. apply St.
Qed.

(** C125: nothing more is guaranteed about the order, nor about which of several entries that
    accept a request gets it: whatever is possible one at a time happens in some run. *)
Theorem C125_any_order : forall ms prog h M, quiet ms -> (forall i, permanent (prog i)) ->
  in_turn (fun _ => alone ms) prog h M ->
  exists sch, let s := lrun ms sch (lstart [] prog) in fin s = h /\ ents s = M.
Proof.
  intros ms prog h M Qt Pm T.
  assert (X : Forall (fun e => snd e = false) M /\ exists sch, resting prog h M (lrun ms sch (lstart [] prog))).
  { induction T as [|h M i o d M' T [P (sch & X)] N Al]; [split; [constructor|]; exists []; repeat split|]. split.
    - destruct Al; auto. constructor; [|exact P]. cbn. destruct once; [|reflexivity]. destruct (Pm i p). eapply nth_error_In, N.
    - destruct (resting_next ms prog h M i o d M' _ Qt X N Al) as (sch' & Y).
      + intros e ->. inversion Al; subst. rewrite Forall_forall in P. now apply P.
      + exists (sch ++ sch'). unfold lrun in *. now rewrite fold_left_app. }
  destruct X as [_ (sch & X1 & _ & _ & X2 & _)]. exists sch. split; [exact X2|exact X1].
Qed.
Print Assumptions C125_any_order.

(** Matchers 7 and 8 accept the request; goroutine 1 gets the entry registered first. *)
Definition either : matchers := MkMatchers (fun _ _ => []) (fun _ _ => true).
Definition two_kinds (i : nat) : list lop :=
  match i with 0 => [LRegister 7 false; LRegister 8 false] | 1 => [LServe 1] | _ => [] end.
Example C125_any_order_ex : quiet either /\ (forall i, permanent (two_kinds i))
  /\ in_turn (fun _ => alone either) two_kinds
       [(0, Wrote (Add 7 false) []); (0, Wrote (Add 8 false) [(7, false)]); (1, Found (Some (7, false)))] [(8, false); (7, false)].
Proof.
  split; [intros p r; reflexivity|]. split; [intros i p; destruct i as [|[|i]]; cbn; intuition discriminate|].
  apply (ZNext _ _ [(0, Wrote (Add 7 false) []); (0, Wrote (Add 8 false) [(7, false)])] [(8, false); (7, false)] 1 (LServe 1)); [|reflexivity|].
  - apply (ZNext _ _ [(0, Wrote (Add 7 false) [])] [(7, false)] 0 (LRegister 8 false)); [|reflexivity|].
    + apply (ZNext _ _ [] [] 0 (LRegister 7 false)); [constructor|reflexivity|]. apply AAdds. intros o [].
    + apply AAdds. intros o [H|[]]. discriminate.
  - apply AFinds; [right; now left|reflexivity].
Qed.
