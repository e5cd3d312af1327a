(** Theorems on a peer that sends ahead: C95. *)
From Coq Require Import Lia.
From Verif Require Import PipelineModel PipelineSpec PipelineFacts.

(** The names of the model for what the specification sums up itself. *)
Ltac old_names := change total with sum in *; change asked_for with requests in *; change answer with reply in *; unfold complete, fits, unfinished, ordered in *; change total with sum in *; change asked_for with requests in *; change answer with reply in *;
  repeat match goal with
  | |- context [length (exchanges ?c)] => change (length (exchanges c)) with (count c)
  | H : context [length (exchanges ?c)] |- _ => change (length (exchanges c)) with (count c) in H
  end.

(** C95: every execution comes to rest. *)
Theorem C95_ends : forall c l,
  steps c l idle_line <= 2 * asked_for c (length (exchanges c)) + 2 * length (exchanges c) + 2 * replies c.
Proof.
  intros c l. old_names. pose proof (steps_progress c l idle_line) as E. pose proof (progress_bound c _ (reach c l)). cbn in E. lia.
Qed.
Print Assumptions C95_ends.

(** A peer that reads replies all the time gets all of them, whatever the runner
    and however small the buffers. *)
Theorem C95_always_reading : forall c l, buffered c -> habit c = Always ->
  at_rest c (flow c l idle_line) -> complete c (flow c l idle_line).
Proof.
  intros c l B H R. old_names. pose proof (reach c l) as S.
  destruct (rest_listening c _ S R B) as [W G]; [unfold listens; now rewrite H|].
  destruct (rest_complete c _ S R B W) as (E1 & E2 & E3). unfold complete; old_names.
  repeat (split; [assumption|]). rewrite G, W. now apply ordered_all.
Qed.
Print Assumptions C95_always_reading.

(** So does, with the default runner, a peer that reads only after its last request. *)
Theorem C95_default_runner : forall c l, buffered c -> habit c = Afterwards -> one_by_one c = false ->
  at_rest c (flow c l idle_line) -> complete c (flow c l idle_line).
Proof.
  intros c l B H O R. old_names. pose proof (reach c l) as S. set (s := flow c l idle_line) in *.
  assert (E : sent s = requests c (count c)).
  { destruct (rest_send c s S R) as [E|E]; [exact E|]. destruct B as [B1 B2]. pose proof S as [].
    destruct (Nat.eq_dec (handed s) (count c)) as [e|ne].
    - rewrite e in *. lia.
    - exfalso. assert (L : handed s < count c) by lia.
      destruct (rest_take c s S R L) as [T|T]; [|lia]. destruct (rest_hand c s R L T). congruence. }
  destruct (rest_listening c _ S R B) as [W G]; [unfold listens; rewrite H; now apply Nat.eqb_eq|].
  destruct (rest_complete c _ S R B W) as (E1 & E2 & E3). unfold complete; old_names.
  repeat (split; [assumption|]). rewrite G, W. now apply ordered_all.
Qed.
Print Assumptions C95_default_runner.

(** With SequentialRunner it gets everything exactly if its requests fit into
    the buffers behind the first reply that does not. *)
Theorem C95_one_by_one : forall c l, buffered c -> habit c = Afterwards -> one_by_one c = true ->
  at_rest c (flow c l idle_line) -> (complete c (flow c l idle_line) <-> fits c).
Proof.
  intros c l B H O R. old_names. pose proof (reach c l) as S. split.
  - intros (E & _) j Hj. destruct (Nat.le_gt_cases (requests c (count c)) (requests c (Datatypes.S j) + lim_in c)) as [L|L]; [exact L|].
    destruct (never_said c l j O) as (_ & F & _); [congruence|assumption|assumption|]. lia.
  - intro F. set (s := flow c l idle_line) in *.
    assert (E : sent s = requests c (count c)).
    { destruct (rest_send c s S R) as [E|E]; [exact E|]. destruct B as [B1 B2]. pose proof S as [].
      destruct (Nat.eq_dec (sent s) (requests c (count c))) as [e|ne]; [exact e|]. exfalso.
      destruct (Nat.eq_dec (handed s) (count c)) as [e|ne'].
      - rewrite e in *. lia.
      - assert (L : handed s < count c) by lia.
        destruct (rest_take c s S R L) as [T|T]; [|lia]. destruct (rest_hand c s R L T) as [_ D].
        destruct (PipelineFacts.i_seq c _ S O) as [Q D'].
        assert (W : written s <> ordered c s).
        { intro W. pose proof (rest_begun c s S R W) as A.
          destruct D' as [D'|[D' _]]; [destruct D; congruence|].
          assert (In (length (order s)) (order s)) as I by (apply A; lia).
          rewrite Q in I at 2. apply in_seq in I. lia. }
        destruct D' as [D'|[_ D']]; [|contradiction].
        destruct (rest_put c s S R) as [P|P]; [contradiction|].
        assert (G : got s = 0).
        { destruct (got s) as [|g] eqn:G; [reflexivity|]. exfalso. apply ne. apply (PipelineFacts.i_after c _ S); [exact H|]. lia. }
        pose proof (ordered_seq c s S O) as OS. rewrite <- D' in OS.
        specialize (F (handed s)). lia. }
    destruct (rest_listening c _ S R B) as [W G]; [unfold listens; rewrite H; now apply Nat.eqb_eq|].
    destruct (rest_complete c _ S R B W) as (E1 & E2 & E3). unfold complete; old_names.
    repeat (split; [assumption|]). rewrite G, W. now apply ordered_all.
Qed.
Print Assumptions C95_one_by_one.

(** If not, it never gets a single byte, and it never gets rid of its last request. *)
Theorem C95_locked : forall c l, habit c = Afterwards -> one_by_one c = true -> ~ fits c ->
  let s := flow c l idle_line in got s = 0 /\ sent s < asked_for c (length (exchanges c)).
Proof.
  intros c l H O F. old_names. cbn zeta.
  destruct (Nat.eq_dec (got (flow c l idle_line)) 0) as [G|G];
    destruct (le_lt_dec (requests c (count c)) (sent (flow c l idle_line))) as [L|L]; auto; exfalso; apply F; intros j Hj;
    destruct (Nat.le_gt_cases (requests c (count c)) (requests c (S j) + lim_in c)) as [K|K]; auto;
    destruct (never_said c l j O) as (F1 & F2 & _); try congruence; lia.
Qed.
Print Assumptions C95_locked.

(** What a peer that never reads costs the server: with SequentialRunner there
    is at any time at most one handler that has not returned; *)
Theorem C95_one_handler : forall c l, one_by_one c = true -> unfinished c (flow c l idle_line) <= 1.
Proof.
  intros c l O. old_names. pose proof (reach c l) as S. pose proof (order_length c _ S). 
  destruct (PipelineFacts.i_seq c _ S O) as [_ [D|[D W]]]; unfold unfinished; old_names.
  - rewrite D. destruct (_ <? _); lia.
  - rewrite D, W, Nat.ltb_irrefl. lia.
Qed.
Print Assumptions C95_one_handler.

(** with the default runner the number of handlers that have not returned is
    only limited by what the peer sends: all but those whose replies went into
    the buffers together. *)
Theorem C95_handlers_pile_up : forall c l, buffered c -> habit c = Never -> one_by_one c = false ->
  let s := flow c l idle_line in
  at_rest c s ->
  handed s = length (exchanges c) /\ exists through, NoDup through /\ incl through (seq 0 (length (exchanges c))) /\
    total (map (answer c) through) <= lim_out c /\ unfinished c s = length (exchanges c) - length through.
Proof.
  intros c l B H O. old_names. cbn zeta. intro R. pose proof (reach c l) as S. set (s := flow c l idle_line) in *.
  pose proof S as []. destruct B as [B1 B2].
  assert (E : handed s = count c).
  { destruct (Nat.eq_dec (handed s) (count c)) as [e|ne]; [exact e|]. exfalso.
    assert (L : handed s < count c) by lia.
    destruct (rest_take c s S R L) as [T|T].
    - destruct (rest_hand c s R L T). congruence.
    - destruct (rest_send c s S R) as [Q|Q]; [|lia].
      assert (T' : taken s = requests c (Datatypes.S (handed s))) by (pose proof (requests_le c (Datatypes.S (handed s))); lia).
      destruct (rest_hand c s R L T'). congruence. }
  assert (G : got s = 0).
  { clear - H. subst s. generalize (eq_refl : got idle_line = 0). generalize idle_line.
    induction l as [|a l IH]; intros s E; [exact E|]. cbn [flow]. apply IH.
    destruct (can c s a) eqn:C; [|exact E]. destruct a; cbn [act_on got]; try exact E.
    cbn [can] in C. unfold listens in C. rewrite H in C. discriminate. }
  split; [exact E|]. unfold unfinished; old_names. rewrite E.
  pose proof (order_length c s S) as OL.
  assert (I : forall m, incl m (order s) -> incl m (seq 0 (count c))).
  { intros m Hm i Hi. apply in_seq. pose proof (PipelineFacts.i_order c _ S i (Hm i Hi)). lia. }
  destruct (Nat.ltb_spec (written s) (sum (map (reply c) (order s)))) as [W|W].
  - destruct (order s) as [|x m _] eqn:D using rev_ind; [cbn in W; lia|].
    exists m. rewrite app_length in *. cbn [length] in *. split; [pose proof (PipelineFacts.i_nodup c _ S) as ND; rewrite D in ND; apply NoDup_remove_1 in ND; now rewrite app_nil_r in ND|].
    split; [apply I; intros i Hi; apply in_or_app; now left|].
    split; [pose proof (PipelineFacts.i_complete c _ S m x D); old_names; unfold ordered in *; lia|]. unfold ordered in *; rewrite ?D in *; lia.
  - exists (order s). split; [exact (PipelineFacts.i_nodup c _ S)|]. split; [apply I, incl_refl|].
    split; [unfold ordered in *; lia|]. lia.
Qed.
Print Assumptions C95_handlers_pile_up.

(** So if no reply fits alone, every handler is still there. *)
Theorem C95_all_pile_up : forall c l, buffered c -> habit c = Never -> one_by_one c = false ->
  (forall i, i < length (exchanges c) -> lim_out c < answer c i) ->
  let s := flow c l idle_line in at_rest c s -> unfinished c s = length (exchanges c).
Proof.
  intros c l B H O A. cbn zeta. intro R.
  destruct (C95_handlers_pile_up c l B H O R) as (_ & t & _ & I & W & E). rewrite E; clear E; old_names.
  destruct t as [|x t]; [cbn; lia|]. exfalso.
  assert (X : In x (seq 0 (count c))) by (apply I; now left). apply in_seq in X.
  specialize (A x). cbn [map sum fold_right] in W. lia.
Qed.
Print Assumptions C95_all_pile_up.

(** Five echo requests of 100 bytes over buffers of 150 bytes each way. *)
Definition echoes (seqr : bool) (h : reading) (n : nat) : setting := MkSetting seqr h 150 150 (repeat (100, 100) n).
Definition rounds (n : nat) : list act := concat (repeat [Send; Take; Hand; Begin 0; Begin 1; Begin 2; Begin 3; Begin 4; Put; Get] n).

(** One after another the fifth is too many, the fourth is not. *)
Example C95_fits_ex : fits (echoes true Afterwards 4) /\ ~ fits (echoes true Afterwards 5).
Proof.
  split.
  - intros j. destruct j as [|[|[|j]]]; vm_compute; lia.
  - intro F. specialize (F 2). vm_compute in F. lia.
Qed.

Example C95_locked_ex :
  let s := flow (echoes true Afterwards 5) (rounds 900) idle_line in
  sent s = 450 /\ taken s = 300 /\ handed s = 2 /\ got s = 0.
Proof. vm_compute. auto. Qed.

Example C95_complete_ex :
  got (flow (echoes true Afterwards 4) (rounds 1300) idle_line) = 400 /\
  got (flow (echoes false Afterwards 5) (rounds 1300) idle_line) = 500 /\
  got (flow (echoes true Always 5) (rounds 1300) idle_line) = 500.
Proof. vm_compute. auto. Qed.

Example C95_pile_up_ex : unfinished (echoes false Never 5) (flow (echoes false Never 5) (rounds 1300) idle_line) = 4.
Proof. vm_compute. reflexivity. Qed.

(** So not every peer that sends ahead is served. *)
Theorem C95_send_ahead_refuted : exists c, buffered c /\ habit c = Afterwards /\
  forall l, ~ complete c (flow c l idle_line).
Proof.
  exists (echoes true Afterwards 5). split; [vm_compute; lia|]. split; [reflexivity|].
  intros l (E & _). pose proof (C95_locked (echoes true Afterwards 5) l eq_refl eq_refl (proj2 C95_fits_ex)) as [_ F].
  cbn zeta in F. apply (Nat.lt_irrefl (sent (flow (echoes true Afterwards 5) l idle_line))). rewrite E at 2. exact F.
Qed.
Print Assumptions C95_send_ahead_refuted.
