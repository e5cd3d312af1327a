(** Theorems on ReadTimeout and the time handlers take: C97. *)
From Coq Require Import Lia.
From Verif Require Import WaitModel WaitSpec WaitFacts.

(** The events of a schedule that happen before the connection has settled. *)
Fixpoint hurry (c : talk) (l : list event) (s : moment) : nat :=
  match l with
  | [] => 0
  | e :: l' => match happen c s e with
               | Some s' => (if settled_dec s then 0 else 1) + hurry c l' s'
               | None => hurry c l' s
               end
  end.

(** C97: every execution settles. *)
Theorem C97_settles : forall c l,
  hurry c l (accepted c) <= 4 * length (rounds c) + 2 + fsum (map fst (rounds c)) + fsum (map snd (rounds c)).
Proof.
  intros c l. assert (H : forall l s, phase c s -> hurry c l s <= remaining c s).
  { clear l. induction l as [|e l IH]; intros s P; [cbn; lia|]. cbn [hurry]. destruct (happen c s e) as [s'|] eqn:H; [|now apply IH].
    assert (P' : phase c s') by (pose proof (phase_history c [e] s P) as Q; cbn [history] in Q; now rewrite H in Q).
    destruct (settled_dec s) as [S|S].
    - assert (Z : forall l s, settled s -> hurry c l s = 0).
      { clear. induction l as [|e l IH]; intros s S; [reflexivity|]. cbn [hurry]. destruct (happen c s e) as [s'|] eqn:H; [|auto].
        destruct (settled_dec s); [|contradiction]. apply IH. eapply settled_happen; eauto. }
      rewrite Z; [lia|]. eapply settled_happen; eauto.
    - specialize (IH s' P'). pose proof (remaining_happen c s e s' P H S). lia. }
  specialize (H l _ (phase_accepted c)). eapply Nat.le_trans; [exact H|]. unfold accepted, fresh, remaining.
  cbn [asked pause pipe rcv busy length map fsum fold_right]. rewrite remaining_reply by lia.
  change (thinks c 0) with (fsum (map fst (rounds c))). change (works c 0) with (fsum (map snd (rounds c))). lia.
Qed.
Print Assumptions C97_settles.

(** Then the replies the peer has are those to its first requests, up to the
    first one that is more than ReadTimeout behind the one before, the time of
    the handler included, or, with the default runner, whose handler takes longer. *)
Theorem C97_answered : forall c l, let s := history c l (accepted c) in limit c <> 0 -> settled s ->
  let i := length (answered s) in
  answered s = seq 0 i /\ i <= length (rounds c) /\
  (forall j, j < i -> gap c j <= limit c /\ (single c = true \/ effort c j <= limit c)) /\
  (i = length (rounds c) \/ limit c <= gap c i \/ single c = false /\ limit c <= effort c i).
Proof.
  intros c l s Z S. old_names. pose proof (reached c l) as P. fold s in P. destruct (answered_shape c s P) as (E & B & Q). cbn zeta.
  split; [exact E|]. split; [exact B|]. split.
  - intros j H. destruct (Q j H) as [[G|G] [W|[W|W]]]; tauto.
  - clear E B Q. destruct S as (S1 & S2 & S3). destruct P; cbn [answered pause busy rcv pipe] in *; rewrite seq_length; try discriminate; try tauto.
Qed.
Print Assumptions C97_answered.

(** If everything is in time, or without a timeout, the peer gets every reply, and
    the server does not close the connection before. *)
Theorem C97_in_time : forall c l, let s := history c l (accepted c) in
  (limit c = 0 \/ forall i, i < length (rounds c) -> gap c i < limit c /\ (single c = true \/ effort c i < limit c)) ->
  settled s \/ shut s = true -> answered s = seq 0 (length (rounds c)).
Proof.
  intros c l s T S. old_names. pose proof (reached c l) as P. fold s in P. clearbody s. destruct S as [(S1 & S2 & S3)|S];
    destruct P as [i k t L K M P|i t L M P|i L P G|i t w L W M P G|t Z P|i a p q r b L A R P Z G|i w L W M Z D P G|i b L D M Z P];
    cbn [answered pause busy rcv pipe shut] in *; try discriminate; try contradiction; try reflexivity.
  all: destruct T as [T|T]; try lia.
  all: try (destruct G as [->|G]; [reflexivity|]; destruct (Nat.eq_dec i (length (rounds c))) as [->|NE]; [reflexivity|]; specialize (T i); lia).
  all: specialize (T i L); destruct T as [_ [T|T]]; [congruence|lia].
Qed.
Print Assumptions C97_in_time.

(** Without a timeout the server never closes the connection. *)
Theorem C97_no_timeout : forall c l, limit c = 0 -> shut (history c l (accepted c)) = false.
Proof.
  intros c l Z.
  assert (Q : forall l s, phase c s -> shut s = false -> rcv s <> Failing -> shut (history c l s) = false /\ rcv (history c l s) <> Failing).
  { clear - Z. induction l as [|e l IH]; intros s P S F; [auto|]. cbn [history]. destruct (happen c s e) as [s'|] eqn:H; [|auto].
    assert (P' : phase c s') by (pose proof (phase_history c [e] s P) as Q; cbn [history] in Q; now rewrite H in Q).
    apply IH; [exact P'| |].
    - destruct P'; cbn [shut rcv] in *; try reflexivity; contradiction.
    - destruct P'; cbn [shut rcv] in *; try discriminate; contradiction. }
  apply Q; [apply phase_accepted|reflexivity|discriminate].
Qed.
Print Assumptions C97_no_timeout.

(** But the time its handler takes counts as time the peer does not send. *)
Theorem C97_handler_counts : forall c l i, limit c <> 0 -> limit c < effort c i + delay c (S i) ->
  length (answered (history c l (accepted c))) <= S i.
Proof.
  intros c l i Z H. old_names. destruct (answered_shape c _ (reached c l)) as (_ & _ & P).
  destruct (Nat.le_gt_cases (length (answered (history c l (accepted c)))) (S i)) as [L|L]; [exact L|].
  destruct (P (S i) L) as [[G|G] _]; [contradiction|]. unfold gap in G. old_names. lia.
Qed.
Print Assumptions C97_handler_counts.

(** With the default runner the reply of such a handler itself is lost. *)
Theorem C97_slow_reply_lost : forall c l i, limit c <> 0 -> single c = false -> limit c < effort c i ->
  length (answered (history c l (accepted c))) <= i.
Proof.
  intros c l i Z D H. old_names. destruct (answered_shape c _ (reached c l)) as (_ & _ & P).
  destruct (Nat.le_gt_cases (length (answered (history c l (accepted c)))) i) as [L|L]; [exact L|].
  destruct (P i L) as [_ [G|[G|G]]]; [congruence|contradiction|lia].
Qed.
Print Assumptions C97_slow_reply_lost.

(** With SequentialRunner it arrives, whatever time it takes. *)
Theorem C97_sequential_reply : forall c l i, let s := history c l (accepted c) in
  single c = true -> i < length (rounds c) -> (limit c = 0 \/ forall j, j <= i -> gap c j < limit c) -> settled s ->
  i < length (answered s).
Proof.
  intros c l i s O L T S. destruct (Nat.eq_dec (limit c) 0) as [Z|Z].
  - pose proof (C97_in_time c l (or_introl Z) (or_introl S)) as E. fold s in E. rewrite E, seq_length. exact L.
  - destruct T as [T|T]; [contradiction|]. destruct (C97_answered c l Z S) as (_ & _ & _ & D). fold s in D.
    destruct (Nat.le_gt_cases (length (answered s)) i) as [M|M]; [|exact M]. exfalso.
    destruct D as [D|[D|[D _]]]; [lia| |congruence]. specialize (T _ M). lia.
Qed.
Print Assumptions C97_sequential_reply.

(** So a peer that never makes the server wait is dropped for a slow handler. *)
Theorem C97_prompt_peer_refuted : exists c, limit c <> 0 /\ (forall i, delay c i = 0) /\
  (forall l, answered (history c l (accepted c)) = []) /\ exists l, shut (history c l (accepted c)) = true.
Proof.
  exists (MkTalk false 3 [(0, 5); (0, 1)]). split; [discriminate|]. split; [now intros [|[|[|i]]]|]. split.
  - intro l. pose proof (C97_slow_reply_lost (MkTalk false 3 [(0, 5); (0, 1)]) l 0) as H.
    destruct (answered _); [reflexivity|]. cbn [length] in H. assert (S (length l0) <= 0); [|lia]. apply H; [discriminate|reflexivity|cbn; lia].
  - exists [Ask; Read; Hand; Tick; Tick; Tick; Expire; Close]. reflexivity.
Qed.
Print Assumptions C97_prompt_peer_refuted.

(** A schedule that tries everything at every tick. *)
Definition day : list event := concat (repeat [Ask; Read; Expire; Hand; Close; Reply; Tick] 40).

Example C97_in_time_ex :
  let c := MkTalk false 6 [(1, 3); (2, 2)] in
  let s := history c day (accepted c) in
  gap c 1 = 5 /\ answered s = [0; 1] /\ settled s.
Proof. vm_compute. auto. Qed.

Example C97_dropped_ex :
  let c := MkTalk true 4 [(1, 3); (2, 2)] in
  let s := history c day (accepted c) in
  answered s = [0] /\ shut s = true /\ settled s.
Proof. vm_compute. auto. Qed.

Example C97_slow_ex :
  let rs := [(1, 5); (0, 1)] in
  answered (history (MkTalk false 4 rs) day (accepted (MkTalk false 4 rs))) = [] /\
  answered (history (MkTalk true 4 rs) day (accepted (MkTalk true 4 rs))) = [0] /\
  answered (history (MkTalk false 0 rs) day (accepted (MkTalk false 0 rs))) = [0; 1].
Proof. vm_compute. auto. Qed.
