(** Properties of the worker pool. *)
From Verif Require Import RunnerFacts.
From Coq Require Import Lia Permutation.

Definition leaf (_ : nat) : list nat := [].

(** C36: functions start in the order in which they were submitted, each at most
    once: what was submitted is what was started followed by what is queued.
    What was started has ended or is running; at most [n] run, at most [n] more
    are queued. *)
Theorem C36_order : forall body n cs sch, let p := prun body sch (pstart n cs) in
  submitted p = begun p ++ queue p
  /\ Permutation (begun p) (finished p ++ running p)
  /\ length (running p) <= n /\ length (queue p) <= n.
Proof.
  intros body n cs sch p. pose proof (sound_run n body cs sch) as (N & Off & On & Q & S & R). fold p in N, Off, On, Q, S, R.
  split; [exact S|]. split; [exact R|]. split; [|exact Q]. pose proof (running_bound p) as B.
  destruct (on p); [rewrite (On eq_refl) in B; exact B|]. destruct (Off eq_refl) as (W & _). rewrite W in B. cbn in B. lia.
Qed.
Print Assumptions C36_order.

Example C36_order_ex :
  let p := prun leaf [PCaller 0; PCaller 0; PCaller 1; PCaller 0; PWorker 1; PWorker 0; PWorker 1; PCaller 1] (pstart 2 [[1; 2]; [3; 4]]) in
  submitted p = [1; 3; 4] /\ begun p = [1; 3] /\ finished p = [1] /\ running p = [3] /\ queue p = [4].
Proof. vm_compute. repeat split; reflexivity. Qed.

(** C36: when functions do not call Run themselves the pool comes to rest after
    boundedly many steps, however it is scheduled, and at rest every function
    passed to Run by any caller has been run exactly once. *)
Theorem C36_completes : forall body n cs sch, 0 < n -> (forall f, body f = []) -> let p := prun body sch (pstart n cs) in
  (exists b, forall sch', busy body sch' p -> length sch' <= b)
  /\ (exists sch', busy body sch' p /\ stuck body (prun body sch' p))
  /\ (stuck body p -> queue p = [] /\ running p = [] /\ concat (callers p) = [] /\ Permutation (finished p) (concat cs)).
Proof.
  intros body n cs sch N Hb p. pose proof (sound_run n body cs sch) as S. pose proof (leaves_run n body cs sch Hb) as L.
  split; [exists (pwork p); intros sch' B; eapply busy_bound; eassumption|].
  split; [eapply (pool_settles n body cs Hb (pwork p)); [lia|exact S|exact L]|].
  intro K. destruct (stuck_done n body cs p N S L K) as (A & B & C & D). auto.
Qed.
Print Assumptions C36_completes.

Example C36_completes_ex :
  let p := prun leaf (repeat (PCaller 0) 3 ++ repeat (PWorker 0) 4) (pstart 2 [[7; 8]]) in
  stuck leaf p /\ finished p = [7; 8].
Proof.
  assert (E : prun leaf (repeat (PCaller 0) 3 ++ repeat (PWorker 0) 4) (pstart 2 [[7; 8]])
    = MkPool 2 true [] [Waiting; Waiting] [[]] [7; 8] [7; 8] [7; 8]) by reflexivity.
  rewrite E. split; [|reflexivity]. intros [[|[|i]]|[|[|[|w]]]]; reflexivity.
Qed.

(** C37: if functions call Run from inside the pool, the pool can deadlock: for
    every size there is a schedule after which all workers wait in Run on the
    full queue, nothing can move any more, and neither the queued nor the running
    functions end. *)
Theorem C37_nested_deadlock_refuted : forall n, 0 < n -> exists body cs sch, let p := prun body sch (pstart n cs) in
  stuck body p /\ length (queue p) = n /\ length (running p) = n /\ finished p = [] /\ length (waiting_calls p) = n.
Proof.
  intros n N. destruct (deadlock n N) as (sch & H). exists again, [repeat 0 (n + n)], sch. cbv zeta in *.
  destruct H as (K & Q & R & F & W). rewrite Q, R, W, !repeat_length. auto.
Qed.
Print Assumptions C37_nested_deadlock_refuted.

Example C37_nested_deadlock_refuted_ex :
  let p := prun again [PCaller 0; PCaller 0; PWorker 0; PCaller 0] (pstart 1 [[0; 0]]) in
  workers p = [Running 0 [0]] /\ queue p = [0] /\ pstep again (PWorker 0) p = None /\ pstep again (PCaller 0) p = None.
Proof. vm_compute. repeat split; reflexivity. Qed.

(** C37: every state in which all workers wait in Run and the queue is full stays
    as it is for ever. *)
Theorem C37_deadlock_is_forever : forall body p, on p = true ->
  (forall w x, nth_error (workers p) w = Some x -> exists f g l, x = Running f (g :: l)) ->
  length (queue p) = num p -> forall sch, prun body sch p = p.
Proof.
  intros body p O W Q. pose proof (full_blocked body p (fun _ _ _ => or_intror O) W Q) as K.
  induction sch as [|m sch IH]; [reflexivity|]. cbn. unfold pact at 2. rewrite (K m). exact IH.
Qed.
Print Assumptions C37_deadlock_is_forever.

Example C37_deadlock_is_forever_ex :
  prun again [PWorker 0; PCaller 0; PWorker 0] (MkPool 1 true [0] [Running 0 [0]] [[5]] [0; 0] [0] [])
  = MkPool 1 true [0] [Running 0 [0]] [[5]] [0; 0] [0] [].
Proof. reflexivity. Qed.
