(** Properties of the server. *)
From Verif Require Import ServerFacts.
From Coq Require Import Lia Permutation.

Definition hello : Request := new_request 0 None.
Definition echo : Request := new_request 2 None.
Definition barrier : Request := new_request 20 None.

(** Loop [k] deals with a new connection from accept to the end. *)
Definition arrive (k : nat) (ms : list Request) : list move := repeat (MLoop k ms) 6.
Definition come (k : nat) (ms : list Request) : list move := repeat (MLoop k ms) 5.

(** C30: one Serve loop never serves more than MaxConns connections. *)
Theorem C30_limit : forall m q sch, (0 < Z.of_nat m < 2147483648)%Z ->
  served (srun sch (sstart (Z.of_nat m) q 1)) <= m.
Proof. intros m q sch M. pose proof (bounded_run m q sch M) as (_ & _ & _ & A & _). pose proof (served_le_accounted (srun sch (sstart (Z.of_nat m) q 1))). lia. Qed.
Print Assumptions C30_limit.

Example C30_limit_ex :
  served (srun (come 0 [hello] ++ come 0 [echo]) (sstart 2 true 1)) = 2
  /\ served (srun (come 0 [hello] ++ come 0 [echo] ++ arrive 0 [barrier]) (sstart 2 true 1)) = 2.
Proof. vm_compute. split; reflexivity. Qed.

(** C30: a connection whose turn comes at the limit is closed; whatever happens
    later, nothing else is ever seen of it. *)
Theorem C30_turned_away : forall m q sch sch' ms c, let s := srun sch (sstart (Z.of_nat m) q 1) in
  (0 < Z.of_nat m < 2147483648)%Z -> nth_error (loops s) 0 = Some (LLoad c) -> served s = m ->
  begins (story c (srun sch' (srun [MLoop 0 ms] s))) (rejected_story c).
Proof. exact at_limit_turned. Qed.
Print Assumptions C30_turned_away.

Example C30_turned_away_ex :
  let s := srun (come 0 [hello] ++ repeat (MLoop 0 [echo]) 2) (sstart 1 false 1) in
  nth_error (loops s) 0 = Some (LLoad 1) /\ served s = 1
  /\ story 1 (srun (repeat (MLoop 0 []) 4) s) = rejected_story 1.
Proof. vm_compute. repeat split; reflexivity. Qed.

(** C31: two Serve loops on one server can serve MaxConns+1, for every limit. *)
Theorem C31_two_loops_refuted : forall m q, (0 < m < 2147483648)%Z ->
  exists sch, Z.of_nat (served (srun sch (sstart m q 2))) = (m + 1)%Z.
Proof. exact two_loops_exceed. Qed.
Print Assumptions C31_two_loops_refuted.

Example C31_two_loops_refuted_ex : served (srun (come 0 [] ++ overtake) (sstart 2 true 2)) = 3.
Proof. vm_compute. reflexivity. Qed.

(** C31: a limit whose 32-bit image is not positive (a multiple of 2^32, a
    negative number, 2^31) turns every connection away. *)
Theorem C31_wrapped_limit : forall lim q n sch c, (lim <> 0 /\ wrap32 lim <= 0)%Z ->
  let s := srun sch (sstart lim q n) in served s = 0 /\ begins (story c s) (rejected_story c).
Proof.
  intros lim q n sch c L s. pose proof (refusing_run lim q n sch L) as R. split; [|apply refusing_story; exact R].
  destruct R as (_ & _ & _ & F & _). fold s in F. unfold served. clearbody s. induction F as [|x l H _ IH]; [reflexivity|].
  cbn. unfold being_served at 1. rewrite H. exact IH.
Qed.
Print Assumptions C31_wrapped_limit.

Example C31_wrapped_limit_ex :
  wrap32 4294967296 = 0%Z /\ wrap32 (-1) = (-1)%Z
  /\ story 0 (srun (arrive 0 [hello]) (sstart 4294967296 true 1)) = rejected_story 0
  /\ served (srun (come 0 [hello]) (sstart 4294967297 true 1)) = 1.
Proof. vm_compute. repeat split; reflexivity. Qed.

(** C32: the counter is the number of connections decided to be served and not
    ended yet (modulo 2^32). *)
Theorem C32_accounting : forall lim q n sch, let s := srun sch (sstart lim q n) in
  counter s = wrap32 (Z.of_nat (accounted s)).
Proof. intros lim q n sch. apply (balanced_run lim q n sch). Qed.
Print Assumptions C32_accounting.

Example C32_accounting_ex :
  let s := srun (come 0 [] ++ come 1 [hello] ++ come 0 [] ++ [MRecv 0; MServe 0; MServe 0]) (sstart 5 true 2) in
  counter s = 2%Z /\ accounted s = 2 /\ length (cns s) = 3.
Proof. vm_compute. repeat split; reflexivity. Qed.

(** C32: without new arrivals the server does only finitely many steps, can
    always come to rest, and then its counter is zero and the next connection
    is served. *)
Theorem C32_comes_to_rest : forall lim q n sch, let s := srun sch (sstart lim q n) in
  (exists b, forall sch', productive sch' s -> length sch' <= b)
  /\ exists sch', productive sch' s /\ settled (srun sch' s).
Proof.
  intros lim q n sch s. pose proof (shape_run lim q n sch) as S. split.
  - exists (work s). intros sch' P. apply productive_bound; assumption.
  - apply (settles (work s)); [lia|exact S].
Qed.
Print Assumptions C32_comes_to_rest.

Theorem C32_accepts_again : forall lim q n sch k ms, let s := srun sch (sstart lim q n) in
  settled s -> k < n -> (lim = 0 \/ 0 < wrap32 lim)%Z ->
  counter s = 0%Z
  /\ exists x, nth_error (cns (srun (come k ms) s)) (length (cns s)) = Some x /\ cmsgs x = ms /\ being_served x = true.
Proof.
  intros lim q n sch k ms s Q K L. pose proof (balanced_run lim q n sch) as (S & B). fold s in S, B.
  rewrite (settled_accounted s S (alive_run lim q n sch) Q) in B. change (wrap32 (Z.of_nat 0)) with 0%Z in B. split; [exact B|].
  assert (Len : length (loops s) = n).
  { apply (srun_inv (fun s => length (loops s) = n)); [apply repeat_length|]. intros m t t' E1 E2. apply sstep_trans, limit_step in E2.
    destruct E2 as (_ & _ & E2). congruence. }
  destruct (nth_error (loops s) k) as [p|] eqn:Hk; [|apply nth_error_None in Hk; lia].
  pose proof (settled_loops s k p S Q Hk) as ->.
  exists (MkCn ms ms RReading VWait). split; [|auto]. apply accepts_when_low; [exact Hk|].
  assert (Hl : limit s = lim) by (apply limit_run; reflexivity). rewrite B, Hl. lia.
Qed.
Print Assumptions C32_accepts_again.

Example C32_accepts_again_ex :
  let s := srun (come 0 [] ++ arrive 0 [hello] ++ [MRecv 0; MServe 0; MServe 0; MServe 0; MServe 0]) (sstart 1 true 1) in
  cns s = [MkCn [] [] REnd VGone; MkCn [hello] [hello] RNot VNot] /\ loops s = [LIdle] /\ counter s = 0%Z
  /\ served (srun (come 0 [hello]) s) = 1.
Proof. vm_compute. repeat split; reflexivity. Qed.

(** C33: with handlers run in sequence, what is seen of a connection at any
    moment is the beginning of the full story of a served connection with the
    messages its peer sent, or of a rejected one. *)
Theorem C33_story : forall lim n sch c, let s := srun sch (sstart lim true n) in
  (exists ms, sent c s ms /\ begins (story c s) (served_story c ms)) \/ begins (story c s) (rejected_story c).
Proof. exact story_or. Qed.
Print Assumptions C33_story.

Example C33_story_ex :
  let s := srun (come 0 [hello; echo] ++ [MRecv 0] ++ repeat (MServe 0) 6 ++ [MRecv 0; MServe 0; MServe 0]) (sstart 0 true 1) in
  states (story 0 s) = [StateNew; StateHandshake; StateIdle; StateActive].
Proof. vm_compute. reflexivity. Qed.

(** C33: hence the callbacks follow the documented life cycle; after StateClosed
    there is none. *)
Theorem C33_life_cycle : forall lim n sch c, let s := srun sch (sstart lim true n) in
  lives None (states (story c s)) = true.
Proof.
  intros lim n sch c s. destruct (story_or lim n sch c) as [(ms & _ & t & E)|(t & E)]; fold s in E.
  - eapply lives_prefix. rewrite <- states_app, E. apply lives_served.
  - eapply lives_prefix. rewrite <- states_app, E. reflexivity.
Qed.
Print Assumptions C33_life_cycle.

Example C33_life_cycle_ex :
  lives None [StateNew; StateHandshake; StateIdle; StateActive; StateIdle; StateClosed] = true
  /\ lives None [StateNew; StateClosed; StateActive] = false
  /\ lives None [StateNew; StateHandshake; StateActive] = false.
Proof. repeat split; reflexivity. Qed.

(** C34: with the default runner StateClosed is not the end: for every list of
    messages there is an interleaving that reports StateClosed, closes the
    connection, and only then handles every message. *)
Theorem C34_closed_not_terminal_refuted : forall ms, exists sch, let s := srun sch (sstart 0 false 1) in
  sent 0 s ms /\ story 0 s = [EState 0 StateNew; EState 0 StateClosed; EClose 0] ++ flat_map (request_story 0) ms.
Proof. exact closed_first. Qed.
Print Assumptions C34_closed_not_terminal_refuted.

Example C34_closed_not_terminal_refuted_ex :
  let s := srun (come 0 [echo] ++ [MRecv 0; MServe 0] ++ [MRecv 0; MServe 0; MServe 0; MServe 0; MServe 0] ++ repeat (MHand 0) 5) (sstart 0 false 1) in
  states (story 0 s) = [StateNew; StateClosed; StateActive; StateIdle] /\ lives None (states (story 0 s)) = false.
Proof. vm_compute. split; reflexivity. Qed.

(** C35: handlers run in sequence get the messages in order, each once; the
    next call follows the return of the previous one, and every reply goes to
    the connection of the request. *)
Theorem C35_in_order : forall lim n sch c ms, let s := srun sch (sstart lim true n) in
  sent c s ms -> begins (calls (story c s)) ms.
Proof.
  intros lim n sch c ms s (x & Hx & Hm). destruct (story_or lim n sch c) as [(ms' & (x' & Hx' & Hm') & B)|B]; fold s in B.
  - fold s in Hx'. rewrite Hx in Hx'. injection Hx' as <-. rewrite Hm in Hm'. subst ms'. apply begins_calls in B. rewrite served_calls in B. exact B.
  - apply begins_calls in B. destruct B as [t E]. cbn in E. apply app_eq_nil in E. destruct E as [-> _]. exists ms. reflexivity.
Qed.
Print Assumptions C35_in_order.

Example C35_in_order_ex :
  let s := srun (come 0 [hello; echo] ++ come 0 [barrier] ++ [MRecv 0; MRecv 1; MServe 1] ++ repeat (MServe 0) 6 ++ repeat (MServe 1) 2
                 ++ [MRecv 0] ++ repeat (MServe 0) 3) (sstart 0 true 1) in
  calls (story 0 s) = [hello; echo] /\ calls (story 1 s) = [barrier].
Proof. vm_compute. split; reflexivity. Qed.

(** C35: at rest every connection has had its whole story: all messages handled
    in order and the connection closed, or it was turned away. *)
Theorem C35_complete : forall lim n sch c ms, let s := srun sch (sstart lim true n) in
  settled s -> sent c s ms -> story c s = served_story c ms \/ story c s = rejected_story c.
Proof. exact story_settled. Qed.
Print Assumptions C35_complete.

(** Without a limit nobody is turned away. *)
Theorem C35_complete_unlimited : forall n sch c ms, let s := srun sch (sstart 0 true n) in
  settled s -> sent c s ms -> story c s = served_story c ms.
Proof. exact story_settled_all. Qed.
Print Assumptions C35_complete_unlimited.

Definition at_rest : server :=
  srun (come 0 [hello] ++ [MRecv 0] ++ repeat (MServe 0) 6 ++ [MRecv 0] ++ repeat (MServe 0) 4) (sstart 0 true 1).
Example C35_complete_ex : settled at_rest /\ sent 0 at_rest [hello] /\ calls (story 0 at_rest) = [hello].
Proof.
  assert (E : at_rest = MkServer 0 true 0 [LIdle] [MkCn [hello] [] REnd VGone] [] (served_story 0 [hello])) by (vm_compute; reflexivity).
  rewrite E. split; [|split; [exists (MkCn [hello] [] REnd VGone); auto|vm_compute; reflexivity]].
  intros [[|[|k]] ms|[|[|c]]|[|[|c]]|[|j]]; cbn; intro H; try reflexivity; discriminate.
Qed.

(** C65: whatever the runner and the limit, no message is handled twice and none
    is made up. *)
Theorem C65_at_most_once : forall lim q n sch c ms, let s := srun sch (sstart lim q n) in
  sent c s ms -> exists waiting, Permutation (calls (story c s) ++ waiting) ms.
Proof.
  intros lim q n sch c ms s (x & Hx & <-). pose proof (dealt_run lim q n sch) as (_ & _ & _ & D). eexists. apply (D c x Hx).
Qed.
Print Assumptions C65_at_most_once.

(** C65: without a limit, at rest, every message was handled exactly once, also
    with a goroutine per request. *)
Theorem C65_exactly_once : forall q n sch c ms, let s := srun sch (sstart 0 q n) in
  settled s -> sent c s ms -> Permutation (calls (story c s)) ms.
Proof.
  intros q n sch c ms s Q (x & Hx & <-). apply settled_calls; [apply dealt_run|apply alive_run|exact Q|exact Hx|].
  rewrite (welcome_settled s c x (welcome_run q n sch) (alive_run 0 q n sch) Q Hx). discriminate.
Qed.
Print Assumptions C65_exactly_once.

Definition overtaken_hands : server :=
  srun (come 0 [hello; echo] ++ [MRecv 0; MServe 0; MRecv 0; MServe 0] ++ repeat (MHand 1) 5 ++ repeat (MHand 0) 5
        ++ [MRecv 0] ++ repeat (MServe 0) 4) (sstart 0 false 1).
Example C65_exactly_once_ex :
  settled overtaken_hands /\ sent 0 overtaken_hands [hello; echo] /\ calls (story 0 overtaken_hands) = [echo; hello].
Proof.
  assert (E : overtaken_hands = MkServer 0 false 0 [LIdle] [MkCn [hello; echo] [] REnd VGone] [(0, hello, None); (0, echo, None)]
    (EState 0 StateNew :: request_story 0 echo ++ request_story 0 hello ++ [EState 0 StateClosed; EClose 0])) by (vm_compute; reflexivity).
  rewrite E. split; [|split; [exists (MkCn [hello; echo] [] REnd VGone); auto|vm_compute; reflexivity]].
  intros [[|[|k]] ms|[|[|c]]|[|[|c]]|[|[|[|j]]]]; cbn; intro H; try reflexivity; discriminate.
Qed.
