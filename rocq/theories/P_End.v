(** Theorems on the end of a served connection: C96. *)
From Coq Require Import Lia.
From Verif Require Import EndModel EndSpec EndFacts.

(** C96: every execution ends; then the connection is closed and the handler of
    every message has returned, once. *)
Theorem C96_ends : forall (A : Type) (d : dialogue A) l,
  moves d l opened <= 3 * total d + 1 + length (concat (answers d)).
Proof.
  intros A d l. pose proof (moves_progress d l opened) as E. pose proof (progress_bound d _ (reached d l)). cbn in E. lia.
Qed.
Print Assumptions C96_ends.

Theorem C96_all_return : forall (A : Type) (d : dialogue A) l, let s := course d l opened in finished d s ->
  over s = true /\ Permutation (map fst (returned s)) (seq 0 (total d)).
Proof.
  intros A d l s F. pose proof (reached d l) as L. fold s in L. destruct (rest d s L F) as (O & C & E).
  split; [exact O|]. destruct L as [La _ _ _ _ _]. apply calm_true in C. destruct C as [W V].
  unfold writer in La. rewrite V, W, E in La. cbn [app] in La. now rewrite app_nil_r in La.
Qed.
Print Assumptions C96_all_return.

(** With SequentialRunner the close comes after every reply: in order, complete,
    none reported as failed. *)
Theorem C96_in_turn : forall (A : Type) (d : dialogue A) l, let s := course d l opened in
  in_turn d = true -> over s = true ->
  out s = concat (answers d) /\ returned s = map (fun i => (i, true)) (seq 0 (total d)).
Proof.
  intros A d l s T O. pose proof (reached d l) as L. fold s in L. destruct L as [La Lb Lo Lf (p & E & P) Lt].
  destruct (Lt T) as (Q & _ & K & F). specialize (K O). apply calm_true in K. destruct K as [W V].
  specialize (Lo O). unfold writer in Q. rewrite V, W, Lo in Q. cbn [app] in Q. rewrite app_nil_r in Q.
  assert (R : returned s = map (fun i => (i, true)) (seq 0 (total d))).
  { rewrite <- Q, map_map. rewrite <- (map_id (returned s)) at 1. apply map_ext_in. intros [i b] H. cbn [fst]. now rewrite (F i b H). }
  split; [|exact R]. unfold tail_of in P. rewrite V in P. destruct P as [->|(_ & (i & r & I & _) & _)].
  - rewrite app_nil_r in E. rewrite E, <- frames_all, R. f_equal. unfold successes. generalize (seq 0 (total d)) as m.
    induction m as [|x m IH]; [reflexivity|]. cbn [map filter snd fst]. now rewrite IH.
  - exfalso. specialize (F i false I). discriminate.
Qed.
Print Assumptions C96_in_turn.

(** In general the peer has the complete replies of the handlers that were told
    so, in the order in which these returned, and perhaps the beginning of one
    more reply. *)
Theorem C96_told : forall (A : Type) (d : dialogue A) l, let s := course d l opened in
  NoDup (successes (returned s)) /\
  exists p, out s = frames d (successes (returned s)) ++ p /\
    (p = [] \/ exists i r, answer d i = p ++ r /\ ~ In i (successes (returned s)) /\ i < arrived s).
Proof.
  intros A d l s. pose proof (reached d l) as L. fold s in L. split; [|now apply out_shape].
  apply successes_nodup. eapply returned_nodup; eauto.
Qed.
Print Assumptions C96_told.

(** Nothing is added after the close. *)
Theorem C96_final : forall (A : Type) (d : dialogue A) l l', over (course d l opened) = true ->
  out (course d (l ++ l') opened) = out (course d l opened).
Proof. intros A d l l' O. rewrite course_app. now apply closed_course. Qed.
Print Assumptions C96_final.

(** With the default runner nothing more can be promised: any of the replies,
    in any order, with a piece of any other behind them, can be all the peer gets
    although every message was received and handled. *)
Theorem C96_anything_lost : forall (A : Type) (d : dialogue A) got tail, in_turn d = false ->
  NoDup got -> (forall i, In i got -> i < total d) ->
  (tail = [] \/ exists i k, i < total d /\ ~ In i got /\ tail = firstn k (answer d i)) ->
  exists l, finished d (course d l opened) /\ out (course d l opened) = frames d got ++ tail.
Proof.
  intros A d got tail T N B P. set (n := total d).
  assert (Q : exists l, over (course d l opened) = true /\ out (course d l opened) = frames d got ++ tail).
  { destruct (run_writes d got n (seq 0 n) [] [] N) as [l E].
    { intros i Hi. apply in_seq. specialize (B i Hi). subst n. lia. }
    destruct P as [->|(i & k & Hi & Ni & ->)].
    - exists (repeat Next n ++ l ++ [Stop]). rewrite !course_app, run_next, E by auto.
      cbn [course move_on arrived over]. unfold n. rewrite Nat.eqb_refl, T. cbn [negb orb andb over out].
      now rewrite app_nil_r.
    - assert (L : Nat.min k (length (answer d i)) <= length (answer d i)) by lia.
      exists (repeat Next n ++ l ++ [Lock i] ++ repeat Byte (Nat.min k (length (answer d i))) ++ [Stop]).
      rewrite !course_app, run_next, E by auto. rewrite run_lock.
      2: { apply fold_without; [apply in_seq; subst n; lia|exact Ni]. }
      rewrite run_bytes by exact L. cbn [course move_on arrived over]. unfold n. rewrite Nat.eqb_refl, T. cbn [negb orb andb over out app].
      split; [reflexivity|]. f_equal. destruct (Nat.le_gt_cases k (length (answer d i))).
      + now rewrite Nat.min_l.
      + rewrite Nat.min_r by lia. rewrite firstn_all. now rewrite firstn_all2 by lia. }
  destruct Q as (l & O & E). destruct (can_finish d (course d l opened) (reached d l)) as [l' F].
  exists (l ++ l'). rewrite course_app. split; [exact F|]. rewrite <- E. now apply closed_course.
Qed.
Print Assumptions C96_anything_lost.

(** So a peer that sends a request and then ends its side of the stream, to read
    the reply until the end, may get nothing, or half a reply. *)
Theorem C96_reply_lost : forall (A : Type) (reply : list A) k,
  exists l, let s := course (MkDialogue false [reply]) l opened in
  finished (MkDialogue false [reply]) s /\ out s = firstn k reply.
Proof.
  intros A reply k. destruct (C96_anything_lost A (MkDialogue false [reply]) [] (firstn k reply) eq_refl) as [l H].
  - constructor.
  - intros i [].
  - right. exists 0, k. repeat split; [unfold total; cbn; lia|tauto].
  - exists l. exact H.
Qed.
Print Assumptions C96_reply_lost.

(** Three replies; the default runner, closed while the second is being written. *)
Example C96_ex :
  let d := MkDialogue false [[1; 2]; [3; 4]; [5]] in
  let s := course d [Next; Next; Next; Lock 2; Byte; Done; Lock 1; Byte; Stop; Break; Lock 0; Break] opened in
  out s = [5; 3] /\ returned s = [(2, true); (1, false); (0, false)] /\ over s = true.
Proof. repeat split. Qed.

Example C96_in_turn_ex :
  let d := MkDialogue true [[1; 2]; [3; 4]; [5]] in
  let turn i := [Next; Stop; Lock i; Stop; Byte; Byte; Done] in
  let s := course d (turn 0 ++ turn 1 ++ turn 2 ++ [Stop]) opened in
  out s = [1; 2; 3; 4; 5] /\ over s = true.
Proof. repeat split. Qed.
