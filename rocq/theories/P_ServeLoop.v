(** Theorems on Serve calls: C92, C93. *)
From Coq Require Import ZArith Lia.
From Verif Require Import ServeLoopFacts P_Server.

Definition moves (l : list move) : list fmove := map FMove l.

(** C92: with SequentialRunner for connections, every execution is one of the
    server with the default ConnRunner. *)
Theorem C92_nothing_new : forall lim q n sch,
  exists sch', sv (frun sch (fstart lim true q n)) = srun sch' (sstart lim q n).
Proof. intros. apply frame_simulates. Qed.
Print Assumptions C92_nothing_new.

(** At most as many connections are served as Serve was called. *)
Theorem C92_at_most : forall lim q n sch, served (sv (frun sch (fstart lim true q n))) <= n.
Proof.
  intros lim q n sch. destruct (frame_simulates lim true q n sch) as (sch' & E).
  pose proof (crew_accounted _ (crew_run lim true q n sch) (serial_run lim true q n sch)) as A.
  rewrite E in *. rewrite (proj2 (limit_run lim q n sch')) in A. pose proof (served_le_accounted (srun sch' (sstart lim q n))). lia.
Qed.
Print Assumptions C92_at_most.

(** With a MaxConns that is not smaller than that, nobody is turned away. *)
Theorem C92_never_turned_away : forall lim n sch c ms, (lim = 0 \/ Z.of_nat n <= wrap32 lim)%Z -> (Z.of_nat n < 2147483648)%Z ->
  let s := sv (frun sch (fstart lim true true n)) in
  sent c s ms -> begins (story c s) (served_story c ms).
Proof.
  intros lim n sch c ms L N s (x & Hx & <-). destruct (guarded_run lim true n sch L N) as (_ & R & A).
  destruct (frame_simulates lim true true n sch) as (sch' & E). fold s in R, A, E.
  apply welcome_story; auto; rewrite E; [apply tale_run|apply sequential_run].
Qed.
Print Assumptions C92_never_turned_away.

(** One Serve call: each connection has been closed when the next one is reported as new. *)
Theorem C92_in_turn : forall lim q sch, let s := sv (frun sch (fstart lim true q 1)) in
  begins (filter coming_or_going (trace s)) (flat_map visit (seq 0 (length (cns s)))).
Proof. exact in_turn. Qed.
Print Assumptions C92_in_turn.

(** If handlers are run by SequentialRunner too, there is only one order of all
    visible actions. *)
Theorem C92_one_by_one : forall lim sch, (lim = 0 \/ 1 <= wrap32 lim)%Z -> let s := sv (frun sch (fstart lim true true 1)) in
  begins (trace s) (played 0 (map cmsgs (cns s))).
Proof. exact one_by_one. Qed.
Print Assumptions C92_one_by_one.

(** As long as the peer of the connection being served says nothing, nobody else
    is accepted or turned away. *)
Theorem C92_silent_peer : forall lim q sch sch' c ms lf, let s := frun sch (fstart lim true q 1) in
  nth_error (cns (sv s)) c = Some (MkCn ms lf RReading VWait) -> Forall (silent c) sch' ->
  let s' := frun sch' s in
  length (cns (sv s')) = length (cns (sv s)) /\ nth_error (cns (sv s')) c = Some (MkCn ms lf RReading VWait).
Proof.
  intros lim q sch sch' c ms lf s Hc F s'.
  pose proof (crew_run lim true q 1 sch) as (L1 & _ & _ & _ & V & _). fold s in L1, V.
  destruct (V (serial_run lim true q 1 sch) c _ Hc Logic.I) as (k & Hk).
  assert (Ll : length (loops (sv s)) = 1).
  { unfold s. destruct (frame_simulates lim true q 1 sch) as (sch1 & E). rewrite E. apply limit_run. }
  assert (H : held_up c (MkCn ms lf RReading VWait) (length (cns (sv s))) s).
  { split; [|auto]. rewrite Ll in L1. destruct (busy s) as [|b [|b' r]]; try discriminate. destruct k as [|[|k]]; cbn in Hk; try discriminate. congruence. }
  apply (held_up_run c ms lf _ sch' s F) in H. destruct H as (_ & H1 & H2 & _). auto.
Qed.
Print Assumptions C92_silent_peer.

Example C92_ex :
  let s := frun (moves (come 0 [hello] ++ come 0 [echo])) (fstart 1 true true 1) in
  served (sv s) = 1 /\ length (cns (sv s)) = 1 /\ nth_error (cns (sv s)) 0 = Some (MkCn [hello] [hello] RReading VWait)
  /\ let s' := frun (moves ([MRecv 0] ++ repeat (MServe 0) 6 ++ [MRecv 0] ++ repeat (MServe 0) 4 ++ [MLoop 0 []] ++ come 0 [echo])) s in
     trace (sv s') = served_story 0 [hello] ++ [EState 1 StateNew] /\ served (sv s') = 1 /\ busy s' = [Some 1].
Proof. vm_compute. repeat split; reflexivity. Qed.

(** C93: any error of Accept ends Serve with that error; the connections stay. *)
Theorem C93_any_error : forall lim one q n sch k e, let s := frun sch (fstart lim one q n) in
  nth_error (loops (sv s)) k = Some LIdle -> nth_error (busy s) k = Some None -> nth_error (ended s) k = Some None ->
  let s' := frun [FFail k e] s in
  nth_error (ended s') k = Some (Some e) /\ sv s' = sv s.
Proof.
  intros lim one q n sch k e s H1 H2 H3 s'. unfold s'. cbn [frun fold_left]. unfold fdo. cbn [fstep]. unfold frame_fail. rewrite H1, H2, H3.
  cbn [ended sv with_ended]. split; [|reflexivity]. apply setnth_same. eapply nth_error_lt. exact H3.
Qed.
Print Assumptions C93_any_error.

(** A Serve call that has returned stays so and accepts nothing. *)
Theorem C93_for_good : forall lim one q n sch sch' k e, let s := frun sch (fstart lim one q n) in
  nth_error (ended s) k = Some (Some e) ->
  let s' := frun sch' s in
  nth_error (ended s') k = Some (Some e) /\ nth_error (loops (sv s')) k = Some LIdle.
Proof.
  intros lim one q n sch sch' k e s H s'.
  assert (L : nth_error (loops (sv s)) k = Some LIdle) by (destruct (crew_run lim one q n sch) as (_ & _ & _ & En & _); eapply En; exact H).
  apply (frun_inv (fun t => nth_error (ended t) k = Some (Some e) /\ nth_error (loops (sv t)) k = Some LIdle)); [auto|].
  intros m t t' (A & B) E. apply fstep_trans in E. destruct (over t t' k e E A) as (X & Y). auto.
Qed.
Print Assumptions C93_for_good.

(** When every Serve call has returned no connection is accepted any more: one
    failing accept, be it temporary, is enough for a server with one. *)
Theorem C93_no_more : forall lim one q n sch sch', let s := frun sch (fstart lim one q n) in
  Forall (fun e => e <> None) (ended s) -> length (cns (sv (frun sch' s))) = length (cns (sv s)).
Proof.
  intros lim one q n sch sch' s F.
  assert (G : let t := frun sch' s in crew t /\ shape (sv t) /\ Forall (fun e => e <> None) (ended t) /\ length (cns (sv t)) = length (cns (sv s))).
  { apply (frun_inv (fun t => crew t /\ shape (sv t) /\ Forall (fun e => e <> None) (ended t) /\ length (cns (sv t)) = length (cns (sv s)))).
    - split; [apply crew_run|]. split; [|auto]. unfold s. destruct (frame_simulates lim one q n sch) as (sch1 & ->). apply shape_run.
    - intros m t t' (C & Sh & Ft & L) E. apply fstep_trans in E. destruct (over_length t t' C E Ft) as (X & Y).
      split; [apply (crew_step t); assumption|]. split; [|split; [rewrite Y; exact Ft|congruence]].
      destruct (ftrans_sv t t' E) as [->|(m' & E')]; [exact Sh|]. eapply shape_step; [exact Sh|eapply sstep_trans; exact E']. }
  apply G.
Qed.
Print Assumptions C93_no_more.

Theorem C93_temporary_refuted : forall lim one q e,
  exists sch, sch = [FFail 0 e] /\ forall sch', cns (sv (frun sch' (frun sch (fstart lim one q 1)))) = [].
Proof.
  intros lim one q e. exists [FFail 0 e]. split; [reflexivity|]. intro sch'. pose proof (C93_no_more lim one q 1 [FFail 0 e] sch') as H. cbv zeta in H.
  apply length_zero_iff_nil. rewrite H; [reflexivity|]. repeat constructor. discriminate.
Qed.
Print Assumptions C93_temporary_refuted.

(** Whatever accepts have failed, everything that was accepted can be finished,
    and then every message of every connection has been handled, in order. *)
Theorem C93_finished : forall one n sch, let s := frun sch (fstart 0 one true n) in
  exists sch', let s' := frun sch' s in
    at_leisure s' /\ ended s' = ended s /\ length (cns (sv s')) = length (cns (sv s))
    /\ forall c ms, sent c (sv s) ms -> story c (sv s') = served_story c ms.
Proof.
  intros one n sch s. destruct (finishes 0 one true n sch) as (sch' & sch2 & H). fold s in H. cbv zeta in H.
  destruct H as (H1 & H2 & (sch1 & E1) & H4 & H5). exists sch'. cbv zeta. split; [exact H1|]. split; [exact H2|].
  rewrite H5. split; [apply productive_length; exact H4|]. intros c ms Hs. destruct H1 as (St & _). rewrite H5 in St.
  rewrite E1, <- srun_app in St |- *. apply C35_complete_unlimited; [exact St|]. rewrite srun_app, <- E1. apply sent_run. exact Hs.
Qed.
Print Assumptions C93_finished.

Example C93_ex :
  let s := frun (moves (come 0 [hello]) ++ [FFail 0 (EUser 5)]) (fstart 0 false true 1) in
  ended s = [Some (EUser 5)] /\ sent 0 (sv s) [hello] /\ Forall (fun e => e <> None) (ended s)
  /\ let s' := frun (moves ([MRecv 0] ++ repeat (MServe 0) 6 ++ [MRecv 0] ++ repeat (MServe 0) 4 ++ come 0 [echo])) s in
     trace (sv s') = served_story 0 [hello] /\ length (cns (sv s')) = 1.
Proof.
  cbv zeta. split; [vm_compute; reflexivity|]. split; [eexists; split; vm_compute; reflexivity|].
  split; [repeat constructor; vm_compute; discriminate|]. vm_compute. split; reflexivity.
Qed.
