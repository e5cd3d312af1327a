(** Lemmas about runs that a panic may end. *)
From Verif Require Import ListFacts ServerSpec ServerFacts CrashModel.
From Coq Require Import Lia.

Lemma setnth_twice {A} k (x y : A) l : setnth k x (setnth k y l) = setnth k x l.
Proof. revert k. induction l as [|a l IH]; intros [|k]; cbn [setnth]; try rewrite IH; reflexivity. Qed.
Lemma setnth_last {A} (l : list A) x y : setnth (length l) x (l ++ [y]) = l ++ [x].
Proof. induction l as [|a l IH]; cbn [length setnth app]; [|rewrite IH]; reflexivity. Qed.
Lemma nth_last {A} (l : list A) x : nth_error (l ++ [x]) (length l) = Some x.
Proof. rewrite nth_error_app2 by lia. rewrite Nat.sub_diag. reflexivity. Qed.

(** A move adds to the trace. *)
Lemma sact_trace s m : exists ev, trace (sact s m) = trace s ++ ev.
Proof.
  unfold sact. destruct (sstep m s) as [t|] eqn:E; [|exists []; rewrite app_nil_r; reflexivity].
  destruct m as [k ms|c|c|j]; cbn [sstep] in E; [unfold loop_step in E|unfold recv_step in E|unfold serve_step in E|unfold hand_step in E];
  repeat match type of E with
         | match ?x with _ => _ end = _ => destruct x; try discriminate
         end; injection E as <-; cbn [trace emits with_loop with_cn with_new with_counter with_hands];
  eauto; exists []; rewrite app_nil_r; reflexivity.
Qed.

Lemma prun_next d m l s t ev : sact s m = t -> trace t = trace s ++ ev -> existsb (fatal d) ev = false -> prun d (m :: l) s = prun d l t.
Proof. intros <- T F. cbn [prun]. rewrite T, skipn_app, skipn_all, Nat.sub_diag. cbn [skipn app]. rewrite F. reflexivity. Qed.
Lemma prun_last d m l s t ev : sact s m = t -> trace t = trace s ++ ev -> existsb (fatal d) ev = true -> prun d (m :: l) s = (t, true).
Proof. intros <- T F. cbn [prun]. rewrite T, skipn_app, skipn_all, Nat.sub_diag. cbn [skipn app]. rewrite F. reflexivity. Qed.

(** A run goes as it would without panics, as far as it goes; it is over exactly
    when a handler was called that panics. *)
Lemma prun_spec d sch : forall s t over, existsb (fatal d) (trace s) = false -> prun d sch s = (t, over) ->
  (exists sch1 sch2, sch = sch1 ++ sch2 /\ t = srun sch1 s /\ (over = false -> sch2 = []))
  /\ over = existsb (fatal d) (trace t).
Proof.
  induction sch as [|m l IH]; intros s t over A P.
  - cbn in P. injection P as <- <-. split; [|symmetry; exact A]. exists [], []. auto.
  - destruct (sact_trace s m) as (ev & T). destruct (existsb (fatal d) ev) eqn:F.
    + rewrite (prun_last d m l s _ ev eq_refl T F) in P. injection P as <- <-. split.
      * exists [m], l. split; [reflexivity|]. split; [reflexivity|discriminate].
      * rewrite T, existsb_app, F, orb_true_r. reflexivity.
    + rewrite (prun_next d m l s _ ev eq_refl T F) in P.
      destruct (IH (sact s m) t over) as ((l1 & l2 & -> & -> & O) & E); [rewrite T, existsb_app, A, F; reflexivity|exact P|].
      split; [|exact E]. exists (m :: l1), l2. auto.
Qed.

Lemma fatal_calls d l : existsb (fatal d) l = existsb d (calls l).
Proof.
  unfold calls. induction l as [|e l IH]; [reflexivity|]. cbn [existsb flat_map]. rewrite existsb_app, <- IH.
  destruct e; cbn [fatal existsb]; rewrite ?orb_false_r; reflexivity.
Qed.

Lemma prun_app d l l' s : prun d (l ++ l') s = (let '(t, over) := prun d l s in if over then (t, true) else prun d l' t).
Proof.
  revert s. induction l as [|m l IH]; intros s; [reflexivity|]. cbn [app prun].
  destruct (existsb (fatal d) (skipn (length (trace s)) (trace (sact s m)))); [reflexivity|apply IH].
Qed.

(** The moves by which a newcomer on loop [k] has its message handled, if it is
    connection [c] and handler goroutine [j]. *)
Definition newcomer (seqr : bool) (k c j : nat) (m : Request) : list move :=
  repeat (MLoop k [m]) 5 ++ [MRecv c; MServe c] ++ (if seqr then [MServe c; MServe c] else [MHand j; MHand j]).

Lemma newcomer_run d q0 ctr ls cs hs tr k m : d m = true -> nth_error ls k = Some LIdle ->
  let s := MkServer 0 q0 ctr ls cs hs tr in let c := length cs in
  exists t ev, prun d (newcomer q0 k c (length hs) m) s = (t, true)
    /\ trace t = tr ++ ev /\ Forall (fun e => conn_of e = c) ev /\ calls ev = [m]
    /\ (exists x, cns t = cs ++ [x] /\ cmsgs x = [m]).
Proof.
  intros D K s c.
  assert (KL : k < length ls) by (apply nth_error_Some; congruence).
  assert (NS : forall p : accepting, nth_error (setnth k p ls) k = Some p) by (intro p; apply setnth_same; exact KL).
  set (x0 := MkCn [m] [m] RNot VNot).
  set (w := MkWriter c (Header_Version (Request_Header m)) (Header_Transaction (Request_Header m))).
  set (ctr1 := wrap32 (ctr + 1)).
  set (lsI := setnth k LIdle ls).
  assert (S1 : sact s (MLoop k [m]) = MkServer 0 q0 ctr (setnth k (LNew c) ls) (cs ++ [x0]) hs tr)
    by (unfold sact; cbn [sstep]; unfold loop_step, s; cbn [loops]; rewrite K; reflexivity).
  assert (S2 : sact (MkServer 0 q0 ctr (setnth k (LNew c) ls) (cs ++ [x0]) hs tr) (MLoop k [m])
             = MkServer 0 q0 ctr (setnth k (LLoad c) ls) (cs ++ [x0]) hs (tr ++ [EState c StateNew]))
    by (unfold sact; cbn [sstep]; unfold loop_step; cbn [loops]; rewrite NS; unfold with_loop, emits; cbn [limit sequential counter loops cns hands trace];
        rewrite setnth_twice; reflexivity).
  set (tr1 := tr ++ [EState c StateNew]) in *.
  assert (S3 : sact (MkServer 0 q0 ctr (setnth k (LLoad c) ls) (cs ++ [x0]) hs tr1) (MLoop k [m])
             = MkServer 0 q0 ctr (setnth k (LTest c ctr) ls) (cs ++ [x0]) hs tr1)
    by (unfold sact; cbn [sstep]; unfold loop_step; cbn [loops]; rewrite NS; unfold with_loop; cbn [limit sequential counter loops cns hands trace];
        rewrite setnth_twice; reflexivity).
  assert (S4 : sact (MkServer 0 q0 ctr (setnth k (LTest c ctr) ls) (cs ++ [x0]) hs tr1) (MLoop k [m])
             = MkServer 0 q0 ctr1 (setnth k (LSpawn c) ls) (cs ++ [x0]) hs tr1)
    by (unfold sact; cbn [sstep]; unfold loop_step; cbn [loops]; rewrite NS; cbn [limit Z.eqb negb andb]; unfold with_loop, with_counter;
        cbn [limit sequential counter loops cns hands trace]; rewrite setnth_twice; reflexivity).
  assert (S5 : sact (MkServer 0 q0 ctr1 (setnth k (LSpawn c) ls) (cs ++ [x0]) hs tr1) (MLoop k [m])
             = MkServer 0 q0 ctr1 lsI (cs ++ [MkCn [m] [m] RReading VWait]) hs tr1)
    by (unfold sact; cbn [sstep]; unfold loop_step; cbn [loops cns]; rewrite NS; unfold c; rewrite nth_last; unfold with_loop, with_cn;
        cbn [limit sequential counter loops cns hands trace]; rewrite setnth_twice, setnth_last; reflexivity).
  assert (S6 : sact (MkServer 0 q0 ctr1 lsI (cs ++ [MkCn [m] [m] RReading VWait]) hs tr1) (MRecv c)
             = MkServer 0 q0 ctr1 lsI (cs ++ [MkCn [m] [] (ROffer (Some m)) VWait]) hs tr1)
    by (unfold sact; cbn [sstep]; unfold recv_step; cbn [loops cns]; unfold c; rewrite nth_last; unfold with_cn;
        cbn [limit sequential counter loops cns hands trace]; rewrite setnth_last; reflexivity).
  assert (NE : forall (ev : event) r, existsb (fatal d) [EState c r] = false) by reflexivity.
  unfold newcomer. cbn [repeat app].
  rewrite (prun_next d _ _ s _ [] S1) by (cbn [trace s]; rewrite ?app_nil_r; reflexivity).
  rewrite (prun_next d _ _ _ _ [EState c StateNew] S2) by reflexivity.
  rewrite (prun_next d _ _ _ _ [] S3) by (cbn [trace]; rewrite ?app_nil_r; reflexivity).
  rewrite (prun_next d _ _ _ _ [] S4) by (cbn [trace]; rewrite ?app_nil_r; reflexivity).
  rewrite (prun_next d _ _ _ _ [] S5) by (cbn [trace]; rewrite ?app_nil_r; reflexivity).
  rewrite (prun_next d _ _ _ _ [] S6) by (cbn [trace]; rewrite ?app_nil_r; reflexivity).
  set (e1 := EState c (request_state m)). set (e2 := ECall c w m).
  assert (TR : (tr1 ++ [e1]) ++ [e2] = tr ++ [EState c StateNew; e1; e2]) by (unfold tr1; rewrite <- !app_assoc; reflexivity).
  destruct q0.
  - assert (S7 : sact (MkServer 0 true ctr1 lsI (cs ++ [MkCn [m] [] (ROffer (Some m)) VWait]) hs tr1) (MServe c)
             = MkServer 0 true ctr1 lsI (cs ++ [MkCn [m] [] RReading (VReq m HState)]) hs tr1)
      by (unfold sact; cbn [sstep]; unfold serve_step; cbn [loops cns sequential]; unfold c; rewrite nth_last; unfold with_cn;
          cbn [limit sequential counter loops cns hands trace]; rewrite setnth_last; reflexivity).
    assert (S8 : sact (MkServer 0 true ctr1 lsI (cs ++ [MkCn [m] [] RReading (VReq m HState)]) hs tr1) (MServe c)
             = MkServer 0 true ctr1 lsI (cs ++ [MkCn [m] [] RReading (VReq m HCall)]) hs (tr1 ++ [e1]))
      by (unfold sact; cbn [sstep]; unfold serve_step; cbn [loops cns sequential]; unfold e1, c; rewrite nth_last; cbn [serve_req]; unfold with_cn, emits;
          cbn [limit sequential counter loops cns hands trace]; rewrite setnth_last; reflexivity).
    assert (S9 : sact (MkServer 0 true ctr1 lsI (cs ++ [MkCn [m] [] RReading (VReq m HCall)]) hs (tr1 ++ [e1])) (MServe c)
             = MkServer 0 true ctr1 lsI (cs ++ [MkCn [m] [] RReading (VReq m HReturn)]) hs ((tr1 ++ [e1]) ++ [e2]))
      by (unfold sact; cbn [sstep]; unfold serve_step; cbn [loops cns sequential]; unfold e2, w, c; rewrite nth_last; cbn [serve_req]; unfold with_cn, emits;
          cbn [limit sequential counter loops cns hands trace]; rewrite setnth_last; reflexivity).
    rewrite (prun_next d _ _ _ _ [] S7) by (cbn [trace]; rewrite ?app_nil_r; reflexivity).
    rewrite (prun_next d _ _ _ _ [e1] S8) by reflexivity.
    rewrite (prun_last d _ _ _ _ [e2] S9) by (try reflexivity; cbn [existsb fatal e2]; rewrite D; reflexivity).
    eexists _, [EState c StateNew; e1; e2]. split; [reflexivity|]. cbn [trace cns]. split; [exact TR|].
    split; [repeat constructor|]. split; [reflexivity|]. eexists. split; reflexivity.
  - set (j := length hs).
    assert (S7 : sact (MkServer 0 false ctr1 lsI (cs ++ [MkCn [m] [] (ROffer (Some m)) VWait]) hs tr1) (MServe c)
             = MkServer 0 false ctr1 lsI (cs ++ [MkCn [m] [] RReading VWait]) (hs ++ [(c, m, Some HState)]) tr1)
      by (unfold sact; cbn [sstep]; unfold serve_step; cbn [loops cns sequential]; unfold c; rewrite nth_last; unfold with_cn, with_hands;
          cbn [limit sequential counter loops cns hands trace]; rewrite setnth_last; reflexivity).
    assert (S8 : sact (MkServer 0 false ctr1 lsI (cs ++ [MkCn [m] [] RReading VWait]) (hs ++ [(c, m, Some HState)]) tr1) (MHand j)
             = MkServer 0 false ctr1 lsI (cs ++ [MkCn [m] [] RReading VWait]) (hs ++ [(c, m, Some HCall)]) (tr1 ++ [e1]))
      by (unfold sact; cbn [sstep]; unfold hand_step; cbn [hands]; unfold j; rewrite nth_last; cbn [serve_req]; unfold with_hands, emits;
          cbn [limit sequential counter loops cns hands trace]; rewrite setnth_last; reflexivity).
    assert (S9 : sact (MkServer 0 false ctr1 lsI (cs ++ [MkCn [m] [] RReading VWait]) (hs ++ [(c, m, Some HCall)]) (tr1 ++ [e1])) (MHand j)
             = MkServer 0 false ctr1 lsI (cs ++ [MkCn [m] [] RReading VWait]) (hs ++ [(c, m, Some HReturn)]) ((tr1 ++ [e1]) ++ [e2]))
      by (unfold sact; cbn [sstep]; unfold hand_step; cbn [hands]; unfold j; rewrite nth_last; cbn [serve_req]; unfold with_hands, emits;
          cbn [limit sequential counter loops cns hands trace]; rewrite setnth_last; reflexivity).
    rewrite (prun_next d _ _ _ _ [] S7) by (cbn [trace]; rewrite ?app_nil_r; reflexivity).
    rewrite (prun_next d _ _ _ _ [e1] S8) by reflexivity.
    rewrite (prun_last d _ _ _ _ [e2] S9) by (try reflexivity; cbn [existsb fatal e2]; rewrite D; reflexivity).
    eexists _, [EState c StateNew; e1; e2]. split; [reflexivity|]. cbn [trace cns]. split; [exact TR|].
    split; [repeat constructor|]. split; [reflexivity|]. eexists. split; reflexivity.
Qed.
