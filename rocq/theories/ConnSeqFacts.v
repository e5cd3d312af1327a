(** Sequential use of a connection, replies, and racing receivers. *)
From Coq Require Import ZifyBool ZifyNat ZifyN.
From Verif Require Export ConnFacts.

(** ** A goroutine running alone *)
Lemma run_app a b s : run (a ++ b) s = run b (run a s).
Proof. unfold run. apply fold_left_app. Qed.


Lemma solo_iter i o p s : at_ (threads s i) = Writing p o -> bw_more p (cbw (scon s)) = true ->
  let s' := act (Go i) s in
  at_ (threads s' i) = Writing (fst (bw_iter p (cbw (scon s)))) o /\ todo (threads s' i) = todo (threads s i)
  /\ scon s' = MkConn (snd (bw_iter p (cbw (scon s)))) (wtimeout (scon s)) /\ owner s' = owner s
  /\ results s' = results s.
Proof.
  intros Ha Hm. unfold act, step_of. rewrite Ha, Hm. destruct (bw_iter p (cbw (scon s))) as [p' b'].
  cbn [with_bw set_con goto threads scon owner results fst snd]. rewrite upd_same. cbn. auto.
Qed.

Lemma solo_loop i o p s : at_ (threads s i) = Writing p o -> length (bbuf (cbw (scon s))) <= bufsize ->
  exists n p' b', let s' := run (repeat (Go i) n) s in
    at_ (threads s' i) = Writing p' o /\ todo (threads s' i) = todo (threads s i)
    /\ scon s' = MkConn b' (wtimeout (scon s)) /\ owner s' = owner s /\ results s' = results s
    /\ bw_more p' b' = false /\ bw_end p' b' = bw_write p (cbw (scon s)).
Proof.
  intros Ha Hl. unfold bw_write. cbn [bw_loop].
  destruct (bw_more p (cbw (scon s))) eqn:Hm.
  2:{ exists 0, p, (cbw (scon s)). cbn. destruct (scon s). auto 10. }
  destruct (solo_iter i o p s Ha Hm) as (A1 & T1 & C1 & O1 & R1). set (s1 := act (Go i) s) in *.
  pose proof (bw_iter_spec p (cbw (scon s)) Hm Hl) as Hs.
  destruct (bw_iter p (cbw (scon s))) as [p1 b1] eqn:Hi. cbn [fst snd] in *.
  assert (B1 : cbw (scon s1) = b1) by (rewrite C1; reflexivity).
  assert (W1 : wtimeout (scon s1) = wtimeout (scon s)) by (rewrite C1; reflexivity).
  destruct (bw_more p1 b1) eqn:Hm1.
  2:{ exists 1, p1, b1. cbn [repeat run fold_left]. fold s1. auto 10. }
  rewrite <- B1 in Hm1. destruct (solo_iter i o p1 s1 A1 Hm1) as (A2 & T2 & C2 & O2 & R2). set (s2 := act (Go i) s1) in *.
  rewrite B1 in *. assert (He1 : berr b1 = None).
  { unfold bw_more in Hm1. destruct (berr b1); [rewrite andb_false_r in Hm1; discriminate|reflexivity]. }
  rewrite He1 in Hs. destruct Hs as (L1 & N1 & _ & _).
  pose proof (bw_iter_spec p1 b1 Hm1 L1) as Hs.
  destruct (bw_iter p1 b1) as [p2 b2] eqn:Hi1. cbn [fst snd] in *.
  assert (Hm2 : bw_more p2 b2 = false).
  { destruct Hs as [L2 S2]. destruct (berr b2) eqn:He2; [eapply bw_more_err; exact He2|].
    destruct S2 as (_ & _ & Z2). rewrite (Z2 N1). reflexivity. }
  rewrite Hm2. exists 2, p2, b2. cbn [repeat run fold_left]. fold s1. fold s2.
  rewrite T2, T1, C2, W1, O2, O1, R2, R1. auto 10.
Qed.

(** The goroutine model and the sequential functions describe the same calls. *)
Lemma solo i o l s : at_ (threads s i) = Idle -> todo (threads s i) = o :: l -> owner s = None ->
  length (bbuf (cbw (scon s))) <= bufsize ->
  exists n, let s' := run (repeat (Go i) n) s in
    at_ (threads s' i) = Idle /\ todo (threads s' i) = l /\ owner s' = None
    /\ scon s' = snd (perform (as_event o) (scon s))
    /\ results s' = results s ++ [(i, o, fst (perform (as_event o) (scon s)))].
Proof.
  intros Ha Ht Ho Hl.
  assert (Send_end : forall r b e s1, o = OSend r -> todo (threads s1 i) = l -> owner s1 = None -> results s1 = results s ->
     scon s1 = MkConn b (wtimeout (scon s)) ->
     exists n, let s' := run (repeat (Go i) n) (end_send i o e s1) in
     at_ (threads s' i) = Idle /\ todo (threads s' i) = l /\ owner s' = None
     /\ scon s' = arm_after (MkConn b (wtimeout (scon s))) /\ results s' = results s ++ [(i, o, e)]).
  { intros r b e s1 -> T1 O1 R1 C1. unfold end_send, arm_after. rewrite C1. cbn [wtimeout].
    destruct (wtimeout (scon s) =? 0)%Z eqn:Ew.
    - exists 0. cbn [repeat run fold_left return_ threads scon owner results]. rewrite upd_same. cbn. rewrite R1. auto.
    - exists 1. cbn [repeat run fold_left act]. unfold step_of. cbn [goto threads]. rewrite upd_same. cbn [at_].
      cbn [return_ with_bw set_con goto threads scon owner results]. rewrite C1. cbn [cbw wtimeout].
      rewrite upd_same. cbn. rewrite upd_same. cbn. rewrite R1. auto. }
  destruct o as [r| |x].
  - cbn [as_event perform]. unfold c_send. destruct (outgoing r) as [p|e] eqn:Hr.
    + (* begin *)
      assert (S1 : step_of i s = Some (set_owner (Some i) (logged i p (goto i (MkThread l (Writing p (OSend r))) s)))).
      { unfold step_of. rewrite Ha, Ht, Hr, Ho. reflexivity. }
      set (s1 := set_owner (Some i) (logged i p (goto i (MkThread l (Writing p (OSend r))) s))) in *.
      assert (A1 : at_ (threads s1 i) = Writing p (OSend r)) by (unfold s1; cbn; rewrite upd_same; reflexivity).
      assert (T1 : todo (threads s1 i) = l) by (unfold s1; cbn; rewrite upd_same; reflexivity).
      assert (C1 : scon s1 = scon s) by reflexivity.
      destruct (solo_loop i (OSend r) p s1 A1 Hl) as (n & p' & b' & A2 & T2 & C2 & O2 & R2 & M2 & E2).
      set (s2 := run (repeat (Go i) n) s1) in *. rewrite C1 in *.
      destruct (bw_write p (cbw (scon s))) as [e b] eqn:Hw.
      assert (S3 : step_of i s2 = Some (end_send i (OSend r) e (set_owner None (with_bw b s2)))).
      { unfold step_of. rewrite A2, C2. cbn [cbw]. rewrite M2, E2. destruct e; reflexivity. }
      destruct (Send_end r b e (set_owner None (with_bw b s2)) eq_refl) as (m & H).
      * cbn. rewrite T2. exact T1.
      * reflexivity.
      * cbn. rewrite R2. reflexivity.
      * cbn. rewrite C2. reflexivity.
      * exists (1 + n + 1 + m). rewrite !repeat_app, !run_app. cbn [repeat].
        replace (run [Go i] s) with s1 by (cbn; rewrite S1; reflexivity). fold s2.
        replace (run [Go i] s2) with (end_send i (OSend r) e (set_owner None (with_bw b s2)))
          by (unfold run; cbn [fold_left act]; rewrite S3; reflexivity).
        exact H.
    + destruct (Send_end r (cbw (scon s)) (Some e) (goto i (MkThread l Idle) s) eq_refl) as (m & H).
      * cbn. rewrite upd_same. reflexivity.
      * exact Ho.
      * reflexivity.
      * cbn. destruct (scon s). reflexivity.
      * exists (1 + m). rewrite repeat_app, run_app. cbn [repeat].
        replace (run [Go i] s) with (end_send i (OSend r) (Some e) (goto i (MkThread l Idle) s))
          by (unfold run; cbn [fold_left act]; unfold step_of; rewrite Ha, Ht, Hr; reflexivity).
        cbn [fst snd]. destruct (scon s). exact H.
  - cbn [as_event perform]. unfold c_flush. destruct (bw_flush (cbw (scon s))) as [e b] eqn:Hf.
    assert (S1 : step_of i s = Some (set_owner (Some i) (goto i (MkThread l (InFlush OFlush)) s))).
    { unfold step_of. rewrite Ha, Ht, Ho. reflexivity. }
    set (s1 := set_owner (Some i) (goto i (MkThread l (InFlush OFlush)) s)) in *.
    assert (A1 : at_ (threads s1 i) = InFlush OFlush) by (unfold s1; cbn; rewrite upd_same; reflexivity).
    assert (T1 : todo (threads s1 i) = l) by (unfold s1; cbn; rewrite upd_same; reflexivity).
    assert (S2 : step_of i s1 = Some (return_ i OFlush e (set_owner None (with_bw b s1)))).
    { unfold step_of. rewrite A1. change (scon s1) with (scon s). rewrite Hf. reflexivity. }
    exists 2. unfold run. cbn [repeat fold_left act]. rewrite S1, S2.
    cbn [return_ with_bw set_con set_owner goto threads scon owner results]. rewrite upd_same. cbn [at_ todo].
    rewrite T1. auto.
  - cbn [as_event perform]. unfold c_force.
    assert (S1 : step_of i s = Some (set_owner (Some i) (logged i x (goto i (MkThread l (Writing x (OReply x))) s)))).
    { unfold step_of. rewrite Ha, Ht, Ho. reflexivity. }
    set (s1 := set_owner (Some i) (logged i x (goto i (MkThread l (Writing x (OReply x))) s))) in *.
    assert (A1 : at_ (threads s1 i) = Writing x (OReply x)) by (unfold s1; cbn; rewrite upd_same; reflexivity).
    assert (T1 : todo (threads s1 i) = l) by (unfold s1; cbn; rewrite upd_same; reflexivity).
    assert (C1 : scon s1 = scon s) by reflexivity.
    destruct (solo_loop i (OReply x) x s1 A1 Hl) as (n & p' & b' & A2 & T2 & C2 & O2 & R2 & M2 & E2).
    set (s2 := run (repeat (Go i) n) s1) in *. rewrite C1 in *.
    destruct (bw_write x (cbw (scon s))) as [e b] eqn:Hw.
    destruct e as [e|].
    + assert (S3 : step_of i s2 = Some (return_ i (OReply x) (Some e) (set_owner None (with_bw b s2)))).
      { unfold step_of. rewrite A2, C2. cbn [cbw]. rewrite M2, E2. reflexivity. }
      exists (1 + n + 1). rewrite !repeat_app, !run_app. cbn [repeat].
      replace (run [Go i] s) with s1 by (cbn; rewrite S1; reflexivity). fold s2.
      unfold run. cbn [fold_left act]. rewrite S3.
      cbn [return_ with_bw set_con set_owner goto threads scon owner results]. rewrite upd_same. cbn.
      rewrite T2, T1, C2, R2. auto.
    + assert (S3 : step_of i s2 = Some (goto i (MkThread (todo (threads s2 i)) (InFlush (OReply x))) (with_bw b s2))).
      { unfold step_of. rewrite A2, C2. cbn [cbw]. rewrite M2, E2. reflexivity. }
      unfold c_flush. cbn [cbw wtimeout]. destruct (bw_flush b) as [e b2] eqn:Hf.
      exists (1 + n + 2). rewrite !repeat_app, !run_app. cbn [repeat].
      replace (run [Go i] s) with s1 by (cbn; rewrite S1; reflexivity). fold s2.
      unfold run. cbn [fold_left act]. rewrite S3.
      set (s3 := goto i (MkThread (todo (threads s2 i)) (InFlush (OReply x))) (with_bw b s2)) in *.
      assert (A3 : at_ (threads s3 i) = InFlush (OReply x)) by (unfold s3; cbn; rewrite upd_same; reflexivity).
      assert (T3 : todo (threads s3 i) = l) by (unfold s3; cbn; rewrite upd_same; cbn; congruence).
      assert (S4 : step_of i s3 = Some (return_ i (OReply x) e (set_owner None (with_bw b2 s3)))).
      { unfold step_of. rewrite A3. change (cbw (scon s3)) with b. rewrite Hf. reflexivity. }
      rewrite S4. cbn [return_ with_bw set_con set_owner goto threads scon owner results]. rewrite upd_same. cbn [at_ todo].
      rewrite T3. unfold s3. cbn. rewrite C2, R2. auto.
Qed.

(** ** Sequential histories *)
Definition okc (c : conn) : Prop := length (unsent c) <= bufsize.

Lemma okc_new tmo t : okc (new_conn tmo t).
Proof. unfold okc. cbn. lia. Qed.

Lemma arm_after_same c : unsent (arm_after c) = unsent c /\ on_wire (arm_after c) = on_wire c
  /\ failure (arm_after c) = failure c /\ wtimeout (arm_after c) = wtimeout c.
Proof. unfold arm_after. destruct (wtimeout c =? 0)%Z; auto. Qed.

Lemma bw_write_ok p b : length (bbuf b) <= bufsize -> length (bbuf (snd (bw_write p b))) <= bufsize.
Proof.
  intro H. destruct (berr b) as [x|] eqn:He; [rewrite (bw_write_fail _ _ _ He); exact H|].
  pose proof (bw_write_spec p b He H) as Hs. destruct (bw_write p b). apply Hs.
Qed.

Lemma bw_flush_ok b : length (bbuf b) <= bufsize -> length (bbuf (snd (bw_flush b))) <= bufsize.
Proof.
  intro H. destruct (berr b) as [x|] eqn:He; [rewrite (bw_flush_fail _ _ He); exact H|].
  pose proof (bw_flush_spec b He) as Hs. destruct (bw_flush b). cbn in *. lia.
Qed.

Lemma okc_perform v c : okc c -> okc (snd (perform v c)).
Proof.
  intro H. destruct v as [r|p| |d]; cbn [perform].
  - unfold c_send. destruct (outgoing r) as [p|e].
    + pose proof (bw_write_ok p (cbw c) H) as Hw. destruct (bw_write p (cbw c)) as [e b].
      unfold okc. cbn [snd] in *. destruct (arm_after_same (MkConn b (wtimeout c))) as [-> _]. exact Hw.
    + unfold okc. cbn [snd]. destruct (arm_after_same c) as [-> _]. exact H.
  - unfold c_force. pose proof (bw_write_ok p (cbw c) H) as Hw. destruct (bw_write p (cbw c)) as [e b].
    destruct e; [exact Hw|]. unfold c_flush. cbn [cbw snd] in *. pose proof (bw_flush_ok b Hw) as Hf.
    destruct (bw_flush b). exact Hf.
  - unfold c_flush. pose proof (bw_flush_ok (cbw c) H) as Hf. destruct (bw_flush (cbw c)). exact Hf.
  - exact H.
Qed.

Lemma okc_history l : forall c, okc c -> okc (history l c).
Proof. induction l as [|v l IH]; intros c H; [exact H|]. cbn. apply IH, okc_perform, H. Qed.

(** What a successful or failing call does to wire and buffer. *)
Lemma c_flush_spec c : failure c = None -> let '(e, c') := c_flush c in
  failure c' = e /\ wtimeout c' = wtimeout c /\
  match e with
  | None => unsent c' = [] /\ on_wire c' = on_wire c ++ unsent c
  | Some _ => prefix (on_wire c') (on_wire c ++ unsent c) /\ prefix (on_wire c) (on_wire c')
  end.
Proof.
  intro H. pose proof (bw_flush_spec (cbw c) H) as Hs. unfold c_flush. destruct (bw_flush (cbw c)) as [e b].
  destruct Hs as (S1 & _ & S3). split; [exact S1|]. split; [reflexivity|]. exact S3.
Qed.

Lemma outgoing_frame r f : outgoing r = inl f -> frame_for f r.
Proof.
  unfold outgoing. intro H. destruct (werr (write_to sink r)) as [x|] eqn:He.
  - destruct (content (Request_Body r)) as [b [y|]] eqn:Hc.
    + destruct (write_to_fails sink r b y) as (_ & W & _).
      { intro X. rewrite X in Hc. discriminate. } { exact Hc. }
      rewrite W in H. discriminate.
    + destruct (N.leb_spec (lenN b) 65527).
      * destruct (write_sink r b Hc) as (e & _ & W & _); [lia|]. congruence.
      * destruct (write_to_toolong sink r b Hc) as (_ & W & _); [lia|]. rewrite W in H. discriminate.
  - destruct (write_frame sink r He) as (b & e & Hc & W & F & _). rewrite W in H. injection H as <-.
    exists b. auto.
Qed.

Lemma c_send_ok r c c' : failure c = None -> okc c -> c_send r c = (None, c') ->
  exists f, frame_for f r /\ failure c' = None /\ on_wire c' ++ unsent c' = on_wire c ++ unsent c ++ f.
Proof.
  intros H Hok Hs. unfold c_send in Hs. destruct (outgoing r) as [p|e] eqn:Hr; [|discriminate].
  pose proof (bw_write_spec p (cbw c) H Hok) as Hw. destruct (bw_write p (cbw c)) as [e b].
  injection Hs as -> <-. exists p. split; [apply outgoing_frame; exact Hr|].
  destruct (arm_after_same (MkConn b (wtimeout c))) as (-> & -> & -> & _).
  destruct Hw as (W1 & _ & _ & W4). split; [exact W1|exact W4].
Qed.

Lemma okc_send r c : okc c -> okc (snd (c_send r c)).
Proof. apply (okc_perform (Sending r)). Qed.

Lemma send_all_order rs : forall c c', failure c = None -> okc c -> send_all rs c = (None, c') ->
  exists fs, Forall2 frame_for fs rs /\ on_wire c' = on_wire c ++ unsent c ++ concat fs /\ unsent c' = [].
Proof.
  induction rs as [|r rs IH]; intros c c' H Hok Hs.
  - cbn [send_all] in Hs. pose proof (c_flush_spec c H) as Hf. rewrite Hs in Hf. destruct Hf as (_ & _ & F1 & F2).
    exists []. split; [constructor|]. cbn. rewrite app_nil_r. auto.
  - cbn [send_all] in Hs. pose proof (okc_send r c Hok) as Hok1. destruct (c_send r c) as [e c1] eqn:Hc.
    destruct e; [discriminate|]. destruct (c_send_ok r c c1 H Hok Hc) as (f & F1 & F2 & F3).
    destruct (IH c1 c' F2 Hok1 Hs) as (fs & G1 & G2 & G3).
    exists (f :: fs). split; [constructor; assumption|]. cbn [concat]. split; [|exact G3].
    rewrite G2, app_assoc, F3, <- !app_assoc. reflexivity.
Qed.

(** A transport that is ready and no deadline. *)
Definition ready (c : conn) : Prop := plan (btr (cbw c)) = [] /\ deadline (btr (cbw c)) = None /\ wtimeout c = 0%Z.

Lemma tr_write_ready t p : plan t = [] -> deadline t = None ->
  tr_write t p = (length p, None, MkTr (wire t ++ p) [] (clock t) None).
Proof. intros H1 H2. unfold tr_write. rewrite H1, H2. reflexivity. Qed.

Definition readyb (b : bwriter) : Prop := berr b = None /\ plan (btr b) = [] /\ deadline (btr b) = None.

Lemma bw_flush_ready b : readyb b -> fst (bw_flush b) = None /\ readyb (snd (bw_flush b)).
Proof.
  intros (H1 & H2 & H3). unfold bw_flush. rewrite H1. destruct (bbuf b) as [|x l] eqn:Hb.
  - split; [reflexivity|]. split; auto.
  - rewrite tr_write_ready by assumption. cbn. unfold readyb. auto.
Qed.

Lemma bw_iter_ready p b : readyb b -> readyb (snd (bw_iter p b)).
Proof.
  intros (H1 & H2 & H3). unfold bw_iter. destruct (bbuf b) as [|x l] eqn:Hb.
  - rewrite tr_write_ready by assumption. cbn. unfold readyb. auto.
  - cbn [snd]. apply bw_flush_ready. unfold readyb. auto.
Qed.

Lemma bw_write_ready p b : readyb b -> length (bbuf b) <= bufsize ->
  fst (bw_write p b) = None /\ readyb (snd (bw_write p b)).
Proof.
  intros Hr Hl.
  assert (E : forall n p b, readyb b -> fst (bw_loop n p b) = Some EFuel \/
            (fst (bw_loop n p b) = None /\ readyb (snd (bw_loop n p b)))).
  { clear. induction n as [|n IH]; intros p b Hr; [left; reflexivity|]. cbn [bw_loop].
    destruct (bw_more p b).
    - pose proof (bw_iter_ready p b Hr) as Hi. destruct (bw_iter p b) as [p' b']. apply IH, Hi.
    - right. unfold bw_end. destruct Hr as (H1 & H2 & H3). rewrite H1. cbn. unfold readyb. auto. }
  destruct (E 3 p b Hr) as [X|X]; [|exact X].
  exfalso. assert (Hx : fst (bw_loop 4 p b) = Some EFuel).
  { change 4 with (3 + 1). rewrite bw_loop_fuel by exact Hl. exact X. }
  pose proof (bw_loop_spec 0 p b (proj1 Hr) Hl) as Hs. cbn [plus] in Hs.
  destruct (bw_loop 3 p b) as [e b'] eqn:Hb. cbn in X. subst e.
  destruct Hs as (S1 & _).
  (* the buffer of a ready transport never fails *)
  assert (Hn : forall n p b, readyb b -> berr (snd (bw_loop n p b)) = None).
  { clear. induction n as [|n IH]; intros p b Hr; [apply Hr|]. cbn [bw_loop].
    destruct (bw_more p b).
    - pose proof (bw_iter_ready p b Hr) as Hi. destruct (bw_iter p b) as [p' b']. apply IH, Hi.
    - unfold bw_end. destruct Hr as (H1 & H2 & H3). rewrite H1. reflexivity. }
  specialize (Hn 3 p b Hr). rewrite Hb in Hn. cbn in Hn. congruence.
Qed.

Lemma ready_b c : ready c -> failure c = None -> readyb (cbw c).
Proof. intros (A & B & _) H. split; auto. Qed.

Lemma send_ready r f c : outgoing r = inl f -> ready c -> failure c = None -> okc c ->
  exists c', c_send r c = (None, c') /\ ready c' /\ failure c' = None /\ okc c'
    /\ on_wire c' ++ unsent c' = on_wire c ++ unsent c ++ f.
Proof.
  intros Hr Hc Hf Hok. pose proof (bw_write_ready f (cbw c) (ready_b c Hc Hf) Hok) as [W1 W2].
  pose proof (bw_write_spec f (cbw c) Hf Hok) as Hw.
  unfold c_send. rewrite Hr. destruct (bw_write f (cbw c)) as [e b] eqn:Hb. cbn in W1, W2. subst e.
  destruct Hc as (_ & _ & Hz). unfold arm_after. cbn [wtimeout]. rewrite Hz. cbn.
  eexists. split; [reflexivity|]. destruct W2 as (B1 & B2 & B3). destruct Hw as (_ & W & _ & W4).
  unfold ready, failure, okc, on_wire, unsent. cbn. auto 10.
Qed.

(** C16: what was accepted before the failing request is sent. *)
Lemma send_all_leaks rs : forall fs, Forall2 (fun r f => outgoing r = inl f) rs fs ->
  forall bad e more c, outgoing bad = inr e -> ready c -> failure c = None -> okc c ->
  exists c' c'', send_all (rs ++ bad :: more) c = (Some e, c')
    /\ on_wire c' ++ unsent c' = on_wire c ++ unsent c ++ concat fs
    /\ length (unsent c') <= bufsize
    /\ c_flush c' = (None, c'') /\ on_wire c'' = on_wire c ++ unsent c ++ concat fs.
Proof.
  induction 1 as [|r f rs fs Hr HF IH]; intros bad e more c Hb Hc Hf Hok.
  - cbn [app send_all]. unfold c_send. rewrite Hb.
    assert (Ha : arm_after c = c) by (unfold arm_after; destruct Hc as (_ & _ & ->); reflexivity).
    rewrite Ha. pose proof (bw_flush_ready _ (ready_b c Hc Hf)) as [W1 _].
    pose proof (c_flush_spec c Hf) as Hs. destruct (c_flush c) as [x c''] eqn:Hx.
    assert (x = None) as ->. { unfold c_flush in Hx. destruct (bw_flush (cbw c)). cbn in W1. congruence. }
    exists c, c''. split; [reflexivity|]. cbn [concat]. rewrite app_nil_r. split; [reflexivity|].
    split; [exact Hok|]. split; [exact Hx|]. apply Hs.
  - cbn [app send_all]. destruct (send_ready r f c Hr Hc Hf Hok) as (c1 & -> & R1 & R2 & R3 & R4).
    destruct (IH bad e more c1 Hb R1 R2 R3) as (c' & c'' & G1 & G2 & G3 & G4 & G5).
    exists c', c''. split; [exact G1|]. cbn [concat].
    split; [rewrite G2, app_assoc, R4, <- !app_assoc; reflexivity|]. split; [exact G3|]. split; [exact G4|].
    rewrite G5, app_assoc, R4, <- !app_assoc. reflexivity.
Qed.

(** ** C18: the write deadline *)
Definition expired (c : conn) : Prop :=
  exists d, deadline (btr (cbw c)) = Some d /\ (d <= clock (btr (cbw c)))%Z.

Lemma tr_write_late t p d : deadline t = Some d -> (d <= clock t)%Z -> tr_write t p = (0, Some ETimeout, t).
Proof. intros H1 H2. unfold tr_write. rewrite H1. assert ((d <=? clock t)%Z = true) as -> by lia. reflexivity. Qed.

Lemma flush_late b d : deadline (btr b) = Some d -> (d <= clock (btr b))%Z -> bbuf b <> [] -> berr b = None ->
  bw_flush b = (Some ETimeout, MkBw (bbuf b) (Some ETimeout) (btr b)).
Proof.
  intros H1 H2 H3 H4. unfold bw_flush. rewrite H4. destruct (bbuf b) as [|x l] eqn:Hb; [congruence|].
  rewrite (tr_write_late _ _ _ H1 H2). reflexivity.
Qed.

Lemma force_late p c : p <> [] -> expired c -> failure c = None -> okc c ->
  exists c', c_force p c = (Some ETimeout, c') /\ failure c' = Some ETimeout /\ on_wire c' = on_wire c.
Proof.
  intros Hp (d & D1 & D2) Hf Hok. unfold c_force, bw_write, failure, on_wire, okc, unsent in *.
  destruct (bw_more p (cbw c)) eqn:Hm.
  - assert (Hi : exists p', bw_iter p (cbw c) = (p', MkBw (bbuf (snd (bw_iter p (cbw c)))) (Some ETimeout) (btr (cbw c)))).
    { unfold bw_iter. destruct (bbuf (cbw c)) as [|x l] eqn:Hb.
      - rewrite (tr_write_late _ _ _ D1 D2). eexists. reflexivity.
      - rewrite Hf, (flush_late (MkBw _ None _) d D1 D2); [eexists; reflexivity|discriminate|reflexivity]. }
    destruct Hi as [p' Hi]. set (b1 := MkBw (bbuf (snd (bw_iter p (cbw c)))) (Some ETimeout) (btr (cbw c))) in *.
    cbn [bw_loop]. rewrite Hm, Hi. assert (Hx : berr b1 = Some ETimeout) by reflexivity.
    rewrite (bw_more_err _ _ _ Hx), (bw_end_err _ _ _ Hx). eexists. split; [reflexivity|]. auto.
  - cbn [bw_loop]. rewrite Hm. unfold bw_end. rewrite Hf. unfold c_flush. cbn [cbw wtimeout].
    rewrite (flush_late (MkBw _ None _) d D1 D2); [|cbn; intro X; apply app_eq_nil in X; destruct X; congruence|reflexivity].
    eexists. split; [reflexivity|]. auto.
Qed.

Lemma perform_failed v c x : failure c = Some x ->
  (is_passing v = false -> fst (perform v c) <> None) /\ failure (snd (perform v c)) = Some x
  /\ on_wire (snd (perform v c)) = on_wire c.
Proof.
  intro H. unfold failure, on_wire in *. destruct v as [r|p| |d]; cbn [perform].
  - unfold c_send. destruct (outgoing r) as [p|e].
    + rewrite (bw_write_fail _ _ _ H). cbn [fst snd].
      destruct (arm_after_same (MkConn (cbw c) (wtimeout c))) as (_ & A & B & _). unfold failure, on_wire in *. cbn [cbw] in *.
      rewrite A, B, H. split; [discriminate|auto].
    + cbn [fst snd]. destruct (arm_after_same c) as (_ & A & B & _). unfold failure, on_wire in *.
      rewrite A, B, H. split; [discriminate|auto].
  - unfold c_force. rewrite (bw_write_fail _ _ _ H). cbn. split; [discriminate|auto].
  - unfold c_flush. rewrite (bw_flush_fail _ _ H). cbn. split; [discriminate|auto].
  - cbn. split; [discriminate|auto].
Qed.

Lemma history_failed l : forall c x, failure c = Some x ->
  failure (history l c) = Some x /\ on_wire (history l c) = on_wire c.
Proof.
  induction l as [|v l IH]; intros c x H; [auto|].
  change (history (v :: l) c) with (history l (snd (perform v c))).
  destruct (perform_failed v c x H) as (_ & A & B). destruct (IH _ _ A) as [C D]. rewrite C, D. auto.
Qed.

Lemma tr_write_time t p : clock (snd (tr_write t p)) = clock t /\ deadline (snd (tr_write t p)) = deadline t.
Proof.
  unfold tr_write. destruct (match deadline t with Some d => (d <=? clock t)%Z | None => false end); [auto|].
  destruct (plan t) as [|[[k e]|] l]; auto.
Qed.

Definition timeof (b : bwriter) := (clock (btr b), deadline (btr b)).

Lemma bw_flush_time b : timeof (snd (bw_flush b)) = timeof b.
Proof.
  unfold bw_flush, timeof. destruct (berr b); [reflexivity|]. destruct (bbuf b); [reflexivity|].
  pose proof (tr_write_time (btr b) (b0 :: b1)) as [A B]. destruct (tr_write _ _) as [[n e] t]. cbn in A, B.
  destruct e; cbn; rewrite A, B; reflexivity.
Qed.

Lemma bw_iter_time p b : timeof (snd (bw_iter p b)) = timeof b.
Proof.
  unfold bw_iter. destruct (bbuf b).
  - unfold timeof. pose proof (tr_write_time (btr b) p) as [A B]. destruct (tr_write _ _) as [[n e] t]. cbn in *.
    rewrite A, B. reflexivity.
  - cbn [snd]. rewrite bw_flush_time. reflexivity.
Qed.

Lemma bw_loop_time n : forall p b, timeof (snd (bw_loop n p b)) = timeof b.
Proof.
  induction n as [|n IH]; intros p b; [reflexivity|]. cbn [bw_loop]. destruct (bw_more p b).
  - pose proof (bw_iter_time p b) as H. destruct (bw_iter p b) as [p' b']. cbn in H. rewrite IH. exact H.
  - unfold bw_end. destruct (berr b); reflexivity.
Qed.

Lemma perform_time v c : is_sending v = false ->
  wtimeout (snd (perform v c)) = wtimeout c /\
  deadline (btr (cbw (snd (perform v c)))) = deadline (btr (cbw c)) /\
  clock (btr (cbw (snd (perform v c)))) = (clock (btr (cbw c)) + elapsed [v])%Z.
Proof.
  intro H. destruct v as [r|p| |d]; [discriminate| | |]; cbn [perform elapsed fold_right].
  - unfold c_force, bw_write. pose proof (bw_loop_time 3 p (cbw c)) as T. destruct (bw_loop 3 p (cbw c)) as [e b].
    cbn in T. unfold timeof in T. injection T as T1 T2. rewrite <- T1, <- T2.
    destruct e; [cbn; rewrite Z.add_0_r; auto|]. unfold c_flush. cbn [cbw wtimeout].
    pose proof (bw_flush_time b) as T. destruct (bw_flush b) as [e b2]. unfold timeof in T. cbn in T. injection T as T3 T4.
    cbn. rewrite T3, T4, Z.add_0_r. auto.
  - unfold c_flush. pose proof (bw_flush_time (cbw c)) as T. destruct (bw_flush (cbw c)) as [e b]. unfold timeof in T.
    cbn in T. injection T as T3 T4. cbn. rewrite T3, T4, Z.add_0_r. auto.
  - cbn. rewrite Z.add_0_r. auto.
Qed.

Lemma history_time l : forall c, forallb (fun v => negb (is_sending v)) l = true ->
  wtimeout (history l c) = wtimeout c /\
  deadline (btr (cbw (history l c))) = deadline (btr (cbw c)) /\
  clock (btr (cbw (history l c))) = (clock (btr (cbw c)) + elapsed l)%Z.
Proof.
  induction l as [|v l IH]; intros c H; [cbn; rewrite Z.add_0_r; auto|].
  cbn [forallb] in H. apply andb_true_iff in H. destruct H as [H1 H2].
  destruct (perform_time v c) as (A & B & C); [destruct (is_sending v); [discriminate|reflexivity]|].
  change (history (v :: l) c) with (history l (snd (perform v c))).
  destruct (IH (snd (perform v c)) H2) as (D & E & F). rewrite D, E, F, A, B, C.
  split; [reflexivity|]. split; [reflexivity|]. unfold elapsed. cbn [fold_right]. destruct v; lia.
Qed.

Lemma send_arms r c : wtimeout c <> 0%Z ->
  deadline (btr (cbw (snd (c_send r c)))) = Some (clock (btr (cbw (snd (c_send r c)))) + wtimeout c)%Z
  /\ wtimeout (snd (c_send r c)) = wtimeout c.
Proof.
  intro H. assert (A : forall c', wtimeout c' = wtimeout c ->
    deadline (btr (cbw (arm_after c'))) = Some (clock (btr (cbw (arm_after c'))) + wtimeout c)%Z /\ wtimeout (arm_after c') = wtimeout c).
  { intros c' E. unfold arm_after. rewrite E. assert ((wtimeout c =? 0)%Z = false) as -> by lia. cbn. auto. }
  unfold c_send. destruct (outgoing r); [|apply A; reflexivity].
  destruct (bw_write b (cbw c)) as [e b']. apply A. reflexivity.
Qed.

Lemma perform_wtimeout v c : wtimeout (snd (perform v c)) = wtimeout c.
Proof.
  destruct v as [r|p| |d]; cbn [perform].
  - unfold c_send. destruct (outgoing r).
    + destruct (bw_write b (cbw c)) as [e b0]. cbn [snd]. destruct (arm_after_same (MkConn b0 (wtimeout c))) as (_ & _ & _ & ->). reflexivity.
    + cbn [snd]. destruct (arm_after_same c) as (_ & _ & _ & ->). reflexivity.
  - unfold c_force. destruct (bw_write p (cbw c)) as [[e|] b]; [reflexivity|]. unfold c_flush. cbn [cbw].
    destruct (bw_flush b). reflexivity.
  - unfold c_flush. destruct (bw_flush (cbw c)). reflexivity.
  - reflexivity.
Qed.

Lemma history_wtimeout l : forall c, wtimeout (history l c) = wtimeout c.
Proof.
  induction l as [|v l IH]; intros c; [reflexivity|].
  change (history (v :: l) c) with (history l (snd (perform v c))). rewrite IH. apply perform_wtimeout.
Qed.

(** After a Send and any traffic without another Send lasting at least
    WriteTimeout, the next reply fails and the connection is dead. *)
Lemma late_reply l0 tmo t r l p : wire t = [] -> (0 < tmo)%Z ->
  let c1 := snd (c_send r (history l0 (new_conn tmo t))) in
  forallb (fun v => negb (is_sending v)) l = true -> (tmo <= elapsed l)%Z ->
  let c2 := history l c1 in failure c2 = None -> p <> [] ->
  exists c3, c_force p c2 = (Some ETimeout, c3) /\ on_wire c3 = on_wire c2
    /\ forall l' v, is_passing v = false ->
       fst (perform v (history l' c3)) <> None /\ on_wire (snd (perform v (history l' c3))) = on_wire c2.
Proof.
  intros Ht Htmo c1 Hl Hel c2 Hf Hp.
  assert (Hw0 : wtimeout (history l0 (new_conn tmo t)) = tmo).
  { rewrite history_wtimeout. reflexivity. }
  destruct (send_arms r (history l0 (new_conn tmo t))) as [A1 A2]; [lia|]. fold c1 in A1, A2. rewrite Hw0 in A1, A2.
  destruct (history_time l c1 Hl) as (B1 & B2 & B3). fold c2 in B1, B2, B3.
  assert (Hok : okc c2).
  { apply okc_history. unfold c1. apply okc_send. apply okc_history. apply okc_new. }
  assert (Hex : expired c2).
  { exists (clock (btr (cbw c1)) + tmo)%Z. rewrite B2, B3. split; [exact A1|lia]. }
  destruct (force_late p c2 Hp Hex Hf Hok) as (c3 & C1 & C2 & C3). exists c3.
  split; [exact C1|]. split; [exact C3|]. intros l' v Hv.
  destruct (history_failed l' c3 ETimeout C2) as [D1 D2].
  destruct (perform_failed v _ _ D1) as (E1 & _ & E3). split; [auto|]. rewrite E3, D2. exact C3.
Qed.

Lemma tr_write_ontime t p : plan t = [] -> (forall d, deadline t = Some d -> clock t < d)%Z ->
  tr_write t p = (length p, None, MkTr (wire t ++ p) [] (clock t) (deadline t)).
Proof.
  intros H1 H2. unfold tr_write. rewrite H1. destruct (deadline t) as [d|]; [|reflexivity].
  specialize (H2 d eq_refl). assert ((d <=? clock t)%Z = false) as -> by lia. reflexivity.
Qed.

Definition ontime (b : bwriter) : Prop :=
  berr b = None /\ plan (btr b) = [] /\ (forall d, deadline (btr b) = Some d -> clock (btr b) < d)%Z.

Lemma bw_flush_ontime b : ontime b -> fst (bw_flush b) = None /\ ontime (snd (bw_flush b)).
Proof.
  intros (H1 & H2 & H3). unfold bw_flush. rewrite H1. destruct (bbuf b) as [|x l] eqn:Hb.
  - split; [reflexivity|]. split; auto.
  - rewrite tr_write_ontime by assumption. cbn. unfold ontime. cbn. auto.
Qed.

Lemma bw_iter_ontime p b : ontime b -> ontime (snd (bw_iter p b)).
Proof.
  intros (H1 & H2 & H3). unfold bw_iter. destruct (bbuf b) as [|x l] eqn:Hb.
  - rewrite tr_write_ontime by assumption. cbn. unfold ontime. cbn. auto.
  - cbn [snd]. apply bw_flush_ontime. unfold ontime. auto.
Qed.

Lemma bw_loop_ontime n : forall p b, ontime b -> ontime (snd (bw_loop n p b)).
Proof.
  induction n as [|n IH]; intros p b Hr; [exact Hr|]. cbn [bw_loop]. destruct (bw_more p b).
  - pose proof (bw_iter_ontime p b Hr) as Hi. destruct (bw_iter p b) as [p' b']. apply IH, Hi.
  - unfold bw_end. destruct Hr as (H1 & H2 & H3). rewrite H1. cbn. unfold ontime. auto.
Qed.

Lemma force_ontime p c : ontime (cbw c) -> okc c ->
  exists c', c_force p c = (None, c') /\ on_wire c' = on_wire c ++ unsent c ++ p /\ unsent c' = []
    /\ ontime (cbw c').
Proof.
  intros Ho Hok. unfold c_force. pose proof (bw_loop_ontime 3 p (cbw c) Ho) as Hl.
  pose proof (bw_write_spec p (cbw c) (proj1 Ho) Hok) as Hs. unfold bw_write in *.
  destruct (bw_loop 3 p (cbw c)) as [e b]. cbn [snd] in Hl. destruct Hs as (S1 & S2 & _ & S4).
  destruct Hl as (L1 & L2 & L3). rewrite L1 in S1. subst e.
  pose proof (bw_flush_ontime b (conj L1 (conj L2 L3))) as [F1 F2]. pose proof (bw_flush_spec b L1) as Hf.
  unfold c_flush. cbn [cbw wtimeout]. destruct (bw_flush b) as [e b2]. cbn in F1, F2. subst e.
  destruct Hf as (_ & _ & G1 & G2). eexists. split; [reflexivity|].
  split; [unfold on_wire; cbn; rewrite G2; exact S4|]. split; [exact G1|exact F2].
Qed.

(** Within the window a reply over a ready transport succeeds. *)
Lemma timely_reply l0 tmo t r p d : plan t = [] -> (0 < tmo)%Z ->
  let c1 := snd (c_send r (history l0 (new_conn tmo t))) in
  failure c1 = None -> (0 <= d < tmo)%Z ->
  exists c3, c_force p (tick d c1) = (None, c3) /\ on_wire c3 = on_wire c1 ++ unsent c1 ++ p /\ unsent c3 = [].
Proof.
  intros Hp Ht c1 Hf Hd.
  assert (Hw0 : wtimeout (history l0 (new_conn tmo t)) = tmo).
  { rewrite history_wtimeout. reflexivity. }
  assert (Hpl : forall v c, plan (btr (cbw c)) = [] -> plan (btr (cbw (snd (perform v c)))) = []).
  { assert (T : forall t p, plan t = [] -> plan (snd (tr_write t p)) = []).
    { clear. intros t p H. unfold tr_write. rewrite H. destruct (match deadline t with Some d => _ | None => _ end); auto. }
    assert (F : forall b, plan (btr b) = [] -> plan (btr (snd (bw_flush b))) = []).
    { intros b H. unfold bw_flush. destruct (berr b); [exact H|]. destruct (bbuf b) as [|x l]; [exact H|].
      pose proof (T (btr b) (x :: l) H) as T'. destruct (tr_write _ _) as [[n e] t']. destruct e; exact T'. }
    assert (L : forall n p b, plan (btr b) = [] -> plan (btr (snd (bw_loop n p b))) = []).
    { induction n as [|n IH]; intros q b H; [exact H|]. cbn [bw_loop]. destruct (bw_more q b).
      - assert (I : plan (btr (snd (bw_iter q b))) = []).
        { unfold bw_iter. destruct (bbuf b); [|apply F; exact H].
          pose proof (T (btr b) q H) as T'. destruct (tr_write _ _) as [[m e] t']. exact T'. }
        destruct (bw_iter q b). apply IH, I.
      - unfold bw_end. destruct (berr b); exact H. }
    intros v c H. destruct v as [r'|q| |z]; cbn [perform].
    - unfold c_send. assert (A : forall c', plan (btr (cbw c')) = [] -> plan (btr (cbw (arm_after c'))) = []).
      { intros c' X. unfold arm_after. destruct (wtimeout c' =? 0)%Z; exact X. }
      destruct (outgoing r') as [q|]; [|apply A; exact H]. unfold bw_write.
      pose proof (L 3 q (cbw c) H) as L'. destruct (bw_loop 3 q (cbw c)). apply A. exact L'.
    - unfold c_force, bw_write. pose proof (L 3 q (cbw c) H) as L'. destruct (bw_loop 3 q (cbw c)) as [[e|] b]; [exact L'|].
      unfold c_flush. cbn [cbw]. pose proof (F b L') as F'. destruct (bw_flush b). exact F'.
    - unfold c_flush. pose proof (F (cbw c) H) as F'. destruct (bw_flush (cbw c)). exact F'.
    - exact H. }
  assert (Hp1 : plan (btr (cbw c1)) = []).
  { apply (Hpl (Sending r)). assert (K : forall l c, plan (btr (cbw c)) = [] -> plan (btr (cbw (history l c))) = []).
    { induction l as [|v l IH]; intros c H; [exact H|]. cbn. apply IH, Hpl, H. }
    apply K. exact Hp. }
  destruct (send_arms r (history l0 (new_conn tmo t))) as [A1 A2]; [lia|]. fold c1 in A1, A2. rewrite Hw0 in A1, A2.
  assert (Hok : okc (tick d c1)).
  { unfold c1. apply (okc_send r (history l0 (new_conn tmo t))). apply okc_history, okc_new. }
  destruct (force_ontime p (tick d c1)) as (c3 & C1 & C2 & C3 & _); [|exact Hok|].
  - split; [exact Hf|]. split; [exact Hp1|]. cbn. intros z Hz. rewrite A1 in Hz. injection Hz as <-. lia.
  - exists c3. auto.
Qed.

(** ** Replies *)
Definition reply_header (reqver : N) (h : Header) : N := if (Header_Version h =? 0)%N then reqver else Header_Version h.

Lemma response_all v h w x : content (BCopy w [] None false) = (x, None) ->
  exists e, snd (response_bytes v h w) = inl e
    /\ e = enc_Header (MkHeader (reply_header v h) (Header_Type h) (uwrap 2 (8 + uwrap 2 (lenN x))) (Header_Transaction h)) ++ x.
Proof.
  intro H. unfold response_bytes, reply_header. destruct w as [[p pe]|]; cbn in H |- *.
  - injection H as -> ->. destruct h as [hv ht hl hx]. cbn. destruct (hv =? 0)%N; eexists; (split; [reflexivity|]); reflexivity.
  - injection H as <-. destruct h as [hv ht hl hx]. cbn. destruct (hv =? 0)%N; eexists; (split; [reflexivity|]); reflexivity.
Qed.

Lemma reply_frame v h w x : content (BCopy w [] None false) = (x, None) -> (lenN x <= 65527)%N ->
  forall c, failure c = None -> okc c -> ontime (cbw c) ->
  exists e c', is_frame e (reply_header v h) (Header_Type h) (Header_Transaction h) x
    /\ c_respond v h w c = (None, c') /\ on_wire c' = on_wire c ++ unsent c ++ e /\ unsent c' = [].
Proof.
  intros Hw Hx c Hf Hok Ho. destruct (response_all v h w x Hw) as (e & E1 & E2).
  rewrite uwrap_len in E2 by assumption. destruct (force_ontime e c Ho Hok) as (c' & C1 & C2 & C3 & _).
  exists e, c'. split; [apply frame_eq; exact E2|]. unfold c_respond. rewrite E1. auto.
Qed.

Lemma reply_fails v h w x y : content (BCopy w [] None false) = (x, Some y) ->
  forall c, c_respond v h w c = (Some y, c).
Proof.
  intros H c. unfold c_respond, response_bytes. destruct w as [[p pe]|]; cbn in H |- *; [|discriminate].
  injection H as -> ->. reflexivity.
Qed.

Lemma reply_wraps v h w x : content (BCopy w [] None false) = (x, None) -> (65527 < lenN x)%N ->
  exists e, snd (response_bytes v h w) = inl e
    /\ laid_out e (8 + length x)
         [(0, Num 1 (reply_header v h)); (1, Num 1 (Header_Type h)); (2, Num 2 ((8 + lenN x) mod 65536));
          (4, Num 4 (Header_Transaction h)); (8, Raw (length x) x)]
    /\ (declared e < lenN e)%N.
Proof.
  intros Hw Hx. destruct (response_all v h w x Hw) as (e & E1 & E2). exists e. split; [exact E1|].
  assert (Hl : uwrap 2 (8 + uwrap 2 (lenN x)) = ((8 + lenN x) mod 65536)%N).
  { unfold uwrap. change (256 ^ N.of_nat 2)%N with 65536%N. lia. }
  rewrite Hl in E2. split.
  - apply laid_out_intro.
    + repeat constructor; exact I.
    + cbn [tiles width Nat.eqb andb]. apply Nat.eqb_eq. lia.
    + rewrite E2. cbn [map snd render concat]. unfold enc_Header. cbn [concat Header_Version Header_Type Header_Length Header_Transaction].
      rewrite !app_nil_r, <- !app_assoc. reflexivity.
  - assert (L : length e = 8 + length x) by (rewrite E2, app_length, enc_Header_length; reflexivity).
    rewrite <- header_at_declared by lia.
    assert (Hd : Header_Length (header_at e) = uwrap 2 ((8 + lenN x) mod 65536)).
    { rewrite E2. unfold header_at, enc_Header. cbn [concat Header_Length Header_Version Header_Type Header_Transaction].
      unfold u8, u16, u32. rewrite <- !app_assoc, app_nil_l.
      match goal with |- be_dec (firstn 2 (skipn 2 (?a ++ ?b ++ ?c))) = _ =>
        assert (S2 : skipn 2 (a ++ b ++ c) = c)
          by (rewrite app_assoc; apply skipn_app_len; rewrite app_length, !be_enc_length; reflexivity) end.
      rewrite S2.
      rewrite firstn_app_len by apply be_enc_length. apply be_dec_enc. }
    rewrite Hd. unfold uwrap, lenN in *. change (256 ^ N.of_nat 2)%N with 65536%N. lia.
Qed.

(** The peer that reads it stops inside the frame. *)
Lemma reply_wraps_peer v h w x : content (BCopy w [] None false) = (x, None) -> (65527 < lenN x)%N ->
  exists e, snd (response_bytes v h w) = inl e /\
  forall req tl s f eg, length tl < length (data (rreader (read_from req (MkReader (e ++ tl) s f eg)))).
Proof.
  intros Hw Hx. destruct (reply_wraps v h w x Hw Hx) as (e & E1 & [E2 _] & E3). exists e. split; [exact E1|].
  intros req tl s f eg. destruct (receive_bounds req (MkReader (e ++ tl) s f eg)) as (used & U1 & U2 & U3 & _).
  cbn [data] in *. rewrite app_length in *. unfold lenN in *.
  assert (Hd : declared (e ++ tl) = declared e).
  { unfold declared. rewrite !app_nth1 by lia. reflexivity. }
  rewrite Hd in U3. specialize (U3 ltac:(lia)).
  apply (f_equal (@length _)) in U1. rewrite !app_length in U1. lia.
Qed.

(** C20 *)
Lemma reply_transaction q h w x : content (BCopy w [] None false) = (x, None) -> (lenN x <= 65527)%N ->
  wf_Header h -> fits 1 (Header_Version (Request_Header q)) ->
  forall c, failure c = None -> okc c -> ontime (cbw c) -> unsent c = [] ->
  exists e c', reply_to q h w c = (None, c') /\ on_wire c' = on_wire c ++ e /\
  forall tl s, let y := read_from zero_Request (MkReader (e ++ tl) s EOF false) in
    rfail y = None /\ Header_Transaction (Request_Header (rreq y)) = Header_Transaction h.
Proof.
  intros Hw Hx Hh Hv c Hf Hok Ho Hu.
  destruct (reply_frame (Header_Version (Request_Header q)) h w x Hw Hx c Hf Hok Ho) as (e & c' & F & C1 & C2 & C3).
  exists e, c'. split; [exact C1|]. rewrite Hu in C2. split; [exact C2|]. intros tl s.
  assert (Hr : ranges (reply_header (Header_Version (Request_Header q)) h) (Header_Type h) (Header_Transaction h)).
  { destruct h as [hv ht hl hx]. destruct Hh as (W1 & W2 & W3 & W4). cbn in *. unfold reply_header. cbn.
    split; [|split; assumption]. destruct (hv =? 0)%N; assumption. }
  destruct (receive_frame e _ _ _ x F Hr Hx zero_Request tl s EOF false (or_introl eq_refl)) as (R1 & _ & R2 & _).
  split; [exact R1|]. destruct R2 as (-> & _). reflexivity.
Qed.

(** ** A single receiver of the step model is the function [receive] *)
Fixpoint riter (n : nat) (p : rpc) (r : reader) : rpc * reader :=
  match n with O => (p, r) | S n' => riter n' (fst (rstep p r)) (snd (rstep p r)) end.

Lemma riter_S n p r : riter (S n) p r = riter n (fst (rstep p r)) (snd (rstep p r)).
Proof. reflexivity. Qed.

Lemma riter_plus b a p r : riter (b + a) p r = riter a (fst (riter b p r)) (snd (riter b p r)).
Proof. revert p r. induction b as [|b IH]; intros p r; [reflexivity|]. cbn [Nat.add]. rewrite !riter_S. apply IH. Qed.

Lemma riter_add a b p r : riter (a + b) p r = riter a (fst (riter b p r)) (snd (riter b p r)).
Proof. rewrite Nat.add_comm. apply riter_plus. Qed.

Lemma read1_dec k r got r' : 0 < k -> read1 k r = (got, None, r') ->
  length (data r') + length (sched r') < length (data r) + length (sched r).
Proof.
  intros Hk H. unfold read1 in H. destruct (data r) as [|x l] eqn:E; [discriminate|].
  injection H as _ _ <-. cbn [data sched]. destruct (sched r) as [|c s].
  - rewrite skipn_length, Nat.min_id. cbn [length tl]. lia.
  - rewrite skipn_length. cbn [length tl]. lia.
Qed.

Lemma read1_len k r got e r' : read1 k r = (got, e, r') -> length got <= k.
Proof.
  intro H. unfold read1 in H. destruct (data r) as [|x l] eqn:E; injection H as <- _ _; [cbn; lia|].
  rewrite firstn_length. lia.
Qed.

Lemma read_full_len : forall fuel k acc r b r', length acc <= k ->
  read_full fuel k acc r = (b, None, r') -> length b = k.
Proof.
  induction fuel as [|fuel IH]; intros k acc r b r' Ha H; cbn [read_full] in H.
  - destruct (Nat.leb_spec k (length acc)); [injection H as <- _; lia|discriminate].
  - destruct (Nat.leb_spec k (length acc)); [injection H as <- _; lia|].
    destruct (read1 (k - length acc) r) as [[got e] r1] eqn:E1. pose proof (read1_len _ _ _ _ _ E1) as HL.
    destruct e as [x|].
    + destruct (Nat.leb_spec k (length (acc ++ got))); [|discriminate]. injection H as <- _.
      rewrite app_length in *. lia.
    + eapply IH; [|exact H]. rewrite app_length. lia.
Qed.

Lemma solo_field hdr k : forall fuel acc r, length (data r) + length (sched r) < fuel -> length acc < field_size k ->
  exists n, riter n (RField k acc hdr) r =
    let '(b, e, r') := read_full fuel (field_size k) acc r in
    (match e with None => next_field k (hdr ++ b) | Some x => RDone (inr x) end, r').
Proof.
  induction fuel as [|fuel IH]; intros acc r Hf Ha; [lia|]. cbn [read_full].
  destruct (Nat.leb_spec (field_size k) (length acc)); [lia|].
  destruct (read1 (field_size k - length acc) r) as [[got e] r1] eqn:E1.
  assert (Hs : rstep (RField k acc hdr) r =
    if field_size k <=? length (acc ++ got) then (next_field k (hdr ++ (acc ++ got)), r1)
    else match e with None => (RField k (acc ++ got) hdr, r1)
         | Some EOF => (RDone (inr match acc ++ got with [] => EOF | _ => UnexpectedEOF end), r1)
         | Some x => (RDone (inr x), r1) end).
  { cbn [rstep]. rewrite E1. reflexivity. }
  destruct e as [x|].
  - exists 1. rewrite riter_S, Hs. destruct (field_size k <=? length (acc ++ got)); [reflexivity|].
    destruct x; reflexivity.
  - destruct (Nat.leb_spec (field_size k) (length (acc ++ got))) as [L|L].
    + exists 1. rewrite riter_S, Hs. destruct fuel; cbn [read_full];
        (destruct (Nat.leb_spec (field_size k) (length (acc ++ got))); [reflexivity|lia]).
    + destruct (IH (acc ++ got) r1) as (n & Hn); [|lia|].
      * assert (HD := fun p => read1_dec _ _ _ _ p E1). specialize (HD ltac:(lia)). lia.
      * exists (S n). rewrite riter_S, Hs. cbn [fst snd]. exact Hn.
Qed.

Lemma solo_body hdr k : forall fuel acc r, length (data r) + length (sched r) < fuel -> length acc < k ->
  exists n, riter n (RBody hdr acc k) r =
    let '(b, e, r') := read_body fuel k acc r in
    (match e with None => RDone (inl (hdr, b)) | Some x => RDone (inr x) end, r').
Proof.
  induction fuel as [|fuel IH]; intros acc r Hf Ha; [lia|]. cbn [read_body].
  destruct (Nat.leb_spec k (length acc)); [lia|].
  destruct (read1 (k - length acc) r) as [[got e] r1] eqn:E1.
  assert (Hs : rstep (RBody hdr acc k) r =
    match e with Some x => (RDone (inr x), r1)
    | None => if k <=? length (acc ++ got) then (RDone (inl (hdr, acc ++ got)), r1) else (RBody hdr (acc ++ got) k, r1) end).
  { cbn [rstep]. rewrite E1. destruct e; reflexivity. }
  destruct e as [x|].
  - exists 1. rewrite riter_S, Hs. reflexivity.
  - destruct (Nat.leb_spec k (length (acc ++ got))) as [L|L].
    + exists 1. rewrite riter_S, Hs. destruct fuel; cbn [read_body];
        (destruct (Nat.leb_spec k (length (acc ++ got))); [reflexivity|lia]).
    + destruct (IH (acc ++ got) r1) as (n & Hn); [|lia|].
      * assert (HD := fun p => read1_dec _ _ _ _ p E1). specialize (HD ltac:(lia)). lia.
      * exists (S n). rewrite riter_S, Hs. cbn [fst snd]. exact Hn.
Qed.

(** The outcome of a receiver agrees with a result of [receive]. *)
Definition agrees (out : (bytes * bytes) + err) (y : Request + err) : Prop :=
  match y, out with
  | inl q, inl (hdr, b) => length hdr = 8 /\ Request_Header q = header_at hdr /\ Request_Body q = BBuf b
  | inr e, inr e' => e = e'
  | _, _ => False
  end.

Lemma solo_receive r : exists n out, riter n rstart r = (RDone out, snd (receive r)) /\ agrees out (fst (receive r)).
Proof.
  unfold receive, read_from, read_header.
  destruct (solo_field [] 0 (fuel_of r) [] r (fuel_ok r) ltac:(cbn; lia)) as (n0 & H0).
  cbn [zero_Request Request_Header hdr_field]. change (field_size 0) with 1 in H0.
  destruct (read_full (fuel_of r) 1 [] r) as [[b0 e0] r0] eqn:F0. destruct e0 as [x|].
  { exists n0, (inr x). rewrite (H0 : riter n0 rstart r = _). cbn. auto. }
  assert (L0 : length b0 = 1) by (eapply read_full_len; [|exact F0]; cbn; lia).
  destruct (solo_field ([] ++ b0) 1 (fuel_of r0) [] r0 (fuel_ok r0) ltac:(cbn; lia)) as (n1 & H1).
  change (field_size 1) with 1 in H1. cbn [hdr_field].
  destruct (read_full (fuel_of r0) 1 [] r0) as [[b1 e1] r1] eqn:F1. cbn [next_field Nat.ltb Nat.leb] in H0.
  destruct e1 as [x|].
  { exists (n1 + n0), (inr x). rewrite riter_add. unfold rstart. rewrite H0. cbn [fst snd]. rewrite H1. cbn. auto. }
  assert (L1 : length b1 = 1) by (eapply read_full_len; [|exact F1]; cbn; lia).
  destruct (solo_field (([] ++ b0) ++ b1) 2 (fuel_of r1) [] r1 (fuel_ok r1) ltac:(cbn; lia)) as (n2 & H2).
  change (field_size 2) with 2 in H2. cbn [hdr_field].
  destruct (read_full (fuel_of r1) 2 [] r1) as [[b2 e2] r2] eqn:F2. cbn [next_field Nat.ltb Nat.leb] in H1.
  destruct e2 as [x|].
  { exists (n2 + (n1 + n0)), (inr x). rewrite !riter_add. unfold rstart. rewrite H0. cbn [fst snd]. rewrite H1. cbn [fst snd].
    rewrite H2. cbn. auto. }
  assert (L2 : length b2 = 2) by (eapply read_full_len; [|exact F2]; cbn; lia).
  destruct (solo_field ((([] ++ b0) ++ b1) ++ b2) 3 (fuel_of r2) [] r2 (fuel_ok r2) ltac:(cbn; lia)) as (n3 & H3).
  change (field_size 3) with 4 in H3. cbn [hdr_field].
  destruct (read_full (fuel_of r2) 4 [] r2) as [[b3 e3] r3] eqn:F3. cbn [next_field Nat.ltb Nat.leb] in H2.
  destruct e3 as [x|].
  { exists (n3 + (n2 + (n1 + n0))), (inr x). rewrite !riter_add. unfold rstart. rewrite H0. cbn [fst snd]. rewrite H1. cbn [fst snd].
    rewrite H2. cbn [fst snd]. rewrite H3. cbn. auto. }
  assert (L3 : length b3 = 4) by (eapply read_full_len; [|exact F3]; cbn; lia).
  set (hdr := (((([] ++ b0) ++ b1) ++ b2) ++ b3)) in *.
  assert (Hn : riter (n3 + (n2 + (n1 + n0))) rstart r = (next_field 3 hdr, r3)).
  { rewrite !riter_add. unfold rstart. rewrite H0. cbn [fst snd]. rewrite H1. cbn [fst snd].
    rewrite H2. cbn [fst snd]. rewrite H3. reflexivity. }
  assert (Hh : set_Header_Transaction (be_dec b3) (set_Header_Length (be_dec b2)
                 (set_Header_Type (be_dec b1) (set_Header_Version (be_dec b0) zero_Header))) = header_at hdr).
  { unfold hdr, header_at. cbn [app]. rewrite <- !app_assoc.
    rewrite (firstn_app_len 1 b0) by exact L0. rewrite (skipn_app_len 1 b0) by exact L0.
    rewrite (firstn_app_len 1 b1) by exact L1.
    replace (skipn 2 (b0 ++ b1 ++ b2 ++ b3)) with (b2 ++ b3)
      by (rewrite (app_assoc b0), skipn_app_len; [reflexivity|rewrite app_length; lia]).
    rewrite (firstn_app_len 2 b2) by exact L2.
    replace (skipn 4 (b0 ++ b1 ++ b2 ++ b3)) with b3
      by (rewrite (app_assoc b0), (app_assoc (b0 ++ b1)), skipn_app_len; [reflexivity|rewrite !app_length; lia]).
    rewrite firstn_all2 by lia. reflexivity. }
  assert (Lh : length hdr = 8) by (unfold hdr; rewrite !app_length; cbn; lia).
  rewrite Hh. clear H0 H1 H2 H3 F0 F1 F2 F3.
  assert (Hd : be_dec (firstn 2 (skipn 2 hdr)) = Header_Length (header_at hdr)) by reflexivity.
  unfold next_field in Hn. cbn [Nat.ltb Nat.leb] in Hn. rewrite Hd in Hn.
  destruct (N.ltb_spec (Header_Length (header_at hdr)) 8) as [C|C].
  { assert ((Z.of_N (Header_Length (header_at hdr)) - 8 <? 0)%Z = true) as -> by lia.
    eexists. eexists. split; [exact Hn|]. reflexivity. }
  assert ((Z.of_N (Header_Length (header_at hdr)) - 8 <? 0)%Z = false) as -> by lia.
  destruct (N.eqb_spec (Header_Length (header_at hdr)) 8) as [C8|C8].
  { replace (Z.to_nat (Z.of_N (Header_Length (header_at hdr)) - 8)) with 0 by lia.
    unfold fuel_of. cbn [read_body Nat.leb length app]. eexists. eexists. split; [exact Hn|].
    cbn. auto. }
  replace (Z.to_nat (Z.of_N (Header_Length (header_at hdr)) - 8)) with (N.to_nat (Header_Length (header_at hdr) - 8)) by lia.
  destruct (solo_body hdr (N.to_nat (Header_Length (header_at hdr) - 8)) (fuel_of r3) [] r3 (fuel_ok r3) ltac:(cbn [length]; lia)) as (n4 & H4).
  destruct (read_body (fuel_of r3) (N.to_nat (Header_Length (header_at hdr) - 8)) [] r3) as [[b4 e4] r4].
  destruct e4 as [x|].
  - exists (n4 + (n3 + (n2 + (n1 + n0)))), (inr x). rewrite riter_add, Hn. cbn [fst snd]. rewrite H4. cbn. auto.
  - exists (n4 + (n3 + (n2 + (n1 + n0)))), (inl (hdr, b4)). rewrite riter_add, Hn. cbn [fst snd]. rewrite H4. cbn. auto.
Qed.

(** Two receivers that split the headers of two empty messages between them. *)
Lemma race_tears v t t' a b c d e f g h :
  race [true; true; true; false; true; false; false; false] rstart rstart
    (MkReader ([v; t; x00; x08; a; b; c; d] ++ [v; t'; x00; x08; e; f; g; h]) [] EOF false)
  = (RDone (inl ([v; t; x00; x08; b; c; d; v], [])),
     RDone (inl ([a; t'; x00; x08; e; f; g; h], [])), MkReader [] [] EOF false).
Proof. reflexivity. Qed.

(** ** The lemmas above for connections in use *)
Lemma okc_used l tmo t : okc (history l (new_conn tmo t)).
Proof. apply okc_history, okc_new. Qed.

Lemma used_send_all l tmo t rs c' : let c := history l (new_conn tmo t) in
  failure c = None -> send_all rs c = (None, c') ->
  exists fs, Forall2 frame_for fs rs /\ on_wire c' = on_wire c ++ unsent c ++ concat fs /\ unsent c' = [].
Proof. intros c H. apply send_all_order; [exact H|apply okc_used]. Qed.

Lemma used_send_all_leaks l tmo t rs fs bad e more : let c := history l (new_conn tmo t) in
  Forall2 (fun r f => outgoing r = inl f) rs fs -> outgoing bad = inr e -> ready c -> failure c = None ->
  exists c' c'', send_all (rs ++ bad :: more) c = (Some e, c')
    /\ on_wire c' ++ unsent c' = on_wire c ++ unsent c ++ concat fs
    /\ length (unsent c') <= bufsize
    /\ c_flush c' = (None, c'') /\ on_wire c'' = on_wire c ++ unsent c ++ concat fs.
Proof. intros c H1 H2 H3 H4. apply send_all_leaks; auto. apply okc_used. Qed.
