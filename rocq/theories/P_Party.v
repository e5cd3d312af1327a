(** C123: handlers that also send messages of their own on the connection. *)
From Verif Require Import RequestSpec RequestFacts ServerSpec ServerFacts ConnFacts ConnSeqFacts HandlerFacts P_Session HandsSpec MuxFacts P_Server P_Hands PartyModel PartySpec.
From Coq Require Import Lia Permutation.

(** A connection that works: nothing it was given is refused. *)
Definition works (c : conn) : Prop := ready c /\ failure c = None /\ okc c.

Lemma flush_works c : works c -> let c' := snd (c_flush c) in
  fst (c_flush c) = None /\ works c' /\ on_wire c' = on_wire c ++ unsent c /\ unsent c' = [].
Proof.
  intros (R & F & O). pose proof (bw_flush_ready (cbw c) (ready_b c R F)) as [A B].
  pose proof (bw_flush_spec (cbw c) F) as S. unfold c_flush. destruct (bw_flush (cbw c)) as [e b]. cbn in *. subst e.
  destruct S as (_ & L & U & W). destruct B as (B1 & B2 & B3). destruct R as (_ & _ & R).
  split; [reflexivity|]. split; [|auto]. unfold works, ready, failure, okc, unsent in *. cbn in *.
  split; [auto|]. split; [auto|]. rewrite U. cbn. lia.
Qed.

Lemma write_works p c : works c -> let r := bw_write p (cbw c) in let c' := MkConn (snd r) (wtimeout c) in
  fst r = None /\ works c' /\ on_wire c' ++ unsent c' = on_wire c ++ unsent c ++ p /\ begins (on_wire c) (on_wire c').
Proof.
  intros (R & F & O). pose proof (bw_write_ready p (cbw c) (ready_b c R F) O) as [A (B1 & B2 & B3)].
  pose proof (bw_write_spec p (cbw c) F O) as S. destruct (bw_write p (cbw c)) as [e b]. cbn in *. subst e.
  destruct S as (_ & L & (t & T) & S). destruct R as (_ & _ & R).
  split; [reflexivity|]. split; [|split; [exact S|exists t; symmetry; exact T]].
  unfold works, ready, failure, okc, unsent. cbn. auto 6.
Qed.

Lemma force_works p c : works c -> let c' := snd (c_force p c) in
  fst (c_force p c) = None /\ works c' /\ on_wire c' = on_wire c ++ unsent c ++ p /\ unsent c' = [].
Proof.
  intro W. pose proof (write_works p c W) as H. unfold c_force. destruct (bw_write p (cbw c)) as [e b]. cbn in H.
  destruct H as (-> & W' & S & _). pose proof (flush_works _ W') as (A & B & C & D). rewrite C, S in *. auto.
Qed.

Lemma begins_refl {A} (a : list A) : begins a a.
Proof. exists []. apply app_nil_r. Qed.
Lemma begins_more {A} (a b c : list A) : begins a b -> begins a (b ++ c).
Proof. intros [t <-]. exists (t ++ c). apply app_assoc. Qed.
Lemma begins_trans {A} (a b c : list A) : begins a b -> begins b c -> begins a c.
Proof. intros [t <-] [u <-]. exists (t ++ u). apply app_assoc. Qed.

(** One operation on a connection that works. *)
Lemma wdo_works v o c : works c -> sized o -> let c' := snd (wdo v o c) in
  exists e, contributes v o (fst (wdo v o c)) e /\ works c'
    /\ on_wire c' ++ unsent c' = on_wire c ++ unsent c ++ e
    /\ begins (on_wire c) (on_wire c') /\ (pushes o -> unsent c' = []).
Proof.
  intros W S. destruct o as [h w|q|]; cbn [wdo contributes pushes sized] in *.
  - destruct (content (BCopy w [] None false)) as [x [y|]] eqn:E.
    + rewrite (reply_fails v h w x y E). cbn. exists []. rewrite app_nil_r.
      split; [auto|]. split; [exact W|]. split; [reflexivity|]. split; [apply begins_refl|discriminate].
    + destruct (response_all v h w x E) as (e & E1 & E2). rewrite uwrap_len in E2 by exact S.
      unfold c_respond. rewrite E1. destruct (force_works e c W) as (A & B & C & D).
      exists e. rewrite A, D, C, app_nil_r. split; [split; [reflexivity|apply frame_eq; exact E2]|].
      split; [exact B|]. split; [reflexivity|]. split; [apply begins_more, begins_refl|auto].
  - assert (WA : arm_after c = c) by (unfold arm_after; destruct W as ((_ & _ & ->) & _); reflexivity).
    assert (FA : forall e, outgoing q = inr e -> snd (c_send q c) = c /\ fst (c_send q c) = Some e)
      by (intros e X; unfold c_send; rewrite X; cbn; auto).
    destruct (content (Request_Body q)) as [x [y|]] eqn:E; [|destruct (N.leb_spec (lenN x) 65527) as [L|L]].
    + destruct (write_to_fails sink q x y) as (X1 & X2 & _); [intro X; rewrite X in E; discriminate|exact E|].
      destruct (FA y) as [-> ->]; [unfold outgoing; rewrite X2, X1; reflexivity|].
      exists []. rewrite app_nil_r. split; [auto|]. split; [exact W|]. split; [reflexivity|]. split; [apply begins_refl|intros []].
    + destruct (write_sink q x E L) as (e & X1 & _ & _ & F).
      assert (OG : outgoing q = inl e) by (unfold outgoing; rewrite X1; reflexivity).
      pose proof (write_works e c W) as H. unfold c_send. rewrite OG. destruct (bw_write e (cbw c)) as [r b]. cbn in H.
      destruct H as (-> & B & C & D). cbn [fst snd].
      assert (WB : arm_after (MkConn b (wtimeout c)) = MkConn b (wtimeout c)) by (unfold arm_after; cbn; destruct W as ((_ & _ & ->) & _); reflexivity).
      rewrite WB. exists e. split; [split; [reflexivity|exact F]|]. split; [exact B|]. split; [exact C|]. split; [exact D|intros []].
    + destruct (write_to_toolong sink q x E L) as (X1 & X2 & _).
      destruct (FA ETooLong) as [-> ->]; [unfold outgoing; rewrite X2, X1; reflexivity|].
      exists []. rewrite app_nil_r. split; [auto|]. split; [exact W|]. split; [reflexivity|].
      split; [apply begins_refl|intros []].
  - destruct (flush_works c W) as (A & B & C & D). exists []. rewrite A, C, D, !app_nil_r. split; [auto|].
    split; [exact B|]. split; [reflexivity|]. split; [apply begins_more, begins_refl|auto].
Qed.

Definition preq (t : hcall) : Request := snd (fst (fst t)).
Definition pwriter (t : hcall) : writer := fst (fst (fst t)).
Definition pleft (t : hcall) : list wop := snd (fst t).
Definition pdone (t : hcall) : bool := snd t.

(** Every return is followed by a flush. *)
Definition flushed_after (l : list event) : Prop :=
  forall a k q b, l = a ++ EReturn k q :: b -> exists k', In (EFlush k') b.
(** Deed number [i] is followed by a push, or is one. *)
Definition covered (lg : list deed) (i : nat) : Prop :=
  exists m d, i <= m /\ nth_error lg m = Some d /\ pushes (what d).

Lemma covered_app lg x i : covered lg i -> covered (lg ++ x) i.
Proof.
  intros (m & d & A & B & C). exists m, d. split; [exact A|]. split; [|exact C].
  rewrite nth_error_app1; [exact B|]. eapply nth_error_lt. exact B.
Qed.
Lemma flushed_app l e : (forall k q, e <> EReturn k q) -> (forall k, e <> EFlush k) -> flushed_after (l ++ [e]) -> flushed_after l.
Proof.
  intros N1 N2 H a k q b E. destruct (H a k q (b ++ [e])) as (k' & I); [rewrite E, <- app_assoc; reflexivity|].
  apply in_app_or in I. destruct I as [I|[I|[]]]; [eauto|]. destruct (N2 k'). exact I.
Qed.

(** The stream of a log. *)
Definition streams (lg : list deed) (c : conn) : Prop :=
  exists es, Forall2 (fun d e => contributes (version_of d) (what d) (result d) e) lg es
    /\ on_wire c ++ unsent c = concat es
    /\ (forall m d, nth_error lg m = Some d -> pushes (what d) -> begins (concat (firstn (S m) es)) (on_wire c)).

Lemma F2_length {A B} (R : A -> B -> Prop) l l' : Forall2 R l l' -> length l = length l'.
Proof. induction 1; cbn; auto. Qed.

Lemma streams_do v o j c lg : works c -> sized o -> streams lg c ->
  works (snd (wdo v o c)) /\ streams (lg ++ [(j, v, o, fst (wdo v o c))]) (snd (wdo v o c)).
Proof.
  intros W Sz (es & E1 & E2 & E3). destruct (wdo_works v o c W Sz) as (e & A & B & C & D & P). split; [exact B|].
  pose proof (F2_length _ _ _ E1) as L. exists (es ++ [e]). split; [apply Forall2_app; [exact E1|constructor; [exact A|constructor]]|].
  split; [rewrite C, app_assoc, E2, concat_app; cbn; rewrite app_nil_r; reflexivity|].
  intros m d Hm Hp. destruct (Nat.lt_ge_cases m (length lg)) as [M|M].
  - rewrite nth_error_app1 in Hm by exact M. rewrite firstn_app. replace (S m - length es) with 0 by lia.
    cbn [firstn]. rewrite app_nil_r. eapply begins_trans; [eapply E3; eassumption|exact D].
  - rewrite nth_error_app2 in Hm by exact M. destruct (m - length lg) as [|n] eqn:N; cbn in Hm; [|destruct n; discriminate].
    injection Hm as <-. cbn [what fst snd] in Hp. rewrite firstn_all2 by (rewrite app_length; cbn; lia).
    rewrite concat_app. cbn [concat]. rewrite app_nil_r, <- E2, <- app_assoc, <- C, (P Hp), app_nil_r. apply begins_refl.
Qed.

Definition party_ok (f : Request -> list wop) (l : list event) (s : party) : Prop :=
  let '(c, ts, lg) := s in
  map preq ts = calls l
  /\ (forall j t, nth_error ts j = Some t -> deeds j lg ++ pleft t = f (preq t) /\ (pdone t = true -> pleft t = []))
  /\ (forall d j, In d lg -> who d = Some j -> exists t, nth_error ts j = Some t
        /\ version_of d = Header_Version (Request_Header (preq t)))
  /\ length (filter pdone ts) = length (returns l)
  /\ Forall (fun t => wversion (pwriter t) = Header_Version (Request_Header (preq t))) ts
  /\ (flushed_after l -> forall i d j t, nth_error lg i = Some d -> who d = Some j -> nth_error ts j = Some t ->
        pdone t = true -> covered lg i)
  /\ works c /\ streams lg c.

Lemma deeds_app j a b : deeds j (a ++ b) = deeds j a ++ deeds j b.
Proof. unfold deeds. rewrite filter_app, map_app. reflexivity. Qed.

Lemma nth_swap {A} (a b : list A) x y j z : nth_error (a ++ x :: b) j = Some z ->
  (j = length a /\ z = x) \/ (j <> length a /\ nth_error (a ++ y :: b) j = Some z).
Proof.
  intro H. destruct (Nat.eq_dec j (length a)) as [->|N].
  - rewrite nth_error_app2, Nat.sub_diag in H by lia. injection H as <-. auto.
  - right. split; [exact N|]. destruct (Nat.lt_ge_cases j (length a)).
    + rewrite nth_error_app1 in * by lia. exact H.
    + rewrite nth_error_app2 in * by lia. destruct (j - length a) eqn:X; [lia|]. exact H.
Qed.
Lemma nth_there {A} (a b : list A) x : nth_error (a ++ x :: b) (length a) = Some x.
Proof. rewrite nth_error_app2, Nat.sub_diag by lia. reflexivity. Qed.
Lemma nth_snoc {A} (l : list A) x j z : nth_error (l ++ [x]) j = Some z ->
  (j < length l /\ nth_error l j = Some z) \/ (j = length l /\ z = x).
Proof.
  intro H. destruct (Nat.lt_ge_cases j (length l)).
  - rewrite nth_error_app1 in H by lia. auto.
  - rewrite nth_error_app2 in H by lia. destruct (j - length l) as [|n] eqn:N; cbn in H; [|destruct n; discriminate].
    injection H as <-. right. split; [lia|reflexivity].
Qed.

(** What other goroutines do is of a size that can be framed. *)
Definition sized_deeds (s : party) : Prop := Forall (fun d => sized (what d)) (snd s).

Lemma party_step f l e s s' : party_ok f l s -> sized_deeds s' ->
  match e with Some x => faithful_call x | None => True end -> pstep f e s s' ->
  party_ok f (match e with Some x => l ++ [x] | None => l end) s'.
Proof.
  intros H Z FC P. destruct P as [k w q c ts lg|a w q o os b c lg|v o c ts lg|k a w q b c lg|k c ts lg|k x c ts lg];
    destruct H as (H1 & H2 & H3 & H4 & H5 & H6 & H7 & H8); unfold party_ok.
  - cbn [faithful_call] in FC.
    split; [rewrite map_app, calls_app, H1; reflexivity|]. split; [|split; [|split; [|split; [|split; [|auto]]]]].
    + intros j t Hj. apply nth_snoc in Hj. destruct Hj as [[J Hj]|[-> ->]]; [apply H2, Hj|].
      cbn [pleft preq pdone fst snd]. split; [|discriminate].
      replace (deeds (length ts) lg) with (@nil wop); [reflexivity|]. unfold deeds.
      assert (X : forall d, In d lg -> who d <> Some (length ts)).
      { intros d Hd E. destruct (H3 d _ Hd E) as (t & T & _). apply nth_error_lt in T. lia. }
      clear - X. induction lg as [|d lg IH]; [reflexivity|]. cbn [filter].
      pose proof (X d (or_introl eq_refl)) as Xd. destruct (who d) as [i|].
      * destruct (Nat.eqb_spec i (length ts)); [congruence|]. apply IH. intros. apply X. right. assumption.
      * apply IH. intros. apply X. right. assumption.
    + intros d j Hd E. destruct (H3 d j Hd E) as (t & T & V). exists t. split; [|exact V].
      rewrite nth_error_app1; [exact T|]. eapply nth_error_lt; exact T.
    + rewrite filter_app, app_length, returns_app, app_length, H4. reflexivity.
    + apply Forall_app. split; [exact H5|]. constructor; [exact FC|constructor].
    + intros FL i d j t Hi Hw Ht Hd. apply nth_snoc in Ht. destruct Ht as [[_ Ht]|[-> ->]]; [|discriminate Hd].
      eapply H6; try eassumption. eapply flushed_app; [| |exact FL]; discriminate.
  - unfold sized_deeds in Z. cbn [snd] in Z. apply Forall_app in Z. destruct Z as [_ Z]. inversion Z as [|d0 l0 Zo _]. subst d0 l0.
    cbn [what fst snd] in Zo. pose proof (streams_do (wversion w) o (Some (length a)) c lg H7 Zo H8) as [W S].
    pose proof (H2 (length a) _ (nth_there a b _)) as [HA _]. cbn [pleft preq fst snd] in HA.
    split; [rewrite map_app in *; exact H1|]. split; [|split; [|split; [|split; [|split; [|auto]]]]].
    + intros j t Hj. rewrite deeds_app. unfold deeds at 2. cbn [filter who fst snd].
      apply (nth_swap _ _ _ (w, q, o :: os, false)) in Hj. destruct Hj as [[-> ->]|[N Hj]].
      * rewrite Nat.eqb_refl. cbn [map what fst snd pleft preq pdone]. rewrite <- app_assoc. split; [exact HA|discriminate].
      * destruct (Nat.eqb_spec (length a) j); [congruence|]. cbn [map]. rewrite app_nil_r. apply H2, Hj.
    + intros d j Hd E. apply in_app_or in Hd. destruct Hd as [Hd|[<-|[]]].
      * destruct (H3 d j Hd E) as (t & T & V). apply (nth_swap _ _ _ (w, q, os, false)) in T.
        destruct T as [[-> ->]|[N T]]; [|eauto]. exists (w, q, os, false). split; [apply nth_there|exact V].
      * cbn [who fst snd] in E. injection E as <-. exists (w, q, os, false). split; [apply nth_there|].
        cbn [version_of fst snd preq]. apply Forall_app in H5. destruct H5 as [_ H5]. inversion H5. assumption.
    + rewrite filter_app in *. exact H4.
    + apply Forall_app in H5. destruct H5 as [A B]. inversion B. apply Forall_app. split; [exact A|]. constructor; assumption.
    + intros FL i d j t Hi Hw Ht Hd. apply nth_snoc in Hi. destruct Hi as [[I Hi]|[-> ->]].
      * apply covered_app. apply (nth_swap _ _ _ (w, q, o :: os, false)) in Ht. destruct Ht as [[-> ->]|[N Ht]]; [discriminate Hd|].
        eapply H6; eassumption.
      * cbn [who fst snd] in Hw. injection Hw as <-. rewrite nth_there in Ht. injection Ht as <-. discriminate Hd.
  - unfold sized_deeds in Z. cbn [snd] in Z. apply Forall_app in Z. destruct Z as [_ Z]. inversion Z as [|d0 l0 Zo _]. subst d0 l0.
    cbn [what fst snd] in Zo. pose proof (streams_do v o None c lg H7 Zo H8) as [W S].
    split; [exact H1|]. split; [|split; [|split; [exact H4|split; [exact H5|split; [|auto]]]]].
    + intros j t Hj. rewrite deeds_app. cbn. rewrite app_nil_r. apply H2, Hj.
    + intros d j Hd E. apply in_app_or in Hd. destruct Hd as [Hd|[<-|[]]]; [eauto|discriminate E].
    + intros FL i d j t Hi Hw Ht Hd. apply nth_snoc in Hi. destruct Hi as [[I Hi]|[-> ->]]; [|discriminate Hw].
      apply covered_app. eapply H6; eassumption.
  - split; [rewrite calls_app, app_nil_r; rewrite map_app in *; exact H1|]. split; [|split; [|split; [|split; [|split; [|auto]]]]].
    + intros j t Hj. apply (nth_swap _ _ _ (w, q, [], false)) in Hj. destruct Hj as [[-> ->]|[N Hj]]; [|apply H2, Hj].
      cbn [pleft preq pdone fst snd]. split; [|reflexivity]. apply (H2 (length a) (w, q, [], false)), nth_there.
    + intros d j Hd E. destruct (H3 d j Hd E) as (t & T & V). apply (nth_swap _ _ _ (w, q, [], true)) in T.
      destruct T as [[-> ->]|[N T]]; [|eauto]. exists (w, q, [], true). split; [apply nth_there|exact V].
    + rewrite filter_app, app_length in *. rewrite returns_app, app_length, <- H4. cbn. lia.
    + apply Forall_app in H5. destruct H5 as [A B]. inversion B. apply Forall_app. split; [exact A|]. constructor; assumption.
    + intro FL. destruct (FL l k q [] eq_refl) as (k' & []).
  - destruct (streams_do 0 WFlush None c lg H7 I H8) as [W S]. cbn [wdo] in W, S.
    split; [rewrite calls_app, app_nil_r; exact H1|]. split; [|split; [|split; [|split; [exact H5|split; [|auto]]]]].
    + intros j t Hj. rewrite deeds_app. cbn. rewrite app_nil_r. apply H2, Hj.
    + intros d j Hd E. apply in_app_or in Hd. destruct Hd as [Hd|[<-|[]]]; [eauto|discriminate E].
    + rewrite returns_app, app_nil_r. exact H4.
    + intros _ i d j t Hi _ _ _. exists (length lg). eexists. split; [apply nth_error_lt in Hi; rewrite app_length in Hi; cbn in Hi; lia|].
      split; [rewrite nth_error_app2, Nat.sub_diag by lia; reflexivity|exact I].
  - rewrite calls_app, returns_app, !app_nil_r. do 5 (split; [assumption|]). split; [|auto].
    intros FL. apply H6. eapply flushed_app; [| |exact FL]; discriminate.
Qed.

Lemma party_run f l c s : Forall faithful_call l -> works c -> on_wire c = [] -> unsent c = [] ->
  gathering f l (c, [], []) s -> sized_deeds s -> party_ok f l s.
Proof.
  intros FC W O U R. remember (c, [], []) as s0 eqn:E. induction R as [s|e l s1 s2 s3 R IH P|l s1 s2 s3 R IH P]; intro Z.
  - subst s. split; [reflexivity|]. split; [intros [|j] t X; discriminate X|]. split; [intros d j []|].
    split; [reflexivity|]. split; [constructor|]. split; [intros _ [|i] d j t X; discriminate X|]. split; [exact W|].
    exists []. split; [constructor|]. split; [rewrite O, U; reflexivity|]. intros [|m] d X; discriminate X.
  - apply Forall_app in FC. destruct FC as [FC1 FC2]. inversion FC2. subst.
    apply (party_step f l (Some e) s2 s3); auto. apply IH; auto.
    assert (X : exists x, snd s3 = snd s2 ++ x) by (inversion P; subst; cbn [snd]; eauto; exists []; rewrite app_nil_r; reflexivity).
    destruct X as (x & X). unfold sized_deeds in *. rewrite X in Z. apply Forall_app in Z. apply Z.
  - apply (party_step f l None s2 s3); auto. apply IH; auto.
    assert (X : exists x, snd s3 = snd s2 ++ x) by (inversion P; subst; cbn [snd]; eauto; exists []; rewrite app_nil_r; reflexivity).
    destruct X as (x & X). unfold sized_deeds in *. rewrite X in Z. apply Forall_app in Z. apply Z.
Qed.

(** ** The server flushes after every return *)
Definition hand_at (P : stage -> bool) (k : nat) (h : nat * Request * option stage) : bool :=
  (fst (fst h) =? k) && match snd h with Some st => P st | None => false end.
Definition serve_at (P : stage -> bool) (x : option cn) : nat :=
  match x with Some y => match cserve y with VReq _ st => if P st then 1 else 0 | _ => 0 end | None => 0 end.
Definition count (P : stage -> bool) (k : nat) (s : server) : nat :=
  tally (hand_at P k) (hands s) + serve_at P (nth_error (cns s) k).

(** Events that are not of the second half of serveReq. *)
Definition other_event (e : event) : Prop :=
  match e with EReturn _ _ | EFlush _ | EState _ StateIdle => False | _ => True end.

Lemma serve_at_set P k c x l : c < length l ->
  serve_at P (nth_error (setnth c x l) k) = if c =? k then serve_at P (Some x) else serve_at P (nth_error l k).
Proof.
  intro L. destruct (Nat.eqb_spec c k) as [<-|N].
  - destruct (nth_error (setnth c x l) c) as [y|] eqn:E.
    + apply setnth_cases in E. destruct E as [(_ & -> & _)|(X & _)]; [reflexivity|congruence].
    + apply nth_error_None in E. rewrite setnth_length in E. lia.
  - destruct (nth_error (setnth c x l) k) as [y|] eqn:E.
    + apply setnth_cases in E. destruct E as [(-> & _)|(_ & ->)]; [congruence|reflexivity].
    + apply nth_error_None in E. rewrite setnth_length in E. apply nth_error_None in E. rewrite E. reflexivity.
Qed.

Lemma count_cn P k c x y s : nth_error (cns s) c = Some y -> serve_at P (Some x) = serve_at P (Some y) ->
  count P k (with_cn c x s) = count P k s.
Proof.
  intros H E. unfold count. cbn [hands cns with_cn]. rewrite serve_at_set by (eapply nth_error_lt; exact H).
  destruct (Nat.eqb_spec c k) as [<-|_]; [|reflexivity]. rewrite H, E. reflexivity.
Qed.

Lemma count_step s s' : shape s -> strans s s' ->
  ((exists l, trace s' = trace s ++ l /\ Forall other_event l)
     /\ forall P k, P HState = false -> count P k s' = count P k s)
  \/ exists c q st, trace s' = trace s ++ [fst (serve_req c q st)]
     /\ forall P k, P HState = false ->
        count P k s' + (if (c =? k) && P st then 1 else 0)
        = count P k s + (if (c =? k) && match snd (serve_req c q st) with Some y => P y | None => false end then 1 else 0).
Proof.
  intros Sh T.
  assert (NIL : exists l, trace s = trace s ++ l /\ Forall other_event l) by (exists []; rewrite app_nil_r; auto).
  assert (ONE : forall e, other_event e -> exists l, trace s ++ [e] = trace s ++ l /\ Forall other_event l) by (intros e H; exists [e]; auto).
  destruct T as [k0 ms H|k0 c H|k0 c H|k0 c n H _ _|k0 c n H _|k0 c H|k0 c H|k0 c x H Hx|c ms v H|c ms q l v H|c ms lf q H _|c ms lf q H _|c ms lf H|c ms lf r q st H|c ms lf r H|c ms lf r H|c ms lf r H|j c q st H].
  - left. split; [exact NIL|]. intros P k HP. unfold count. cbn [hands cns with_loop with_new]. f_equal.
    destruct (Nat.lt_trichotomy k (length (cns s))) as [L|[->|L]].
    + rewrite nth_error_app1 by exact L. reflexivity.
    + rewrite nth_error_app2, Nat.sub_diag by lia. cbn. rewrite (proj2 (nth_error_None _ _)) by lia. reflexivity.
    + rewrite !(proj2 (nth_error_None _ _)); [reflexivity|lia|rewrite app_length; cbn; lia].
  - left. split; [apply ONE; exact I|reflexivity].
  - left. split; [exact NIL|reflexivity].
  - left. split; [exact NIL|reflexivity].
  - left. split; [exact NIL|reflexivity].
  - left. split; [apply ONE; exact I|reflexivity].
  - left. split; [apply ONE; exact I|reflexivity].
  - left. split; [exact NIL|]. intros P k HP.
    destruct (proj1 Sh k0 (LSpawn c) c H eq_refl) as (y & Hy & V). rewrite Hx in Hy. injection Hy as <-.
    apply (count_cn P k c _ x s Hx). cbn. rewrite V. reflexivity.
  - left. split; [exact NIL|]. intros P k HP. refine (count_cn P k c _ _ s H _); reflexivity.
  - left. split; [exact NIL|]. intros P k HP. refine (count_cn P k c _ _ s H _); reflexivity.
  - left. split; [exact NIL|]. intros P k HP. apply (count_cn P k c _ _ s H). cbn. rewrite HP. reflexivity.
  - left. split; [exact NIL|]. intros P k HP. pose proof (count_cn P k c (MkCn ms lf RReading VWait) _ s H eq_refl) as X.
    unfold count in *. cbn [hands cns with_hands with_cn] in *. rewrite tally_app. unfold tally at 2. cbn.
    unfold hand_at. cbn. rewrite HP, andb_false_r. cbn. lia.
  - left. split; [exact NIL|]. intros P k HP. refine (count_cn P k c _ _ s H _); reflexivity.
  - right. exists c, q, st. split; [reflexivity|]. intros P k HP. unfold count. cbn [hands cns emits with_cn].
    rewrite serve_at_set by (eapply nth_error_lt; exact H). destruct (Nat.eqb_spec c k) as [<-|_]; cbn [andb]; [|lia].
    rewrite H. cbn [serve_at cserve]. destruct (snd (serve_req c q st)); lia.
  - left. split; [exact NIL|]. intros P k HP. refine (count_cn P k c _ _ s H _); reflexivity.
  - left. split; [apply ONE; exact I|]. intros P k HP. refine (count_cn P k c _ _ s H _); reflexivity.
  - left. split; [apply ONE; exact I|]. intros P k HP. refine (count_cn P k c _ _ s H _); reflexivity.
  - right. exists c, q, st. split; [reflexivity|]. intros P k HP. unfold count. cbn [hands cns emits with_hands].
    pose proof (tally_setnth (hand_at P k) (c, q, snd (serve_req c q st)) _ _ _ H) as X.
    unfold hand_at at 2 4 in X. cbn [fst snd] in X. lia.
Qed.

Definition past (st : stage) : bool := match st with HFlush | HIdle => true | _ => false end.
Definition before_flush (st : stage) : bool := match st with HFlush => true | _ => false end.

Lemma count_le k s : count before_flush k s <= count past k s.
Proof.
  unfold count. apply Nat.add_le_mono.
  - unfold tally. induction (hands s) as [|h l IH]; [reflexivity|]. cbn [filter].
    assert (X : hand_at before_flush k h = true -> hand_at past k h = true)
      by (unfold hand_at; destruct (fst (fst h) =? k), (snd h) as [[]|]; cbn; auto).
    destruct (hand_at before_flush k h); [rewrite X by reflexivity|destruct (hand_at past k h)]; cbn [length]; lia.
  - unfold serve_at. destruct (nth_error (cns s) k) as [x|]; [|reflexivity]. destruct (cserve x) as [| |q []| | | |]; cbn; lia.
Qed.

Lemma idles_app a b : idles (a ++ b) = idles a + idles b.
Proof. unfold idles. rewrite filter_app, app_length. reflexivity. Qed.

Lemma flushed_keep l e : (forall k q, e <> EReturn k q) -> flushed_after l -> flushed_after (l ++ [e]).
Proof.
  intros N H a k q b E. destruct b as [|x b _] using rev_ind.
  - apply app_inj_tail in E. destruct E as [_ ->]. destruct (N k q eq_refl).
  - rewrite app_comm_cons, app_assoc in E. apply app_inj_tail in E. destruct E as [-> ->].
    destruct (H a k q b eq_refl) as (k' & K). exists k'. apply in_or_app. auto.
Qed.
Lemma flushed_now l k : flushed_after (l ++ [EFlush k]).
Proof.
  intros a k' q b E. destruct b as [|x b _] using rev_ind.
  - apply app_inj_tail in E. destruct E as [_ X]. discriminate.
  - rewrite app_comm_cons, app_assoc in E. apply app_inj_tail in E. destruct E as [_ <-]. exists k. apply in_or_app. cbn. auto.
Qed.
Lemma flushed_keeps x : forall l, Forall other_event x -> flushed_after l -> flushed_after (l ++ x).
Proof.
  induction x as [|e x IH]; intros l H F; [rewrite app_nil_r; exact F|]. inversion H as [|? ? H1 H2]; subst.
  change (e :: x) with ([e] ++ x). rewrite app_assoc. apply IH; [exact H2|]. apply flushed_keep; [|exact F].
  intros k q ->. exact H1.
Qed.
Lemma other_counts x : Forall other_event x -> returns x = [] /\ idles x = 0.
Proof.
  induction 1 as [|e x H _ [IH1 IH2]]; [auto|]. unfold idles in *. cbn [returns flat_map filter]. fold (returns x).
  destruct e as [k [| | | |]| | | |]; cbn in H |- *; try contradiction; auto.
Qed.

Lemma idle_inv lim sq n sch k : let s := srun sch (sstart lim sq n) in
  length (returns (story k s)) = idles (story k s) + count past k s
  /\ (flushed_after (story k s) \/ 0 < count before_flush k s).
Proof.
  cut ((fun s => shape s /\ length (returns (story k s)) = idles (story k s) + count past k s
    /\ (flushed_after (story k s) \/ 0 < count before_flush k s)) (srun sch (sstart lim sq n))); [intros (_ & X); exact X|].
  apply srun_inv.
  - split; [apply (shape_run lim sq n [])|]. split.
    + unfold count. cbn. destruct k; reflexivity.
    + left. intros [|x a] j q b E; discriminate E.
  - intros m s s' (Sh & R & F) T. apply sstep_trans in T. split; [eapply shape_step; eassumption|].
    destruct (count_step s s' Sh T) as [[(l & E & O) C]|(c & q & st & E & C)].
    + rewrite !C by reflexivity. rewrite (story_trace k s s' l E).
      assert (O' : Forall other_event (filter (ServerFacts.own k) l)).
      { apply Forall_forall. intros e He. apply filter_In in He. rewrite Forall_forall in O. apply O, He. }
      destruct (other_counts _ O') as [Z1 Z2]. rewrite returns_app, idles_app, Z1, Z2, app_nil_r, Nat.add_0_r. split; [exact R|].
      destruct F as [F|F]; [left; apply flushed_keeps; assumption|auto].
    + rewrite (story_trace k s s' _ E). pose proof (C past k eq_refl) as C1. pose proof (C before_flush k eq_refl) as C2.
      assert (EC : conn_of (fst (serve_req c q st)) = c) by (destruct st; reflexivity).
      destruct (Nat.eqb_spec c k) as [->|N]; cbn [andb] in C1, C2.
      * rewrite own_all by (constructor; [exact EC|constructor]). rewrite returns_app, idles_app, app_length.
        destruct st; cbn [serve_req fst snd past before_flush] in *; cbn [returns flat_map app length].
        -- assert (Z : idles [EState k (request_state q)] = 0) by (unfold request_state; destruct (_ =? _)%N; reflexivity).
           rewrite Z. split; [lia|]. destruct F as [F|F]; [left; apply flushed_keep; [discriminate|exact F]|right; lia].
        -- split; [cbn; lia|]. destruct F as [F|F]; [left; apply flushed_keep; [discriminate|exact F]|right; lia].
        -- split; [cbn; lia|]. right. lia.
        -- split; [cbn; lia|]. left. apply flushed_now.
        -- split; [cbn; lia|]. destruct F as [F|F]; [left; apply flushed_keep; [discriminate|exact F]|right; lia].
      * rewrite (own_none c k) by (congruence || (constructor; [exact EC|constructor])).
        rewrite app_nil_r. split; [lia|]. destruct F as [F|F]; [auto|right; lia].
Qed.

Lemma filter_le {A} (g : A -> bool) l : length (filter g l) <= length l.
Proof. induction l as [|x l IH]; cbn; [lia|]. destruct (g x); cbn; lia. Qed.
Lemma filter_full {A} (g : A -> bool) l : length (filter g l) = length l -> forall x, In x l -> g x = true.
Proof.
  induction l as [|y l IH]; intros H x Hx; [destruct Hx|]. cbn in H. pose proof (filter_le g l) as L. destruct (g y) eqn:E.
  - cbn in H. destruct Hx as [<-|Hx]; [exact E|]. apply IH; [lia|exact Hx].
  - lia.
Qed.

(** C123: whatever the handlers of a connection and other goroutines do with it,
    the stream consists of the frames of the successful operations in one order,
    in which each handler call's operations keep theirs; a Write and a Flush leave
    nothing waiting. *)
Theorem C123_stream : forall lim sq n sch k f c c' ts lg,
  let s := srun sch (sstart lim sq n) in let cs := calls (story k s) in
  works c -> on_wire c = [] -> unsent c = [] ->
  gathering f (story k s) (c, [], []) (c', ts, lg) ->
  (forall d, In d lg -> sized (what d)) ->
  (exists es, Forall2 (fun d e => contributes (version_of d) (what d) (result d) e) lg es
     /\ on_wire c' ++ unsent c' = concat es
     /\ forall m d, nth_error lg m = Some d -> pushes (what d) -> begins (concat (firstn (S m) es)) (on_wire c'))
  /\ failure c' = None
  /\ (forall d j, In d lg -> who d = Some j -> exists q, nth_error cs j = Some q
        /\ version_of d = Header_Version (Request_Header q))
  /\ (forall j q, nth_error cs j = Some q -> begins (deeds j lg) (f q))
  /\ (all_returned (story k s) -> forall j q, nth_error cs j = Some q -> deeds j lg = f q).
Proof.
  intros lim sq n sch k f c c' ts lg s cs W O U R Z. destruct (story_facts_any lim sq n sch k) as [A _]. fold s in A.
  assert (Z' : sized_deeds (c', ts, lg)) by (apply Forall_forall; exact Z).
  destruct (party_run f _ c _ A W O U R Z') as (H1 & H2 & H3 & H4 & H5 & _ & (_ & H7 & _) & H8). fold cs in H1.
  assert (T : forall j q, nth_error cs j = Some q -> exists t, nth_error ts j = Some t /\ preq t = q).
  { intros j q Hq. rewrite <- H1, nth_error_map in Hq. destruct (nth_error ts j) as [t|]; [|discriminate].
    injection Hq as <-. eauto. }
  split; [exact H8|]. split; [exact H7|]. split; [|split].
  - intros d j Hd E. destruct (H3 d j Hd E) as (t & Ht & V). exists (preq t). split; [|exact V].
    rewrite <- H1, nth_error_map, Ht. reflexivity.
  - intros j q Hq. destruct (T j q Hq) as (t & Ht & <-). destruct (H2 j t Ht) as [X _]. exists (pleft t). exact X.
  - intros AR j q Hq. destruct (T j q Hq) as (t & Ht & <-). destruct (H2 j t Ht) as [X Y].
    rewrite Y in X; [rewrite app_nil_r in X; exact X|]. unfold all_returned in AR. fold cs in AR.
    rewrite <- H4, <- H1, map_length in AR. eapply filter_full; [exact AR|]. eapply nth_error_In. exact Ht.
Qed.
Print Assumptions C123_stream.

(** C123: once the server has reported StateIdle for every call, everything the
    handlers did is done and on the wire. *)
Theorem C123_settled : forall lim sq n sch k f c c' ts lg,
  let s := srun sch (sstart lim sq n) in let cs := calls (story k s) in
  works c -> on_wire c = [] -> unsent c = [] ->
  gathering f (story k s) (c, [], []) (c', ts, lg) ->
  (forall d, In d lg -> sized (what d)) ->
  idles (story k s) = length cs ->
  (forall j q, nth_error cs j = Some q -> deeds j lg = f q)
  /\ exists es, Forall2 (fun d e => contributes (version_of d) (what d) (result d) e) lg es
     /\ on_wire c' ++ unsent c' = concat es
     /\ forall m d j, nth_error lg m = Some d -> who d = Some j -> begins (concat (firstn (S m) es)) (on_wire c').
Proof.
  intros lim sq n sch k f c c' ts lg s cs W O U R Z ID.
  destruct (C123_stream lim sq n sch k f c c' ts lg W O U R Z) as (_ & _ & _ & _ & AR).
  destruct (story_facts_any lim sq n sch k) as [A _]. fold s in A, AR. fold cs in AR.
  assert (Z' : sized_deeds (c', ts, lg)) by (apply Forall_forall; exact Z).
  destruct (party_run f _ c _ A W O U R Z') as (H1 & H2 & H3 & H4 & H5 & H6 & _ & es & E1 & E2 & E3). fold cs in H1.
  destruct (idle_inv lim sq n sch k) as [I1 I2]. fold s in I1, I2.
  pose proof (filter_le pdone ts) as L. assert (LT : length ts = length cs) by (rewrite <- H1, map_length; reflexivity).
  pose proof (count_le k s) as CL.
  assert (FL : flushed_after (story k s)) by (destruct I2 as [I2|I2]; [exact I2|lia]).
  assert (AL : all_returned (story k s)) by (unfold all_returned; fold cs; lia).
  split; [auto|]. exists es. split; [exact E1|]. split; [exact E2|]. intros m d j Hm Hw.
  destruct (H3 d j (nth_error_In _ _ Hm) Hw) as (t & Ht & _).
  assert (D : pdone t = true) by (eapply filter_full; [|eapply nth_error_In; exact Ht]; lia).
  destruct (H6 FL m d j t Hm Hw Ht D) as (m' & d' & M & Hm' & P').
  destruct (E3 m' d' Hm' P') as (x & X). rewrite <- X.
  replace (firstn (S m') es) with (firstn (S m) es ++ firstn (m' - m) (skipn (S m) es)).
  - rewrite concat_app, <- app_assoc. eexists. reflexivity.
  - rewrite <- (firstn_skipn (S m) (firstn (S m') es)), firstn_firstn. f_equal; [f_equal; lia|].
    rewrite firstn_skipn_comm. do 2 f_equal. lia.
Qed.
Print Assumptions C123_settled.

(** For the examples: runs that are computed. *)
Inductive deal := DCall (k : nat) (w : writer) (q : Request) | DDo (j : nat) | DElse (v : N) (o : wop) | DReturn (k j : nat) | DFlush (k : nat) | DState (k : nat) (x : cstate).
Definition pexec1 (f : Request -> list wop) (a : deal) (s : party) : option (list event * party) :=
  let '(c, ts, lg) := s in
  match a with
  | DCall k w q => Some ([ECall k w q], (c, ts ++ [(w, q, f q, false)], lg))
  | DDo j => match nth_error ts j with
             | Some (w, q, o :: os, false) => Some ([], (snd (wdo (wversion w) o c),
                 firstn j ts ++ (w, q, os, false) :: skipn (S j) ts, lg ++ [(Some j, wversion w, o, fst (wdo (wversion w) o c))]))
             | _ => None
             end
  | DElse v o => Some ([], (snd (wdo v o c), ts, lg ++ [(None, v, o, fst (wdo v o c))]))
  | DReturn k j => match nth_error ts j with
             | Some (w, q, [], false) => Some ([EReturn k q], (c, firstn j ts ++ (w, q, [], true) :: skipn (S j) ts, lg))
             | _ => None
             end
  | DFlush k => Some ([EFlush k], (snd (c_flush c), ts, lg ++ [(None, 0%N, WFlush, fst (c_flush c))]))
  | DState k x => Some ([EState k x], s)
  end.
Fixpoint pexec f (l : list deal) (es : list event) (s : party) : option (list event * party) :=
  match l with
  | [] => Some (es, s)
  | a :: l => match pexec1 f a s with Some (e, s') => pexec f l (es ++ e) s' | None => None end
  end.

Lemma pexec1_run f a s0 es s e s' : gathering f es s0 s -> pexec1 f a s = Some (e, s') -> gathering f (es ++ e) s0 s'.
Proof.
  destruct s as [[c ts] lg]. intros R H. destruct a as [k w q|j|v o|k j|k|k x]; cbn [pexec1] in H.
  - injection H as <- <-. eapply gathering_event; [exact R|constructor].
  - destruct (nth_error ts j) as [[[[w q] [|o os]] []]|] eqn:E; try discriminate. injection H as <- <-. rewrite app_nil_r.
    apply nth_parts in E. destruct E as [E L]. eapply gathering_op; [exact R|]. rewrite E at 1. rewrite <- L at 4. constructor.
  - injection H as <- <-. rewrite app_nil_r. eapply gathering_op; [exact R|constructor].
  - destruct (nth_error ts j) as [[[[w q] [|o os]] []]|] eqn:E; try discriminate. injection H as <- <-.
    apply nth_parts in E. destruct E as [E L]. eapply gathering_event; [exact R|]. rewrite E at 1. constructor.
  - injection H as <- <-. eapply gathering_event; [exact R|constructor].
  - injection H as <- <-. eapply gathering_event; [exact R|constructor].
Qed.
Lemma pexec_run f l : forall s0 es s es' s', gathering f es s0 s -> pexec f l es s = Some (es', s') -> gathering f es' s0 s'.
Proof.
  induction l as [|a l IH]; intros s0 es s es' s' R H; cbn [pexec] in H.
  - injection H as <- <-. exact R.
  - destruct (pexec1 f a s) as [[e s1]|] eqn:E; [|discriminate]. eapply IH; [|exact H]. eapply pexec1_run; eassumption.
Qed.

(** Each handler asks the peer something (a barrier) and answers. *)
Definition asking (q : Request) : list wop :=
  let x := Header_Transaction (Request_Header q) in
  [WSend (MkRequest (MkHeader 4 20 0 (x + 1)) BNil 1 3 1); WReply (MkHeader 0 3 0 x) None].
Definition kept : Request := MkRequest (MkHeader 4 2 0 5) (BBuf [xee]) 1 3 1.
Definition pdeals (a b d : list deal) : list deal :=
  [DState 0 StateNew; DState 0 StateActive; DCall 0 (hw 70) hq1; DState 0 StateActive; DCall 0 (hw 81) hq2]
  ++ a ++ [DReturn 0 1; DFlush 0; DState 0 StateIdle] ++ b ++ [DReturn 0 0; DFlush 0; DState 0 StateIdle] ++ d.
Definition fresh_conn : conn := new_conn 0 (MkTr [] [] 0 None).
Lemma fresh_works : works fresh_conn.
Proof. split; [split; [reflexivity|split; reflexivity]|]. split; [reflexivity|]. apply okc_new. Qed.

(** C123: what another goroutine sends without flushing may stay unsent although
    Send returned no error and the server is at rest. *)
Theorem C123_background_refuted : exists f sch c' ts lg1 d,
  let s := srun sch (sstart 0 false 1) in
  sent 0 s [hq1; hq2] /\ gathering f (story 0 s) (fresh_conn, [], []) (c', ts, lg1 ++ [d])
  /\ (forall x, In x (lg1 ++ [d]) -> sized (what x))
  /\ idles (story 0 s) = length (calls (story 0 s)) /\ idles (story 0 s) = 2
  /\ who d = None /\ what d = WSend kept /\ result d = None
  /\ frame_for (unsent c') kept.
Proof.
  destruct (pexec asking (pdeals [DDo 1; DDo 0; DDo 1] [DDo 0] [DElse 0 (WSend kept)]) [] (fresh_conn, [], []))
    as [[es [[c' ts] lg]]|] eqn:E; [|exfalso; vm_compute in E; discriminate].
  exists asking, hsched, c', ts, (removelast lg), (last lg (None, 0%N, WFlush, None)).
  cbv zeta. pose proof (pexec_run _ _ _ _ _ _ _ (gathering_nil _ _) E) as R.
  vm_compute in E. injection E as <- <- <- <-. cbn [removelast last app] in *.
  split; [eexists; split; vm_compute; reflexivity|]. split; [|split; [|split; [vm_compute; reflexivity|split; [vm_compute; reflexivity|]]]].
  - match type of R with gathering _ ?l _ _ => assert (S : story 0 (srun hsched (sstart 0 false 1)) = l) by (vm_compute; reflexivity) end.
    rewrite <- S in R. exact R.
  - intros x Hx. cbn [In] in Hx. repeat (destruct Hx as [<-|Hx]; [vm_compute; exact I || discriminate|]). destruct Hx.
  - split; [reflexivity|]. split; [reflexivity|]. split; [reflexivity|]. apply outgoing_frame. vm_compute. reflexivity.
Qed.
Print Assumptions C123_background_refuted.

(** Two handlers at once and a third goroutine: the questions of the handlers and
    the message of the third wait for the first answer. *)
Example C123_ex : exists c' ts lg, let s := hserver in
  gathering asking (story 0 s) (fresh_conn, [], []) (c', ts, lg)
  /\ works fresh_conn /\ (forall x, In x lg -> sized (what x)) /\ idles (story 0 s) = length (calls (story 0 s))
  /\ map (fun d => (who d, result d)) lg
     = [(Some 1, None); (Some 0, None); (None, None); (Some 1, None); (None, None); (Some 0, None); (None, None)]
  /\ on_wire c' = [x04; x14; x00; x08; x00; x00; x00; x52] ++ [x04; x14; x00; x08; x00; x00; x00; x47]
       ++ [x04; x02; x00; x09; x00; x00; x00; x05; xee] ++ [x04; x03; x00; x08; x00; x00; x00; x51]
       ++ [x04; x03; x00; x08; x00; x00; x00; x46] /\ unsent c' = [].
Proof.
  destruct (pexec asking (pdeals [DDo 1; DDo 0; DElse 0 (WSend kept); DDo 1] [DDo 0] []) [] (fresh_conn, [], []))
    as [[es [[c' ts] lg]]|] eqn:E; [|exfalso; vm_compute in E; discriminate].
  exists c', ts, lg.
  cbv zeta. pose proof (pexec_run _ _ _ _ _ _ _ (gathering_nil _ _) E) as R.
  vm_compute in E. injection E as <- <- <- <-.
  split; [|split; [exact fresh_works|split; [|split; [vm_compute; reflexivity|split; [reflexivity|split; reflexivity]]]]].
  - match type of R with gathering _ ?l _ _ => assert (S : story 0 hserver = l) by (vm_compute; reflexivity) end.
    rewrite <- S in R. exact R.
  - intros x Hx. cbn [In] in Hx. repeat (destruct Hx as [<-|Hx]; [vm_compute; exact I || discriminate|]). destruct Hx.
Qed.
