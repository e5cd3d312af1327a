(** C108: replies of handlers that run at the same time. *)
From Verif Require Import RequestSpec RequestFacts ServerSpec ServerFacts ConnSeqFacts HandlerFacts P_Session HandsModel HandsSpec MuxFacts PairSpec P_Pair ExchangeSpec P_Exchange P_Server.
From Coq Require Import Lia Permutation.

Definition treq (t : task) : Request := snd (fst (fst t)).
Definition twriter (t : task) : writer := fst (fst (fst t)).
Definition tleft (t : task) : list (Header * option payload) := snd (fst t).
Definition tdone (t : task) : bool := snd t.

(** What holds after the events [l]. *)
Definition hands_ok (f : Request -> list (Header * option payload)) (l : list event) (s : hands_state) : Prop :=
  let '(c, ts, lg) := s in
  map treq ts = calls l
  /\ (forall j t, nth_error ts j = Some t -> written j lg ++ tleft t = f (treq t) /\ (tdone t = true -> tleft t = []))
  /\ (forall x, In x lg -> fst x < length ts)
  /\ length (filter tdone ts) = length (returns l)
  /\ Forall (fun t => wversion (twriter t) = Header_Version (Request_Header (treq t))) ts
  /\ exists es, Forall2 (fun x e => reply_as (Header_Version (Request_Header (nth (fst x) (calls l) zero_Request))) (snd x) e) lg es
       /\ on_wire c = concat es /\ fine c.

Lemma written_app j a b : written j (a ++ b) = written j a ++ written j b.
Proof. unfold written. rewrite filter_app, map_app. reflexivity. Qed.
Lemma written_none j lg : (forall x, In x lg -> fst x < j) -> written j lg = [].
Proof.
  intro H. unfold written. induction lg as [|x lg IH]; [reflexivity|]. cbn [filter].
  pose proof (H x (or_introl eq_refl)). destruct (Nat.eqb_spec (fst x) j); [lia|]. apply IH. intros y Hy. apply H. right. exact Hy.
Qed.
Lemma returns_app a b : returns (a ++ b) = returns a ++ returns b.
Proof. apply flat_map_app. Qed.
Lemma Forall2_impl' {A B} (R R' : A -> B -> Prop) l l' : (forall x y, In x l -> R x y -> R' x y) -> Forall2 R l l' -> Forall2 R' l l'.
Proof. intros H F. induction F; constructor; auto using in_eq. apply IHF. intros. apply H; auto. right. assumption. Qed.

Lemma hands_step f k l e s s' : hands_ok f l s ->
  (forall q, In q (calls l) -> Forall plain_reply (f q)) ->
  match e with Some x => faithful_call x /\ conn_of x = k | None => True end -> hstep f e s s' ->
  hands_ok f (match e with Some x => l ++ [x] | None => l end) s'.
Proof.
  intros H P FC S. destruct S as [k' w q c ts lg|a w q hp rs b c lg|k' a w q b c lg|k' c ts lg|k' x c ts lg].
  - destruct H as (H1 & H2 & H3 & H4 & H5 & es & E1 & E2 & E3). destruct FC as [FC _]. cbn [faithful_call] in FC.
    assert (L : length ts = length (calls l)) by (rewrite <- H1; symmetry; apply map_length).
    split; [rewrite map_app, calls_app, H1; reflexivity|]. split; [|split; [|split; [|split]]].
    + intros j t Hj. destruct (Nat.lt_ge_cases j (length ts)) as [J|J].
      * rewrite nth_error_app1 in Hj by exact J. apply H2. exact Hj.
      * rewrite nth_error_app2 in Hj by exact J. destruct (j - length ts) as [|n] eqn:N; cbn in Hj; [|destruct n; discriminate].
        injection Hj as <-. cbn [tleft treq tdone fst snd]. split; [|discriminate].
        rewrite written_none; [reflexivity|]. intros x Hx. specialize (H3 x Hx). lia.
    + intros x Hx. rewrite app_length. specialize (H3 x Hx). lia.
    + rewrite filter_app, app_length, returns_app, app_length, H4. reflexivity.
    + apply Forall_app. split; [exact H5|]. constructor; [exact FC|constructor].
    + exists es. split; [|auto]. eapply Forall2_impl'; [|exact E1]. intros x y Hx. specialize (H3 x Hx).
      rewrite calls_app, app_nth1 by lia. auto.
  - destruct H as (H1 & H2 & H3 & H4 & H5 & es & E1 & E2 & E3).
    pose proof (H2 (length a) _ ltac:(rewrite nth_error_app2, Nat.sub_diag by lia; reflexivity)) as [HA _].
    cbn [tleft treq fst snd] in HA.
    assert (Hq : nth (length a) (calls l) zero_Request = q /\ In q (calls l)).
    { rewrite <- H1, map_app. split; [|apply in_or_app; right; left; reflexivity].
      rewrite app_nth2; rewrite map_length; [|lia]. rewrite Nat.sub_diag. reflexivity. }
    destruct Hq as [Hq Hin].
    assert (PR : plain_reply hp).
    { specialize (P q Hin). rewrite <- HA in P. apply Forall_app in P. destruct P as [_ P]. inversion P. assumption. }
    apply Forall_app in H5. destruct H5 as [H5a H5b]. inversion H5b as [|t0 l0 H5c H5d]; subst t0 l0.
    destruct (respond_fine (wversion w) hp c E3 PR) as (e & c' & R & C & W & F). rewrite C. cbn [snd].
    split; [rewrite map_app in *; exact H1|]. split; [|split; [|split; [|split]]].
    + intros j t Hj. rewrite written_app. unfold written at 2. cbn [filter fst].
      destruct (Nat.eqb_spec (length a) j) as [<-|N].
      * rewrite nth_error_app2, Nat.sub_diag in Hj by lia. injection Hj as <-. cbn [tleft treq tdone map fst snd].
        rewrite <- app_assoc. split; [exact HA|discriminate].
      * cbn [map]. rewrite app_nil_r. apply H2. destruct (Nat.lt_ge_cases j (length a)) as [J|J].
        -- rewrite nth_error_app1 in * by lia. exact Hj.
        -- rewrite nth_error_app2 in * by lia. destruct (j - length a) eqn:X; [lia|]. exact Hj.
    + intros x Hx. apply in_app_or in Hx. destruct Hx as [Hx|[<-|[]]].
      * specialize (H3 x Hx). rewrite app_length in *. exact H3.
      * cbn [fst]. rewrite app_length. cbn [length]. lia.
    + rewrite filter_app in *. exact H4.
    + apply Forall_app. split; [exact H5a|]. constructor; assumption.
    + exists (es ++ [e]). split; [|split; [rewrite concat_app, W, E2; cbn; rewrite app_nil_r; reflexivity|exact F]].
      apply Forall2_app; [exact E1|]. constructor; [|constructor]. cbn [fst snd]. rewrite Hq.
      cbn [twriter treq fst snd] in H5c. rewrite <- H5c. exact R.
  - destruct H as (H1 & H2 & H3 & H4 & H5 & es & E).
    split; [rewrite calls_app, app_nil_r; rewrite map_app in *; exact H1|]. split; [|split; [|split; [|split]]].
    + intros j t Hj. destruct (Nat.eq_dec j (length a)) as [->|N].
      * rewrite nth_error_app2, Nat.sub_diag in Hj by lia. injection Hj as <-. cbn [tleft treq tdone fst snd].
        split; [|reflexivity]. apply (H2 (length a) (w, q, [], false)). rewrite nth_error_app2, Nat.sub_diag by lia. reflexivity.
      * apply H2. destruct (Nat.lt_ge_cases j (length a)) as [J|J].
        -- rewrite nth_error_app1 in * by lia. exact Hj.
        -- rewrite nth_error_app2 in * by lia. destruct (j - length a) eqn:X; [lia|]. exact Hj.
    + intros x Hx. specialize (H3 x Hx). rewrite app_length in *. exact H3.
    + rewrite filter_app, app_length in *. rewrite returns_app, app_length, <- H4. cbn. lia.
    + apply Forall_app in H5. destruct H5 as [H5a H5b]. apply Forall_app. split; [exact H5a|].
      inversion H5b; subst. constructor; assumption.
    + exists es. rewrite calls_app, app_nil_r. exact E.
  - destruct H as (H1 & H2 & H3 & H4 & H5 & es & E1 & E2 & E3). destruct (flush_fine c E3) as [W F].
    unfold hands_ok. rewrite calls_app, returns_app, !app_nil_r. do 5 (split; [assumption|]). exists es. rewrite W. auto.
  - unfold hands_ok in *. rewrite calls_app, returns_app, !app_nil_r. exact H.
Qed.

Lemma hands_run f k l c s : Forall faithful_call l -> Forall (fun x => conn_of x = k) l ->
  (forall q, In q (calls l) -> Forall plain_reply (f q)) -> fine c -> on_wire c = [] ->
  hrun f l (c, [], []) s -> hands_ok f l s.
Proof.
  intros FC K P F W R. remember (c, [], []) as s0 eqn:E. induction R as [s|e l s1 s2 s3 R IH S|l s1 s2 s3 R IH S].
  - subst s. split; [reflexivity|]. split; [intros [|j] t X; discriminate X|]. split; [intros x []|].
    split; [reflexivity|]. split; [constructor|]. exists []. split; [constructor|]. split; [exact W|exact F].
  - apply Forall_app in FC. destruct FC as [FC1 FC2]. apply Forall_app in K. destruct K as [K1 K2].
    inversion FC2. inversion K2. subst.
    assert (P' : forall q, In q (calls l) -> Forall plain_reply (f q))
      by (intros q Hq; apply P; rewrite calls_app; apply in_or_app; left; exact Hq).
    apply (hands_step f (conn_of e) l (Some e) s2 s3); auto.
  - apply (hands_step f k l None s2 s3); auto.
Qed.

Lemma trace_faithful lim sq n sch : Forall faithful_call (trace (srun sch (sstart lim sq n))).
Proof.
  apply (srun_inv (fun s => Forall faithful_call (trace s))); [constructor|].
  intros m s s' H E. apply sstep_trans in E.
  assert (G : forall c q st, faithful_call (fst (serve_req c q st))) by (intros c q []; exact I || reflexivity).
  destruct E; cbn [trace emits with_loop with_cn with_counter with_hands with_new]; auto;
    apply Forall_app; (split; [exact H|constructor; [first [apply G|exact I]|constructor]]).
Qed.

Lemma story_facts_any lim sq n sch k : let s := srun sch (sstart lim sq n) in
  Forall faithful_call (story k s) /\ Forall (fun e => conn_of e = k) (story k s).
Proof.
  intro s. pose proof (trace_faithful lim sq n sch) as F. fold s in F. unfold story.
  split; apply Forall_forall; intros e He; apply filter_In in He; destruct He as [He Hk].
  - rewrite Forall_forall in F. auto.
  - apply Nat.eqb_eq. exact Hk.
Qed.

Lemma story_calls_in lim sq n sch k ms : let s := srun sch (sstart lim sq n) in sent k s ms ->
  forall q, In q (calls (story k s)) -> In q ms.
Proof.
  intros s S q Hq. destruct (C65_at_most_once lim sq n sch k ms S) as (w & P). fold s in P.
  eapply Permutation_in; [exact P|]. apply in_or_app. left. exact Hq.
Qed.

Lemma seq_nths (cs : list Request) : map (fun j => nth j cs zero_Request) (seq 0 (length cs)) = cs.
Proof.
  induction cs as [|q cs IH]; [reflexivity|]. cbn [length seq map nth]. rewrite <- seq_shift, map_map.
  f_equal. exact IH.
Qed.

Lemma filter_le {A} (p : A -> bool) l : length (filter p l) <= length l.
Proof. induction l as [|x l IH]; cbn; [lia|]. destruct (p x); cbn; lia. Qed.

Lemma tasks_done ts : length (filter tdone ts) = length ts -> forall t, In t ts -> tdone t = true.
Proof.
  induction ts as [|x ts IH]; intros H t []; cbn [filter] in H.
  - subst x. destruct (tdone t) eqn:D; [reflexivity|]. pose proof (filter_le tdone ts). cbn in H. lia.
  - destruct (tdone x) eqn:D; [cbn in H; auto|]. pose proof (filter_le tdone ts). cbn in H. lia.
Qed.

(** C108: handlers of one connection may run at the same time, as they do with the
    default runner.  At every moment before the connection is closed the peer has
    been sent whole replies only; the replies of each handler call are sent in
    the order in which the handler wrote them, and all of them once it has
    returned. *)
Theorem C108_whole : forall lim sq n sch k f ms c c' ts lg,
  let s := srun sch (sstart lim sq n) in sent k s ms ->
  (forall q, In q ms -> Forall plain_reply (f q)) -> fine c -> on_wire c = [] ->
  hrun f (story k s) (c, [], []) (c', ts, lg) ->
  let cs := calls (story k s) in
  (exists es, on_wire c' = concat es
     /\ Forall2 (fun x e => reply_as (Header_Version (Request_Header (nth (fst x) cs zero_Request))) (snd x) e) lg es)
  /\ failure c' = None /\ unsent c' = []
  /\ (forall x, In x lg -> fst x < length cs)
  /\ (forall j q, nth_error cs j = Some q -> begins (written j lg) (f q))
  /\ (all_returned (story k s) -> forall j q, nth_error cs j = Some q -> written j lg = f q).
Proof.
  intros lim sq n sch k f ms c c' ts lg s S P F W R cs.
  destruct (story_facts_any lim sq n sch k) as [A B]. fold s in A, B.
  assert (P' : forall q, In q (calls (story k s)) -> Forall plain_reply (f q))
    by (intros q Hq; apply P; eapply story_calls_in; eassumption).
  destruct (hands_run f k (story k s) c _ A B P' F W R) as (H1 & H2 & H3 & H4 & H5 & es & E1 & E2 & E3 & E4 & E5).
  fold cs in H1, E1.
  assert (L : length ts = length cs) by (rewrite <- H1; symmetry; apply map_length).
  assert (T : forall j q, nth_error cs j = Some q -> exists t, nth_error ts j = Some t /\ treq t = q).
  { intros j q Hq. rewrite <- H1 in Hq. rewrite nth_error_map in Hq. destruct (nth_error ts j) as [t|]; [|discriminate].
    injection Hq as <-. eauto. }
  split; [eauto|]. split; [exact E3|]. split; [exact E5|]. split; [intros x Hx; rewrite <- L; auto|]. split.
  - intros j q Hq. destruct (T j q Hq) as (t & Ht & <-). destruct (H2 j t Ht) as [X _]. exists (tleft t). exact X.
  - intros AR j q Hq. destruct (T j q Hq) as (t & Ht & <-). destruct (H2 j t Ht) as [X Y].
    rewrite Y in X; [rewrite app_nil_r in X; exact X|].
    apply (tasks_done ts); [|eapply nth_error_In; exact Ht]. rewrite H4, L. exact AR.
Qed.
Print Assumptions C108_whole.

(** The log, call by call. *)
Lemma log_split lg : forall n, (forall x, In x lg -> fst x < n) ->
  Permutation lg (flat_map (fun j => map (pair j) (written j lg)) (seq 0 n)).
Proof.
  intro n. revert lg. induction n as [|n IH]; intros lg H.
  - destruct lg as [|x lg]; [constructor|]. specialize (H x (or_introl eq_refl)). lia.
  - rewrite seq_S, flat_map_app. cbn [flat_map Nat.add]. rewrite app_nil_r.
    assert (E : Permutation lg (filter (fun x => negb (fst x =? n)) lg ++ filter (fun x => fst x =? n) lg)).
    { clear H. induction lg as [|x lg IHl]; [constructor|]. cbn [filter]. destruct (fst x =? n); cbn [negb].
      - apply Permutation_cons_app, IHl.
      - cbn [app]. constructor. exact IHl. }
    eapply perm_trans; [exact E|]. apply Permutation_app.
    + eapply perm_trans; [apply IH|].
      * intros x Hx. apply filter_In in Hx. destruct Hx as [Hx Hn]. specialize (H x Hx). destruct (Nat.eqb_spec (fst x) n); [discriminate|lia].
      * assert (X : forall l, (forall j, In j l -> j <> n) ->
          flat_map (fun j => map (pair j) (written j (filter (fun x => negb (fst x =? n)) lg))) l
          = flat_map (fun j => map (pair j) (written j lg)) l).
        { induction l as [|j l IHl]; intro Hl; [reflexivity|]. cbn [flat_map]. rewrite IHl by (intros; apply Hl; right; assumption).
          f_equal. f_equal. unfold written. f_equal. specialize (Hl j (or_introl eq_refl)). clear - Hl.
          induction lg as [|x lg IH]; [reflexivity|]. cbn [filter]. destruct (Nat.eqb_spec (fst x) n); cbn [negb filter].
          - destruct (Nat.eqb_spec (fst x) j); [congruence|]. exact IH.
          - rewrite IH. reflexivity. }
        rewrite X; [reflexivity|]. intros j Hj. apply in_seq in Hj. lia.
    + assert (Y : filter (fun x => fst x =? n) lg = map (pair n) (written n lg)); [|rewrite Y; reflexivity].
      unfold written. rewrite map_map. rewrite <- map_id at 1. apply map_ext_in. intros [j x] Hx.
      apply filter_In in Hx. destruct Hx as [_ Hx]. apply Nat.eqb_eq in Hx. cbn in *. subst. reflexivity.
Qed.

(** C108: once every message has been given to the handler and every call has
    returned, the replies sent are those to all messages, one by one, in some
    order. *)
Theorem C108_complete : forall lim sq n sch k f ms c c' ts lg,
  let s := srun sch (sstart lim sq n) in sent k s ms ->
  (forall q, In q ms -> Forall plain_reply (f q)) -> fine c -> on_wire c = [] ->
  hrun f (story k s) (c, [], []) (c', ts, lg) ->
  length (calls (story k s)) = length ms -> all_returned (story k s) ->
  exists sent_replies es, Permutation sent_replies (flat_map (fun q => map (pair q) (f q)) ms)
    /\ Forall2 (fun x e => reply_as (Header_Version (Request_Header (fst x))) (snd x) e) sent_replies es
    /\ on_wire c' = concat es.
Proof.
  intros lim sq n sch k f ms c c' ts lg s S P F W R LC AR.
  destruct (C108_whole lim sq n sch k f ms c c' ts lg S P F W R) as ((es & E1 & E2) & _ & _ & H1 & _ & H2). fold s in E2, H1, H2.
  specialize (H2 AR). set (cs := calls (story k s)) in *.
  exists (map (fun x => (nth (fst x) cs zero_Request, snd x)) lg), es. split; [|split].
  - assert (PM : Permutation cs ms).
    { destruct (C65_at_most_once lim sq n sch k ms S) as (w & PW). fold s in PW. fold cs in PW.
      pose proof (Permutation_length PW) as LW. rewrite app_length in LW. destruct w; [|cbn in LW; lia]. rewrite app_nil_r in PW. exact PW. }
    eapply perm_trans; [|apply Permutation_flat_map; exact PM].
    eapply perm_trans; [apply Permutation_map, (log_split lg (length cs)); exact H1|].
    rewrite flat_map_concat_map, concat_map, map_map.
    assert (X : map (fun j => map (fun x => (nth (fst x) cs zero_Request, snd x)) (map (pair j) (written j lg))) (seq 0 (length cs))
              = map (fun q => map (pair q) (f q)) cs).
    { rewrite <- (seq_nths cs) at 2. rewrite map_map. apply map_ext_in. intros j Hj. apply in_seq in Hj.
      destruct (nth_error cs j) as [q|] eqn:Q; [|apply nth_error_None in Q; lia].
      rewrite (H2 j q Q), map_map. cbn [fst snd]. rewrite (nth_error_nth _ _ zero_Request Q). reflexivity. }
    rewrite X, <- flat_map_concat_map. reflexivity.
  - clear - E2. induction E2 as [|x e lg es H _ IH]; cbn [map]; constructor; auto.
  - exact E1.
Qed.
Print Assumptions C108_complete.

(** C108: the whole exchange of C106 with handlers that run at the same time, and
    with any way of running them.  The client sends [n] requests, the server
    answers each with one reply; although the replies arrive in any order every
    callback gets the reply to its own request, and only that. *)
Theorem C108_exchange : forall n draw hdr fs body reqs f lim sq nl sch k sched sched' ms e r c' ts lg qs e' r' prog sch0 sch1,
  (* the client's requests *)
  (forall p, p < n -> from_header draw hdr fs p /\ asks draw hdr p (reqs p) (body p)) ->
  (forall p q, p < n -> q < n -> awaited draw hdr p = awaited draw hdr q -> p = q) ->
  (* what the server reads and does *)
  receive_all (S n) (MkReader (concat (flat_map (fun p => wcalls (write_to sink (reqs p))) (seq 0 n))) sched EOF false) = (ms, e, r) ->
  let s := srun sch (sstart lim sq nl) in sent k s ms ->
  length (calls (story k s)) = n -> all_returned (story k s) ->
  (forall q, In q ms -> exists v t b, answers_with f q v t b) ->
  hrun f (story k s) (new_conn 0 (MkTr [] [] 0 None), [], []) (c', ts, lg) ->
  (* what the client reads *)
  receive_all (S n) (MkReader (on_wire c') sched' EOF false) = (qs, e', r') ->
  (* what the client does *)
  (forall i k h once, In (OHandle (Some k) h once) (prog i) -> once = true /\ exists p, p < n /\ k = KPtr p) ->
  (forall m, (exists i, In (OServe m) (prog i)) <-> In m qs) ->
  let s0 := mrun fs sch0 (mstart prog) in let s1 := mrun fs sch1 s0 in
  quiet s0 -> (forall p, p < n -> registered (KPtr p) (registrations s0) = true) ->
  finished s1 -> (forall k, count k (registrations s1) <= 1) ->
  e = Some EOF /\ e' = Some EOF /\ length qs = n
  /\ forall p, p < n -> exists q v t b m, In q ms
       /\ received (Header_Version (hdr p)) (Header_Type (hdr p)) (awaited draw hdr p) (body p) q
       /\ answers_with f q v t b /\ given (KPtr p) s1 = [m]
       /\ received (if (v =? 0)%N then Header_Version (hdr p) else v) t (awaited draw hdr p) b m.
Proof.
  intros n draw hdr fs body reqs f lim sq nl sch k sched sched' ms e r c' ts lg qs e' r' prog sch0 sch1
    HA HD RC s SE LC AR HH HR0 RC' HP HQ s0 s1 Q0 HR FI HC.
  set (msg := fun p => (Header_Version (hdr p), Header_Type (hdr p), awaited draw hdr p, body p)).
  destruct (requests_arrive n draw hdr fs body reqs HA) as [FR OK]. fold msg in FR, OK.
  destruct (receive_stream _ OK _ FR sched) as (ms0 & r0 & E0 & RA & _). rewrite map_length, seq_length, RC in E0.
  injection E0 as <- -> <-. split; [reflexivity|].
  assert (LM : length ms = n).
  { rewrite <- (seq_length n 0), <- (map_length msg). clear - RA. induction RA; cbn [length]; auto. }
  assert (P : forall q, In q ms -> Forall plain_reply (f q)).
  { intros q Hq. destruct (HH q Hq) as (v & t & b & hd & pl & E & _ & _ & _ & C & L & _).
    rewrite E. constructor; [|constructor]. exists b. auto. }
  destruct (C108_complete lim sq nl sch k f ms (new_conn 0 (MkTr [] [] 0 None)) c' ts lg SE P) as (xs & es & PX & FX & W); auto.
  { split; [reflexivity|]. split; [|reflexivity]. split; [reflexivity|]. split; [reflexivity|]. intros d X. discriminate X. }
  { fold s. lia. }
  pose proof (replies_fit n draw hdr fs body reqs f ms HA RA HH) as MO.
  assert (IX : forall x, In x xs -> In (fst x) ms /\ f (fst x) = [snd x]).
  { intros x Hx. apply (Permutation_in _ PX) in Hx. apply in_flat_map in Hx. destruct Hx as (q & Hq & Hx).
    apply in_map_iff in Hx. destruct Hx as (y & <- & Hy). cbn [fst snd]. split; [exact Hq|].
    destruct (HH q Hq) as (v & t & b & hd & pl & E & _). rewrite E in *. destruct Hy as [<-|[]]. reflexivity. }
  assert (XI : forall q, In q ms -> exists x, In x xs /\ fst x = q).
  { intros q Hq. destruct (HH q Hq) as (v & t & b & hd & pl & E & _). exists (q, (hd, pl)). split; [|reflexivity].
    apply (Permutation_in _ (Permutation_sym PX)), in_flat_map. exists q. split; [exact Hq|]. rewrite E. left. reflexivity. }
  assert (LX : length xs = n).
  { rewrite (Permutation_length PX), <- LM. clear - HH. induction ms as [|q ms IH]; [reflexivity|]. cbn [flat_map].
    rewrite app_length, IH by (intros; apply HH; right; assumption).
    destruct (HH q (or_introl eq_refl)) as (v & t & b & hd & pl & E & _). rewrite E. reflexivity. }
  assert (FO : Forall2 frame_of es (map (fun x => reply_msg f (fst x)) xs)).
  { clear - FX IX. induction FX as [|x y xs es H _ IH]; cbn [map]; constructor; [|apply IH; intros; apply IX; right; assumption].
    destruct (IX x (or_introl eq_refl)) as [_ E]. unfold reply_msg. rewrite E. destruct (snd x). exact H. }
  assert (AO : Forall msg_ok (map (fun x => reply_msg f (fst x)) xs)).
  { apply Forall_forall. intros m Hm. apply in_map_iff in Hm. destruct Hm as (x & <- & Hx).
    destruct (MO (fst x) (proj1 (IX x Hx))) as (v & t & b & _ & G & _). exact G. }
  rewrite W in RC'.
  destruct (receive_stream _ AO _ FO sched') as (qs0 & r1 & E1 & RB & _).
  rewrite map_length, LX, RC' in E1. injection E1 as <- -> <-. split; [reflexivity|]. split.
  { rewrite <- LX. rewrite <- (map_length (fun x => reply_msg f (fst x))). clear - RB. induction RB; cbn [length]; auto. }
  apply (client_gets n draw hdr fs body reqs f ms qs prog sch0 sch1); auto.
  - intros q Hq. destruct (MO q Hq) as (v & t & b & A & _ & B). exists v, t, b. auto.
  - intros m Hm. destruct (Forall2_in_r _ _ _ _ RB Hm) as (z & Hz & R). apply in_map_iff in Hz.
    destruct Hz as (x & <- & Hx). exists (fst x). split; [apply IX, Hx|exact R].
  - intros q Hq. destruct (XI q Hq) as (x & Hx & <-). apply (Forall2_in_l _ _ _ _ RB). apply (in_map (fun x => reply_msg f (fst x))), Hx.
Qed.
Print Assumptions C108_exchange.

(** For the examples: runs that are computed.  An action is an event, or a write
    of call [j]; a return names the call. *)
Inductive act := ACall (k : nat) (w : writer) (q : Request) | AWrite (j : nat) | AReturn (k j : nat) | AFlush (k : nat) | AState (k : nat) (x : cstate).
Definition hexec1 (f : Request -> list (Header * option payload)) (a : act) (s : hands_state) : option (list event * hands_state) :=
  let '(c, ts, lg) := s in
  match a with
  | ACall k w q => Some ([ECall k w q], (c, ts ++ [(w, q, f q, false)], lg))
  | AWrite j => match nth_error ts j with
                | Some (w, q, hp :: rs, false) => Some ([], (snd (c_respond (wversion w) (fst hp) (snd hp) c),
                    firstn j ts ++ (w, q, rs, false) :: skipn (S j) ts, lg ++ [(j, hp)]))
                | _ => None
                end
  | AReturn k j => match nth_error ts j with
                | Some (w, q, [], false) => Some ([EReturn k q], (c, firstn j ts ++ (w, q, [], true) :: skipn (S j) ts, lg))
                | _ => None
                end
  | AFlush k => Some ([EFlush k], (snd (c_flush c), ts, lg))
  | AState k x => Some ([EState k x], s)
  end.
Fixpoint hexec f (l : list act) (es : list event) (s : hands_state) : option (list event * hands_state) :=
  match l with
  | [] => Some (es, s)
  | a :: l => match hexec1 f a s with Some (e, s') => hexec f l (es ++ e) s' | None => None end
  end.

Lemma nth_parts {A} (l : list A) j x : nth_error l j = Some x -> l = firstn j l ++ x :: skipn (S j) l /\ length (firstn j l) = j.
Proof.
  revert l. induction j as [|j IH]; intros [|y l] H; try discriminate.
  - injection H as <-. auto.
  - destruct (IH l H) as [A1 A2]. cbn [firstn skipn app length]. split; [f_equal; exact A1|f_equal; exact A2].
Qed.

Lemma hexec1_run f a s0 es s e s' : hrun f es s0 s -> hexec1 f a s = Some (e, s') -> hrun f (es ++ e) s0 s'.
Proof.
  destruct s as [[c ts] lg]. intros R H. destruct a as [k w q|j|k j|k|k x]; cbn [hexec1] in H.
  - injection H as <- <-. eapply hrun_event; [exact R|constructor].
  - destruct (nth_error ts j) as [[[[w q] [|hp rs]] []]|] eqn:E; try discriminate. injection H as <- <-. rewrite app_nil_r.
    apply nth_parts in E. destruct E as [E L]. eapply hrun_write; [exact R|]. rewrite E at 1.
    rewrite <- L at 4. constructor.
  - destruct (nth_error ts j) as [[[[w q] [|hp rs]] []]|] eqn:E; try discriminate. injection H as <- <-.
    apply nth_parts in E. destruct E as [E L]. eapply hrun_event; [exact R|]. rewrite E at 1. constructor.
  - injection H as <- <-. eapply hrun_event; [exact R|constructor].
  - injection H as <- <-. eapply hrun_event; [exact R|constructor].
Qed.
Lemma hexec_run f l : forall s0 es s es' s', hrun f es s0 s -> hexec f l es s = Some (es', s') -> hrun f es' s0 s'.
Proof.
  induction l as [|a l IH]; intros s0 es s es' s' R H; cbn [hexec] in H.
  - injection H as <- <-. exact R.
  - destruct (hexec1 f a s) as [[e s1]|] eqn:E; [|discriminate]. eapply IH; [|exact H]. eapply hexec1_run; eassumption.
Qed.

(** Two handlers at once: both are called before either writes, and the second
    writes first. *)
Definition hsched : list move :=
  repeat (MLoop 0 earrived) 5 ++ [MRecv 0; MServe 0; MRecv 0; MServe 0]
  ++ [MHand 0; MHand 0; MHand 1; MHand 1] ++ repeat (MHand 1) 3 ++ repeat (MHand 0) 3.
Definition hserver : server := srun hsched (sstart 0 false 1).
Definition hw (x : N) : writer := MkWriter 0 4 x.
Definition hq1 : Request := MkRequest (MkHeader 4 2 9 70) (BBuf [xaa]) 1 3 1.
Definition hq2 : Request := MkRequest (MkHeader 4 2 10 81) (BBuf [xbb; xcc]) 1 3 2.
Definition hacts (w1 w2 : list act) : list act :=
  [AState 0 StateNew; AState 0 StateActive; ACall 0 (hw 70) hq1; AState 0 StateActive; ACall 0 (hw 81) hq2]
  ++ w1 ++ [AReturn 0 1; AFlush 0; AState 0 StateIdle] ++ w2 ++ [AReturn 0 0; AFlush 0; AState 0 StateIdle].

(** C108: the replies of one call need not follow each other: here each of two
    calls writes two replies and the peer gets them in turns. *)
Definition twice (q : Request) : list (Header * option payload) :=
  let h := MkHeader 0 3 0 (Header_Transaction (Request_Header q)) in [(h, None); (h, Some (MkPayload [x2a] None))].
Theorem C108_contiguous_refuted : exists f sch c' ts lg,
  let s := srun sch (sstart 0 false 1) in sent 0 s [hq1; hq2] /\ all_returned (story 0 s)
  /\ (forall q, Forall plain_reply (f q))
  /\ hrun f (story 0 s) (new_conn 0 (MkTr [] [] 0 None), [], []) (c', ts, lg)
  /\ map fst lg = [0; 1; 0; 1]
  /\ on_wire c' = [x04; x03; x00; x08; x00; x00; x00; x46] ++ [x04; x03; x00; x08; x00; x00; x00; x51]
       ++ [x04; x03; x00; x09; x00; x00; x00; x46; x2a] ++ [x04; x03; x00; x09; x00; x00; x00; x51; x2a].
Proof.
  destruct (hexec twice (hacts [AWrite 0; AWrite 1; AWrite 0; AWrite 1] []) [] (new_conn 0 (MkTr [] [] 0 None), [], []))
    as [[es [[c' ts] lg]]|] eqn:E; [|exfalso; vm_compute in E; discriminate].
  exists twice, hsched, c', ts, lg.
  cbv zeta. pose proof (hexec_run _ _ _ _ _ _ _ (hrun_nil _ _) E) as R.
  vm_compute in E. injection E as <- <- <- <-.
  split; [eexists; split; vm_compute; reflexivity|]. split; [vm_compute; reflexivity|]. split.
  { intro q. constructor; [|constructor; [|constructor]]; eexists; (split; [reflexivity|vm_compute; discriminate]). }
  split; [|split; vm_compute; reflexivity].
  match type of R with hrun _ ?l _ _ => assert (S : story 0 (srun hsched (sstart 0 false 1)) = l) by (vm_compute; reflexivity) end.
  rewrite <- S in R. exact R.
Qed.
Print Assumptions C108_contiguous_refuted.

(** The exchange of C106, its two requests handled at the same time and answered
    in the opposite order. *)
Definition hreplies : list Request :=
  [MkRequest (MkHeader 4 3 10 81) (BBuf [xbb; xcc]) 1 3 2; MkRequest (MkHeader 4 3 9 70) (BBuf [xaa]) 1 3 1].
Example C108_ex : exists c' ts lg,
  sent 0 hserver earrived /\ length (calls (story 0 hserver)) = 2 /\ all_returned (story 0 hserver)
  /\ (forall q, In q earrived -> exists v t b, answers_with (controller_writes 4) q v t b)
  /\ hrun (controller_writes 4) (story 0 hserver) (new_conn 0 (MkTr [] [] 0 None), [], []) (c', ts, lg)
  /\ map fst lg = [1; 0]
  /\ fst (receive_all 3 (MkReader (on_wire c') [2; 9] EOF false)) = (hreplies, Some EOF)
  /\ forall m, (exists i, In (OServe m) (eprog i)) <-> In m hreplies.
Proof.
  destruct (hexec (controller_writes 4) (hacts [AWrite 1] [AWrite 0]) [] (new_conn 0 (MkTr [] [] 0 None), [], []))
    as [[es [[c' ts] lg]]|] eqn:E; [|exfalso; vm_compute in E; discriminate].
  exists c', ts, lg. pose proof (hexec_run _ _ _ _ _ _ _ (hrun_nil _ _) E) as R. vm_compute in E. injection E as <- <- <- <-.
  split; [eexists; split; vm_compute; reflexivity|]. split; [vm_compute; reflexivity|]. split; [vm_compute; reflexivity|]. split.
  { intros q [<-|[<-|[]]].
    - exists 4%N, 3%N, [xaa]. eexists _, _. split; [reflexivity|]. do 4 (split; [reflexivity|]). split; [discriminate|vm_compute; auto].
    - exists 4%N, 3%N, [xbb; xcc]. eexists _, _. split; [reflexivity|]. do 4 (split; [reflexivity|]). split; [discriminate|vm_compute; auto]. }
  split.
  { match type of R with hrun _ ?l _ _ => assert (S : story 0 hserver = l) by (vm_compute; reflexivity) end.
    rewrite <- S in R. exact R. }
  split; [vm_compute; reflexivity|]. split; [vm_compute; reflexivity|].
  intro m. split.
  - intros (i & H). destruct i as [|[|[|i]]]; cbn in H; repeat (destruct H as [H|H]); try contradiction; try discriminate;
      injection H as <-; cbn; auto.
  - intros [<-|[<-|[]]]; [exists 1|exists 2]; left; reflexivity.
Qed.
