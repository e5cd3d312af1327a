(** C79, C80: a server whose connections (and handlers) run on a worker pool. *)
From Coq Require Import Lia ZifyBool ZifyNat.
From Verif Require Import ServerFacts PoolServerModel.

(** ** Specification: what the log of a server tells *)
Definition news (l : list pevent) : list nat := flat_map (fun e => match e with VNew c => [c] | _ => [] end) l.
Definition turned (l : list pevent) : list nat := flat_map (fun e => match e with VTurned c => [c] | _ => [] end) l.
Definition starts (l : list pevent) : list nat := flat_map (fun e => match e with VStart c => [c] | _ => [] end) l.
Definition closes (l : list pevent) : list nat := flat_map (fun e => match e with VClosed c => [c] | _ => [] end) l.
Definition handles (l : list pevent) : list (nat * nat) :=
  flat_map (fun e => match e with VHandled c q => [(c, q)] | _ => [] end) l.

(** Connections reported as new and not turned away, in order. *)
Definition kept (l : list pevent) : list nat := filter (fun c => negb (existsb (Nat.eqb c) (turned l))) (news l).

(** The connections the workers are occupied with. *)
Definition served_by (k : working) : list nat :=
  match k with KServing c | KSubmit c _ => [c] | _ => [] end.
Definition occupied (s : pserver) : Prop := Forall (fun k => served_by k <> []) (wrk s).

(** No peer ends its connection. *)
Definition no_end (m : pmove) : Prop := match m with QEnd _ => False | _ => True end.

(** ** Lemmas *)
Definition serves (k : working) : bool := match k with KServing _ | KSubmit _ _ => true | _ => false end.
Definition conns_in (j : job) : bool := match j with JServe _ => true | _ => false end.
Definition waiting (l : list job) : list nat := flat_map (fun j => match j with JServe c => [c] | _ => [] end) l.
Definition holding (p : looping) : list nat := match p with PAccept => [] | PTest c _ | PPut c => [c] end.
Definition held (p : looping) : nat := match p with PPut _ => 1 | _ => 0 end.

Definition load (s : pserver) : nat := held (lp s) + tally conns_in (que s) + tally serves (wrk s).

Record sane (s : pserver) : Prop := Sane {
  sane_wrk : length (wrk s) = size s;
  sane_que : length (que s) <= size s;
  sane_cnt : pcnt s = wrap32 (Z.of_nat (load s));
  sane_kept : kept (plog s) = starts (plog s) ++ waiting (que s) ++ holding (lp s);
  sane_open : length (starts (plog s)) = length (closes (plog s)) + tally serves (wrk s);
  sane_fresh : Forall (fun c => c < nextc s) (news (plog s));
  sane_turned : forall c, In c (turned (plog s)) -> In c (news (plog s));
  sane_nodup : NoDup (news (plog s));
  sane_test : forall c n, lp s = PTest c n -> exists k, k <= 2 * size s /\ n = wrap32 (Z.of_nat k);
}.

Lemma tally_le {A} (f : A -> bool) l : tally f l <= length l.
Proof. unfold tally. induction l as [|x l IH]; cbn; [lia|]. destruct (f x); cbn; lia. Qed.

Lemma tally_waiting l : tally conns_in l = length (waiting l).
Proof. induction l as [|[c|c q] l IH]; cbn in *; auto. Qed.

Lemma qrun_inv (P : pserver -> Prop) : (forall m s s', P s -> qstep m s = Some s' -> P s') ->
  forall sch s, P s -> P (qrun sch s).
Proof.
  intros H sch. unfold qrun. induction sch as [|m sch IH]; intros s Hs; cbn [fold_left]; [exact Hs|].
  apply IH. unfold qact. destruct (qstep m s) eqn:E; [exact (H _ _ _ Hs E)|exact Hs].
Qed.

Lemma log_app l e : news (l ++ [e]) = news l ++ news [e] /\ turned (l ++ [e]) = turned l ++ turned [e]
  /\ starts (l ++ [e]) = starts l ++ starts [e] /\ closes (l ++ [e]) = closes l ++ closes [e]
  /\ handles (l ++ [e]) = handles l ++ handles [e].
Proof. repeat split; apply flat_map_app. Qed.

Lemma kept_same l e : news [e] = [] -> turned [e] = [] -> kept (l ++ [e]) = kept l.
Proof. intros H1 H2. unfold kept. destruct (log_app l e) as (-> & -> & _). rewrite H1, H2, !app_nil_r. reflexivity. Qed.

Lemma kept_new l c : ~ In c (turned l) -> kept (l ++ [VNew c]) = kept l ++ [c].
Proof.
  intro H. unfold kept. destruct (log_app l (VNew c)) as (-> & -> & _). cbn [turned news flat_map app].
  rewrite app_nil_r, filter_app. cbn [filter].
  destruct (existsb (Nat.eqb c) (turned l)) eqn:E; [|reflexivity].
  apply existsb_exists in E. destruct E as (x & E1 & E2). apply Nat.eqb_eq in E2. subst x. contradiction.
Qed.

Lemma kept_turned l c p : NoDup (news l) -> kept l = p ++ [c] -> kept (l ++ [VTurned c]) = p.
Proof.
  intros ND K.
  assert (E : kept (l ++ [VTurned c]) = filter (fun d => negb (Nat.eqb d c)) (kept l)).
  { unfold kept. destruct (log_app l (VTurned c)) as (-> & -> & _). cbn [turned news flat_map app].
    rewrite app_nil_r. clear. induction (news l) as [|d n IH]; cbn; [reflexivity|].
    rewrite existsb_app. cbn. rewrite orb_false_r. destruct (existsb (Nat.eqb d) (turned l)); cbn; [exact IH|].
    destruct (Nat.eqb d c); cbn; [exact IH|f_equal; exact IH]. }
  assert (ND' : NoDup (kept l)) by (apply NoDup_filter, ND).
  rewrite E, K in *. rewrite filter_app. cbn. rewrite Nat.eqb_refl. cbn. rewrite app_nil_r.
  apply NoDup_remove in ND'. rewrite app_nil_r in ND'. destruct ND' as (_ & NI). clear -NI.
  induction p as [|d p IH]; [reflexivity|]. cbn. destruct (Nat.eqb_spec d c) as [->|N].
  - exfalso. apply NI. left. reflexivity.
  - cbn. f_equal. apply IH. intro H. apply NI. right. exact H.
Qed.

Lemma sane_load s : sane s -> load s <= 2 * size s + held (lp s).
Proof.
  intros [A B _ _ _ _ _ _ _]. unfold load. pose proof (tally_le conns_in (que s)). pose proof (tally_le serves (wrk s)). lia.
Qed.

Ltac tallies := repeat match goal with
  | H : nth_error (wrk ?s) ?w = Some ?y |- context [tally serves (setnth ?w ?x (wrk ?s))] =>
      let T := fresh "T" in pose proof (tally_setnth serves x y (wrk s) w H) as T; cbn [serves] in T;
      set (tally serves (setnth w x (wrk s))) in *
  end.

Lemma sane_step m s s' : sane s -> qstep m s = Some s' -> sane s'.
Proof.
  intros I E. pose proof (sane_load s I) as LD.
  destruct I as [A B C D O F Tn ND TT]. unfold load in *. destruct m; cbn [qstep] in E.
  - destruct (lp s) as [|c n|c] eqn:L.
    + injection E as <-. cbn [held holding] in *. constructor; cbn [logs with_lp with_next size wrk que pcnt lp plog nextc load held holding].
      * exact A.
      * exact B.
      * exact C.
      * rewrite kept_new, D by (intro H; apply Tn in H; rewrite Forall_forall in F; apply F in H; lia).
        destruct (log_app (plog s) (VNew (nextc s))) as (_ & _ & -> & _). cbn. rewrite !app_nil_r, app_assoc. reflexivity.
      * destruct (log_app (plog s) (VNew (nextc s))) as (_ & _ & -> & -> & _). cbn. rewrite !app_nil_r. exact O.
      * destruct (log_app (plog s) (VNew (nextc s))) as (-> & _). apply Forall_app. split; [|cbn; constructor; [lia|constructor]].
        eapply Forall_impl; [|exact F]. cbn. lia.
      * intros c H. destruct (log_app (plog s) (VNew (nextc s))) as (-> & E2 & _). rewrite E2 in H. cbn in H. rewrite app_nil_r in H.
        apply in_or_app. left. apply Tn, H.
      * destruct (log_app (plog s) (VNew (nextc s))) as (-> & _). cbn.
        apply NoDup_rev in ND. rewrite <- rev_involutive, rev_app_distr. apply NoDup_rev. cbn. constructor; [|exact ND].
        rewrite <- in_rev. intro H. rewrite Forall_forall in F. apply F in H. lia.
      * intros c n H. injection H as <- <-. eexists. split; [|exact C]. cbn in LD. lia.
    + destruct (negb (lim s =? 0)%Z && (wrap32 (lim s) <=? n)%Z); injection E as <-; cbn [held holding] in *.
      * constructor; cbn [logs with_lp with_next size wrk que pcnt lp plog nextc load held holding].
        -- exact A.
        -- exact B.
        -- exact C.
        -- destruct (log_app (plog s) (VTurned c)) as (_ & _ & -> & _). cbn. rewrite !app_nil_r.
           apply kept_turned; [exact ND|]. rewrite D. apply app_assoc.
        -- destruct (log_app (plog s) (VTurned c)) as (_ & _ & -> & -> & _). cbn. rewrite !app_nil_r. exact O.
        -- destruct (log_app (plog s) (VTurned c)) as (-> & _). cbn. rewrite app_nil_r. exact F.
        -- intros d H. destruct (log_app (plog s) (VTurned c)) as (-> & E2 & _). rewrite E2 in H. cbn [news flat_map app]. rewrite app_nil_r.
           apply in_app_or in H. destruct H as [H|[<-|[]]]; [apply Tn, H|].
           assert (K : In c (kept (plog s))) by (rewrite D; rewrite !in_app_iff; cbn; auto).
           unfold kept in K. apply filter_In in K. apply K.
        -- destruct (log_app (plog s) (VTurned c)) as (-> & _). cbn. rewrite app_nil_r. exact ND.
        -- discriminate.
      * constructor; cbn [logs with_lp with_cnt with_next size wrk que pcnt lp plog nextc load held holding]; auto.
        -- unfold load. cbn [with_cnt with_lp lp held que wrk pcnt]. rewrite C, wrap32_add. f_equal. lia.
        -- discriminate.
    + destruct (Nat.ltb_spec (length (que s)) (size s)) as [Q|Q]; [|discriminate]. injection E as <-. cbn [held holding] in *.
      constructor; cbn [logs with_lp with_que with_next size wrk que pcnt lp plog nextc load held holding]; auto.
      * rewrite app_length. cbn. lia.
      * unfold load. cbn [with_lp with_que lp held que wrk pcnt]. rewrite tally_app, C. f_equal. cbn. lia.
      * rewrite D. unfold waiting. rewrite flat_map_app. cbn. rewrite !app_nil_r. reflexivity.
      * discriminate.
  - destruct (nth_error (wrk s) w) as [[| | |]|] eqn:W; try discriminate.
    destruct (que s) as [|[c|c q] l] eqn:Q; [discriminate| |]; injection E as <-.
    + destruct (log_app (plog s) (VStart c)) as (E1 & E2 & E3 & E4 & _).
      constructor; cbn [logs with_lp with_que with_wrk with_next size wrk que pcnt lp plog nextc]; rewrite ?E1, ?E2, ?E3, ?E4; cbn [news turned starts closes flat_map app]; rewrite ?app_nil_r; auto.
      * rewrite setnth_length. exact A.
      * cbn in B. lia.
      * unfold load. cbn [logs with_que with_wrk lp held que wrk pcnt]. tallies. rewrite C. f_equal.
        change (tally conns_in (JServe c :: l)) with (S (tally conns_in l)). lia.
      * rewrite kept_same by reflexivity. rewrite D. cbn. rewrite <- app_assoc. reflexivity.
      * tallies. rewrite app_length. cbn. lia.
    + constructor; cbn [logs with_lp with_que with_wrk with_next size wrk que pcnt lp plog nextc]; auto.
      * rewrite setnth_length. exact A.
      * cbn in B. lia.
      * unfold load. cbn [logs with_que with_wrk lp held que wrk pcnt]. tallies. rewrite C. f_equal.
        change (tally conns_in (JReq c q :: l)) with (tally conns_in l). lia.
      * tallies. lia.
  - destruct (nth_error (wrk s) w) as [[|c| |]|] eqn:W; try discriminate.
    destruct (shared s); injection E as <-.
    + constructor; cbn [logs with_lp with_que with_wrk with_next size wrk que pcnt lp plog nextc]; auto.
      * rewrite setnth_length. exact A.
      * unfold load. cbn [logs with_que with_wrk lp held que wrk pcnt]. tallies. rewrite C. f_equal. lia.
      * tallies. lia.
    + destruct (log_app (plog s) (VHandled c q)) as (E1 & E2 & E3 & E4 & _).
      constructor; cbn [logs with_lp with_que with_wrk with_next size wrk que pcnt lp plog nextc]; rewrite ?E1, ?E2, ?E3, ?E4; cbn [news turned starts closes flat_map app]; rewrite ?app_nil_r; auto.
      rewrite kept_same by reflexivity. exact D.
  - destruct (nth_error (wrk s) w) as [[|c|c q|]|] eqn:W; try discriminate.
    destruct (Nat.ltb_spec (length (que s)) (size s)) as [Q|Q]; [|discriminate]. injection E as <-.
    constructor; cbn [logs with_lp with_que with_wrk with_next size wrk que pcnt lp plog nextc]; auto.
    + rewrite setnth_length. exact A.
    + rewrite app_length. cbn. lia.
    + unfold load. cbn [logs with_que with_wrk lp held que wrk pcnt]. tallies. rewrite tally_app, C. f_equal. cbn. lia.
    + unfold waiting. rewrite flat_map_app. cbn. rewrite app_nil_r. exact D.
    + tallies. lia.
  - destruct (nth_error (wrk s) w) as [[|c| |c q]|] eqn:W; try discriminate. injection E as <-.
    destruct (log_app (plog s) (VHandled c q)) as (E1 & E2 & E3 & E4 & _).
    constructor; cbn [logs with_lp with_que with_wrk with_next size wrk que pcnt lp plog nextc]; rewrite ?E1, ?E2, ?E3, ?E4; cbn [news turned starts closes flat_map app]; rewrite ?app_nil_r; auto.
    + rewrite setnth_length. exact A.
    + unfold load. cbn [logs with_que with_wrk lp held que wrk pcnt]. tallies. rewrite C. f_equal. lia.
    + rewrite kept_same by reflexivity. exact D.
    + tallies. lia.
  - destruct (nth_error (wrk s) w) as [[|c| |]|] eqn:W; try discriminate. injection E as <-.
    destruct (log_app (plog s) (VClosed c)) as (E1 & E2 & E3 & E4 & _).
    constructor; cbn [logs with_lp with_que with_wrk with_cnt with_next size wrk que pcnt lp plog nextc]; rewrite ?E1, ?E2, ?E3, ?E4; cbn [news turned starts closes flat_map app]; rewrite ?app_nil_r; auto.
    + rewrite setnth_length. exact A.
    + unfold load. cbn [logs with_que with_wrk with_cnt lp held que wrk pcnt]. tallies. rewrite C.
      replace (wrap32 (Z.of_nat (held (lp s) + tally conns_in (que s) + tally serves (wrk s))) - 1)%Z
        with (wrap32 (Z.of_nat (held (lp s) + tally conns_in (que s) + tally serves (wrk s))) + -1)%Z by lia.
      rewrite wrap32_add. f_equal. lia.
    + rewrite kept_same by reflexivity. exact D.
    + tallies. rewrite app_length. cbn. lia.
Qed.

Lemma tally_idle n : tally serves (repeat KIdle n) = 0.
Proof. unfold tally. induction n; cbn; auto. Qed.

Lemma sane_start n mx sh : sane (pstart n mx sh).
Proof.
  unfold pstart. constructor; cbn [size wrk que pcnt lp plog nextc]; auto.
  - apply repeat_length.
  - cbn. lia.
  - unfold load. cbn [lp held que wrk pcnt]. rewrite tally_idle. reflexivity.
  - rewrite tally_idle. reflexivity.
  - constructor.
  - constructor.
  - discriminate.
Qed.

Lemma sane_run n mx sh sch : sane (qrun sch (pstart n mx sh)).
Proof. apply (qrun_inv sane sane_step), sane_start. Qed.

Lemma constants sch s : size (qrun sch s) = size s /\ lim (qrun sch s) = lim s /\ shared (qrun sch s) = shared s.
Proof.
  apply (qrun_inv (fun s' => size s' = size s /\ lim s' = lim s /\ shared s' = shared s)); [|auto].
  intros m t t' H E. rewrite <- (proj1 H), <- (proj1 (proj2 H)), <- (proj2 (proj2 H)). clear H.
  destruct m; cbn [qstep] in E;
    repeat match type of E with
    | context [match ?x with _ => _ end] => destruct x eqn:?; try discriminate
    end; injection E as <-; cbn; auto.
Qed.

(** ** C79: one pool for the connections *)

(** At every moment at most [n] connections are being served, and at most
    [2n+1] are accepted and neither turned away nor closed (in any of which the
    user has been told StateNew). *)
Theorem C79_bounds : forall n mx sh sch, let l := plog (qrun sch (pstart n mx sh)) in
  length (starts l) <= length (closes l) + n
  /\ length (kept l) <= length (closes l) + 2 * n + 1.
Proof.
  intros n mx sh sch l. pose proof (sane_run n mx sh sch) as I. destruct (constants sch (pstart n mx sh)) as (Z & _).
  cbn [pstart size] in Z. unfold l. set (s := qrun sch (pstart n mx sh)) in *. clearbody s. clear l sch.
  destruct I as [A B C D O F Tn ND TT]. pose proof (tally_le serves (wrk s)). pose proof (tally_le conns_in (que s)) as T.
  split; [lia|]. rewrite D, !app_length, <- tally_waiting, O.
  assert (length (holding (lp s)) <= 1) by (destruct (lp s); cbn; lia). lia.
Qed.
Print Assumptions C79_bounds.

(** Connections are served in the order in which they were accepted. *)
Theorem C79_in_order : forall n mx sh sch, let l := plog (qrun sch (pstart n mx sh)) in
  begins (starts l) (kept l) /\ NoDup (starts l).
Proof.
  intros n mx sh sch l. pose proof (sane_run n mx sh sch) as [A B C D O F Tn ND TT]. fold l in D, ND.
  split; [eexists; symmetry; exact D|].
  assert (N : NoDup (kept l)) by (apply NoDup_filter, ND). rewrite D in N.
  revert N. generalize (waiting (que (qrun sch (pstart n mx sh))) ++ holding (lp (qrun sch (pstart n mx sh)))). clear.
  intros t N. induction (starts l) as [|x k IH]; [constructor|]. cbn in N. inversion N as [|? ? H1 H2]; subst.
  constructor; [|apply IH, H2]. intro H. apply H1. apply in_or_app. auto.
Qed.
Print Assumptions C79_in_order.

(** MaxConns above [2n] never turns anybody away: the accept loop stops before
    the count can reach it; who comes later is neither served nor refused. *)
Theorem C79_limit_never_reached : forall n mx sh sch,
  (mx = 0 \/ Z.of_nat (2 * n) < wrap32 mx)%Z -> (Z.of_nat (2 * n) < 2147483648)%Z ->
  turned (plog (qrun sch (pstart n mx sh))) = [].
Proof.
  intros n mx sh sch M N.
  assert (G : let s := qrun sch (pstart n mx sh) in
    (sane s /\ size s = n /\ lim s = mx) /\ turned (plog s) = []).
  { apply (qrun_inv (fun s => (sane s /\ size s = n /\ lim s = mx) /\ turned (plog s) = [])).
    - intros m s s' ((I & Z & L) & T) E. split.
      + split; [exact (sane_step _ _ _ I E)|].
        assert (E' : qrun [m] s = s') by (unfold qrun, qact; cbn; rewrite E; reflexivity).
        destruct (constants [m] s) as (K1 & K2 & _). rewrite E' in K1, K2. split; congruence.
      + destruct m; cbn [qstep] in E.
        * destruct (lp s) as [|c k|c] eqn:P.
          -- injection E as <-. cbn [plog logs with_lp with_next].
             destruct (log_app (plog s) (VNew (nextc s))) as (_ & -> & _). rewrite T. reflexivity.
          -- destruct (sane_test s I c k P) as (j & J1 & J2).
             rewrite wrap32_small in J2 by lia.
             assert (X : negb (lim s =? 0)%Z && (wrap32 (lim s) <=? k)%Z = false).
             { rewrite L. destruct M as [->|M]; [reflexivity|]. apply andb_false_iff. right. lia. }
             rewrite X in E. injection E as <-. exact T.
          -- destruct (length (que s) <? size s); [|discriminate]. injection E as <-. exact T.
        * destruct (nth_error (wrk s) w) as [[| | |]|]; try discriminate.
          destruct (que s) as [|[c|c q] l]; try discriminate; injection E as <-; [|exact T].
          cbn [plog logs with_que with_wrk]. destruct (log_app (plog s) (VStart c)) as (_ & -> & _). rewrite T. reflexivity.
        * destruct (nth_error (wrk s) w) as [[|c| |]|]; try discriminate.
          destruct (shared s); injection E as <-; [exact T|].
          cbn [plog logs]. destruct (log_app (plog s) (VHandled c q)) as (_ & -> & _). rewrite T. reflexivity.
        * destruct (nth_error (wrk s) w) as [[| |c q|]|]; try discriminate.
          destruct (length (que s) <? size s); [|discriminate]. injection E as <-. exact T.
        * destruct (nth_error (wrk s) w) as [[| | |c q]|]; try discriminate. injection E as <-.
          cbn [plog logs with_wrk]. destruct (log_app (plog s) (VHandled c q)) as (_ & -> & _). rewrite T. reflexivity.
        * destruct (nth_error (wrk s) w) as [[|c| |]|]; try discriminate. injection E as <-.
          cbn [plog logs with_wrk with_cnt]. destruct (log_app (plog s) (VClosed c)) as (_ & -> & _). rewrite T. reflexivity.
    - split; [split; [apply sane_start|auto]|reflexivity]. }
  apply G.
Qed.
Print Assumptions C79_limit_never_reached.

(** Starvation: while the connections that occupy the workers stay open, no other
    connection is served, whatever its peer sends and however long it waits;
    only requests of those connections are handled. *)
Definition only_these (s t : pserver) : Prop :=
  Forall2 (fun k k' => served_by k' = served_by k /\ served_by k <> []) (wrk s) (wrk t)
  /\ starts (plog t) = starts (plog s)
  /\ exists h, handles (plog t) = handles (plog s) ++ h
      /\ Forall (fun cq => exists k, In k (wrk s) /\ served_by k = [fst cq]) h.

Lemma Forall2_set {A} (R : A -> A -> Prop) x : forall l l' w y, Forall2 R l l' -> nth_error l' w = Some y ->
  (forall z, R z y -> R z x) -> Forall2 R l (setnth w x l').
Proof.
  induction l as [|a l IH]; intros l' w y H N X; inversion H as [|? b ? r HR HT]; subst; [destruct w; discriminate|].
  destruct w as [|w]; cbn in *; [injection N as ->; constructor; auto|]. constructor; [exact HR|]. eapply IH; eauto.
Qed.

Lemma Forall2_nth {A} (R : A -> A -> Prop) : forall l l' w y, Forall2 R l l' -> nth_error l' w = Some y ->
  exists x, In x l /\ R x y.
Proof.
  induction l as [|a l IH]; intros l' w y H N; inversion H as [|? b ? r HR HT]; subst; [destruct w; discriminate|].
  destruct w as [|w]; cbn in N; [injection N as <-; exists a; split; [left; reflexivity|exact HR]|].
  destruct (IH _ _ _ HT N) as (x & I & X). exists x. split; [right; exact I|exact X].
Qed.

Lemma quiet_step s t t' m : only_these s t -> no_end m -> qstep m t = Some t' -> only_these s t'.
Proof.
  intros (F & S1 & h & H1 & H2) NE E. destruct m; cbn [qstep] in E; try contradiction.
  - assert (K : wrk t' = wrk t /\ starts (plog t') = starts (plog t) /\ handles (plog t') = handles (plog t)).
    { destruct (lp t) as [|c n|c].
      - injection E as <-. cbn [logs with_lp with_next with_cnt with_wrk with_que wrk plog]. destruct (log_app (plog t) (VNew (nextc t))) as (_ & _ & -> & _ & ->). cbn. rewrite !app_nil_r. auto.
      - destruct (negb (lim t =? 0)%Z && (wrap32 (lim t) <=? n)%Z); injection E as <-; cbn [logs with_lp with_next with_cnt with_wrk with_que wrk plog]; [|auto].
        destruct (log_app (plog t) (VTurned c)) as (_ & _ & -> & _ & ->). cbn. rewrite !app_nil_r. auto.
      - destruct (length (que t) <? size t); [|discriminate]. injection E as <-. cbn. auto. }
    destruct K as (K1 & K2 & K3). split; [rewrite K1; exact F|]. split; [congruence|]. exists h. split; [congruence|exact H2].
  - exfalso. destruct (nth_error (wrk t) w) as [[| | |]|] eqn:W; try discriminate.
    destruct (Forall2_nth _ _ _ _ _ F W) as (x & _ & X1 & X2). cbn in X1. congruence.
  - destruct (nth_error (wrk t) w) as [[|c| |]|] eqn:W; try discriminate.
    destruct (Forall2_nth _ _ _ _ _ F W) as (x & X0 & X1 & X2). cbn in X1.
    destruct (shared t); injection E as <-.
    + split; [|split; [exact S1|exists h; auto]]. cbn [with_wrk wrk].
      apply (Forall2_set _ _ _ _ _ _ F W). cbn. intros z (Z1 & Z2). auto.
    + cbn [logs wrk plog]. split; [exact F|]. destruct (log_app (plog t) (VHandled c q)) as (_ & _ & E3 & _ & E5).
      cbn [logs plog]. rewrite E3, E5. cbn. rewrite !app_nil_r. split; [exact S1|]. exists (h ++ [(c, q)]).
      rewrite H1. split; [symmetry; apply app_assoc|]. apply Forall_app. split; [exact H2|].
      constructor; [|constructor]. exists x. auto.
  - destruct (nth_error (wrk t) w) as [[| |c q|]|] eqn:W; try discriminate.
    destruct (length (que t) <? size t); [|discriminate]. injection E as <-.
    split; [|split; [exact S1|exists h; auto]]. cbn [with_wrk with_que wrk].
    apply (Forall2_set _ _ _ _ _ _ F W). cbn. intros z (Z1 & Z2). auto.
  - exfalso. destruct (nth_error (wrk t) w) as [[| | |c q]|] eqn:W; try discriminate.
    destruct (Forall2_nth _ _ _ _ _ F W) as (x & _ & X1 & X2). cbn in X1. congruence.
Qed.

Lemma quiet_run s sch : occupied s -> Forall no_end sch -> only_these s (qrun sch s).
Proof.
  intros O N. assert (G : forall t, only_these s t -> only_these s (qrun sch t)).
  { induction N as [|m sch Hm _ IH]; intros t T; [exact T|]. cbn [qrun fold_left]. apply IH. unfold qact.
    destruct (qstep m t) eqn:E; [exact (quiet_step s t _ m T Hm E)|exact T]. }
  apply G. split; [|split; [reflexivity|exists []; rewrite app_nil_r; auto]].
  unfold occupied in O. induction O; constructor; auto.
Qed.

Theorem C79_starved : forall s sch, occupied s -> Forall no_end sch ->
  starts (plog (qrun sch s)) = starts (plog s)
  /\ exists h, handles (plog (qrun sch s)) = handles (plog s) ++ h
      /\ Forall (fun cq => exists k, In k (wrk s) /\ served_by k = [fst cq]) h.
Proof. intros s sch O N. apply (quiet_run s sch O N). Qed.
Print Assumptions C79_starved.

(** Nothing else keeps a connection waiting: if a worker is free and no move of
    the loop's submission or of a free worker is possible, nobody waits. *)
Theorem C79_no_waiting : forall n mx sch w, let s := qrun sch (pstart n mx false) in
  nth_error (wrk s) w = Some KIdle -> (forall v, qstep (QTake v) s = None) ->
  (forall c, lp s = PPut c -> qstep QLoop s = None) ->
  que s = [] /\ forall c, lp s <> PPut c.
Proof.
  intros n mx sch w s W T L.
  assert (Q : que s = []).
  { specialize (T w). cbn [qstep] in T. rewrite W in T. destruct (que s) as [|[c|c q] l]; [reflexivity|discriminate|discriminate]. }
  split; [exact Q|]. intros c P. specialize (L c P). cbn [qstep] in L. rewrite P, Q in L. cbn [length] in L.
  destruct (Nat.ltb_spec 0 (size s)) as [H|H]; [discriminate|].
  pose proof (sane_wrk s (sane_run n mx false sch)) as X. apply nth_error_lt in W. lia.
Qed.
Print Assumptions C79_no_waiting.

(** With [n] workers and no limit: [n] peers that stay silent keep every later
    connection from being served for ever, although it was accepted. *)
Definition one_more (w : nat) : list pmove := [QLoop; QLoop; QLoop; QTake w].

Lemma act_accept n mx sh z q w nx l :
  qact (MkPServer n mx sh z PAccept q w nx l) QLoop = MkPServer n mx sh z (PTest nx z) q w (S nx) (l ++ [VNew nx]).
Proof. reflexivity. Qed.

Lemma act_count n mx sh z c k q w nx l : negb (mx =? 0)%Z && (wrap32 mx <=? k)%Z = false ->
  qact (MkPServer n mx sh z (PTest c k) q w nx l) QLoop = MkPServer n mx sh (wrap32 (z + 1)) (PPut c) q w nx l.
Proof. intro H. unfold qact. cbn [qstep lp lim]. rewrite H. reflexivity. Qed.

Lemma act_put n mx sh z c q w nx l : length q < n ->
  qact (MkPServer n mx sh z (PPut c) q w nx l) QLoop = MkPServer n mx sh z PAccept (q ++ [JServe c]) w nx l.
Proof. intro H. unfold qact. cbn [qstep lp que size]. apply Nat.ltb_lt in H. rewrite H. reflexivity. Qed.

Lemma act_take n mx sh z p c q w nx l i : nth_error w i = Some KIdle ->
  qact (MkPServer n mx sh z p (JServe c :: q) w nx l) (QTake i)
  = MkPServer n mx sh z p q (setnth i (KServing c) w) nx (l ++ [VStart c]).
Proof. intro H. unfold qact. cbn [qstep wrk que]. rewrite H. reflexivity. Qed.

Lemma act_msg n mx z p q w nx l i c r : nth_error w i = Some (KServing c) ->
  qact (MkPServer n mx true z p q w nx l) (QMsg i r) = MkPServer n mx true z p q (setnth i (KSubmit c r) w) nx l.
Proof. intro H. unfold qact. cbn [qstep wrk]. rewrite H. reflexivity. Qed.

Lemma act_submit n mx sh z p q w nx l i c r : nth_error w i = Some (KSubmit c r) -> length q < n ->
  qact (MkPServer n mx sh z p q w nx l) (QSubmit i) = MkPServer n mx sh z p (q ++ [JReq c r]) (setnth i (KServing c) w) nx l.
Proof. intros H L. unfold qact. cbn [qstep wrk que size]. rewrite H. apply Nat.ltb_lt in L. rewrite L. reflexivity. Qed.

Lemma fill n mx sh : (mx = 0 \/ Z.of_nat n < wrap32 mx)%Z -> (Z.of_nat n < 2147483648)%Z -> forall k, k <= n ->
  exists l, qrun (flat_map one_more (seq 0 k)) (pstart n mx sh)
    = MkPServer n mx sh (Z.of_nat k) PAccept [] (map KServing (seq 0 k) ++ repeat KIdle (n - k)) k l
    /\ starts l = seq 0 k /\ handles l = [] /\ closes l = [].
Proof.
  intros M N. induction k as [|k IH]; intro K.
  - exists []. unfold pstart. rewrite Nat.sub_0_r. auto.
  - destruct (IH ltac:(lia)) as (l & E & S1 & S2 & S3). exists (l ++ [VNew k; VStart k]).
    rewrite seq_S, flat_map_app. unfold qrun in *. rewrite fold_left_app, E. cbn [flat_map app Nat.add].
    clear E. cbn [one_more fold_left app]. rewrite act_accept.
    assert (X : negb (mx =? 0)%Z && (wrap32 mx <=? Z.of_nat k)%Z = false).
    { destruct M as [->|M]; [reflexivity|]. apply andb_false_iff. right. lia. }
    rewrite act_count by exact X. rewrite act_put by (cbn; lia). cbn [app].
    destruct (n - k) as [|d] eqn:D; [lia|]. cbn [repeat].
    assert (LN : length (map KServing (seq 0 k)) = k) by (rewrite map_length, seq_length; reflexivity).
    assert (NM : nth_error (map KServing (seq 0 k) ++ KIdle :: repeat KIdle d) k = Some KIdle).
    { rewrite <- LN at 2. apply nth_error_mid. }
    rewrite act_take by exact NM.
    split; [|split; [|split]].
    + f_equal.
      * rewrite wrap32_small by lia. lia.
      * rewrite <- LN at 1. rewrite setnth_mid. rewrite map_app, <- app_assoc. cbn. f_equal. f_equal. f_equal. lia.
      * rewrite <- app_assoc. reflexivity.
    + unfold starts in *. rewrite flat_map_app, S1. reflexivity.
    + unfold handles in *. rewrite flat_map_app, S2. reflexivity.
    + unfold closes in *. rewrite flat_map_app, S3. reflexivity.
Qed.

Theorem C79_starvation_refuted : forall n, 0 < n -> (Z.of_nat n < 2147483648)%Z -> exists sch,
  let s := qrun sch (pstart n 0 false) in
  occupied s /\ starts (plog s) = seq 0 n
  /\ In n (kept (plog (qrun (repeat QLoop 3) s)))
  /\ forall later, Forall no_end later -> ~ In n (starts (plog (qrun later (qrun (repeat QLoop 3) s)))).
Proof.
  intros n P N. exists (flat_map one_more (seq 0 n)).
  destruct (fill n 0 false (or_introl eq_refl) N n (le_n n)) as (l & E & S1 & _). cbv zeta. rewrite E.
  rewrite Nat.sub_diag, app_nil_r.
  assert (O : forall c q lo nx g, occupied (MkPServer n 0 false c lo q (map KServing (seq 0 n)) nx g)).
  { intros. unfold occupied. cbn [wrk]. rewrite Forall_map. apply Forall_forall. intros x _. discriminate. }
  split; [apply O|]. split; [exact S1|].
  set (s := MkPServer n 0 false (Z.of_nat n) PAccept [] (map KServing (seq 0 n)) n l) in *.
  assert (R : qrun (repeat QLoop 3) s
    = MkPServer n 0 false (wrap32 (Z.of_nat n + 1)) PAccept [JServe n] (map KServing (seq 0 n)) (S n) (l ++ [VNew n])).
  { unfold s, qrun. cbn [repeat fold_left]. rewrite act_accept, act_count by reflexivity.
    rewrite act_put by (cbn; lia). reflexivity. }
  pose proof (sane_run n 0 false (flat_map one_more (seq 0 n) ++ repeat QLoop 3)) as I.
  unfold qrun in I. rewrite fold_left_app in I. fold (qrun (flat_map one_more (seq 0 n)) (pstart n 0 false)) in I.
  rewrite E, Nat.sub_diag, app_nil_r in I. fold s in I. fold (qrun (repeat QLoop 3) s) in I. rewrite R in *.
  assert (St : starts (l ++ [VNew n]) = seq 0 n).
  { destruct (log_app l (VNew n)) as (_ & _ & -> & _). cbn. rewrite app_nil_r. exact S1. }
  split.
  - rewrite (sane_kept _ I). cbn [plog que waiting flat_map app]. apply in_or_app. right. left. reflexivity.
  - intros later NL. match goal with |- ~ In n (starts (plog (qrun later ?x))) => destruct (C79_starved x later (O _ _ _ _ _) NL) as (-> & _) end.
    cbn [plog]. rewrite St, in_seq. lia.
Qed.
Print Assumptions C79_starvation_refuted.

Example C79_ex :
  let sch := [QLoop; QLoop; QLoop; QTake 1; QLoop; QLoop; QLoop; QTake 0; QLoop; QLoop; QLoop; QMsg 1 7; QLoop; QLoop; QLoop;
              QLoop; QLoop; QLoop; QTake 1; QEnd 0; QTake 0; QMsg 0 8] in
  let s := qrun sch (pstart 2 5 false) in
  plog s = [VNew 0; VStart 0; VNew 1; VStart 1; VNew 2; VHandled 0 7; VNew 3; VNew 4; VClosed 1; VStart 2; VHandled 2 8]
  /\ kept (plog s) = [0; 1; 2; 3; 4] /\ starts (plog s) = [0; 1; 2] /\ occupied s.
Proof. split; [vm_compute; reflexivity|]. split; [vm_compute; reflexivity|]. split; [vm_compute; reflexivity|]. vm_compute. repeat constructor; discriminate. Qed.

(** ** C80: the same pool for connections and handlers *)

(** As soon as all workers serve connections, no request is handled any more
    while these stay open. *)
Theorem C80_no_handler : forall s sch, shared s = true -> occupied s -> Forall no_end sch ->
  handles (plog (qrun sch s)) = handles (plog s).
Proof.
  intros s sch Sh O N.
  assert (G : forall t, only_these s t -> shared t = true -> handles (plog (qrun sch t)) = handles (plog t)).
  { induction N as [|m sch Hm _ IH]; intros t T St; [reflexivity|]. cbn [qrun fold_left]. unfold qact at 2.
    destruct (qstep m t) as [t'|] eqn:E; [|exact (IH t T St)].
    pose proof (quiet_step s t t' m T Hm E) as T'.
    assert (E' : qrun [m] t = t') by (unfold qrun, qact; cbn; rewrite E; reflexivity).
    destruct (constants [m] t) as (_ & _ & K3). rewrite E' in K3.
    fold (qrun sch t'). rewrite (IH t' T' ltac:(congruence)). clear IH.
    destruct m; cbn [qstep] in E; try contradiction.
    - destruct (lp t) as [|c n|c].
      + injection E as <-. cbn [logs with_lp with_next with_cnt with_wrk with_que wrk plog]. destruct (log_app (plog t) (VNew (nextc t))) as (_ & _ & _ & _ & ->). apply app_nil_r.
      + destruct (negb (lim t =? 0)%Z && (wrap32 (lim t) <=? n)%Z); injection E as <-; cbn [logs with_lp with_next with_cnt with_wrk with_que wrk plog]; [|auto].
        destruct (log_app (plog t) (VTurned c)) as (_ & _ & _ & _ & ->). apply app_nil_r.
      + destruct (length (que t) <? size t); [|discriminate]. injection E as <-. reflexivity.
    - destruct (nth_error (wrk t) w) as [[| | |]|] eqn:W; try discriminate.
      destruct (Forall2_nth _ _ _ _ _ (proj1 T) W) as (x & _ & X1 & X2). cbn in X1. congruence.
    - destruct (nth_error (wrk t) w) as [[|c| |]|] eqn:W; try discriminate. rewrite St in E. injection E as <-. reflexivity.
    - destruct (nth_error (wrk t) w) as [[| |c q|]|] eqn:W; try discriminate.
      destruct (length (que t) <? size t); [|discriminate]. injection E as <-. reflexivity.
    - destruct (nth_error (wrk t) w) as [[| | |c q]|] eqn:W; try discriminate.
      destruct (Forall2_nth _ _ _ _ _ (proj1 T) W) as (x & _ & X1 & X2). cbn in X1. congruence. }
  apply G; [|exact Sh]. apply (quiet_run s [] O). constructor.
Qed.
Print Assumptions C80_no_handler.

(** A server in which every worker waits for a place in the full queue is dead:
    nothing is handled, closed or started ever again, even if peers hang up. *)
Definition dead (s : pserver) : Prop :=
  Forall (fun k => exists c q, k = KSubmit c q) (wrk s) /\ length (que s) = size s.

Lemma dead_step m s s' : dead s -> qstep m s = Some s' ->
  dead s' /\ starts (plog s') = starts (plog s) /\ handles (plog s') = handles (plog s) /\ closes (plog s') = closes (plog s).
Proof.
  intros (F & Q) E. rewrite Forall_forall in F.
  assert (G : forall w k, nth_error (wrk s) w = Some k -> exists c q, k = KSubmit c q).
  { intros w k H. apply F. eapply nth_error_In; exact H. }
  destruct m; cbn [qstep] in E.
  - destruct (lp s) as [|c n|c].
    + injection E as <-. split; [split; [apply Forall_forall; exact F|exact Q]|]. cbn [logs with_lp with_next with_cnt with_wrk with_que wrk plog].
      destruct (log_app (plog s) (VNew (nextc s))) as (_ & _ & -> & -> & ->). cbn. rewrite !app_nil_r. auto.
    + destruct (negb (lim s =? 0)%Z && (wrap32 (lim s) <=? n)%Z); injection E as <-;
        (split; [split; [apply Forall_forall; exact F|exact Q]|]); cbn [logs with_lp with_next with_cnt with_wrk with_que wrk plog]; [|auto].
      destruct (log_app (plog s) (VTurned c)) as (_ & _ & -> & -> & ->). cbn. rewrite !app_nil_r. auto.
    + rewrite Q, Nat.ltb_irrefl in E. discriminate.
  - destruct (nth_error (wrk s) w) as [k|] eqn:W; [|discriminate]. destruct (G _ _ W) as (c & q & ->). discriminate.
  - destruct (nth_error (wrk s) w) as [k|] eqn:W; [|discriminate]. destruct (G _ _ W) as (c & r & ->). discriminate.
  - destruct (nth_error (wrk s) w) as [k|] eqn:W; [|discriminate]. destruct (G _ _ W) as (c & q & ->).
    rewrite Q, Nat.ltb_irrefl in E. discriminate.
  - destruct (nth_error (wrk s) w) as [k|] eqn:W; [|discriminate]. destruct (G _ _ W) as (c & q & ->). discriminate.
  - destruct (nth_error (wrk s) w) as [k|] eqn:W; [|discriminate]. destruct (G _ _ W) as (c & q & ->). discriminate.
Qed.

Theorem C80_dead_for_ever : forall s sch, dead s ->
  starts (plog (qrun sch s)) = starts (plog s) /\ handles (plog (qrun sch s)) = handles (plog s)
  /\ closes (plog (qrun sch s)) = closes (plog s).
Proof.
  intros s sch D.
  assert (G : dead (qrun sch s) /\ starts (plog (qrun sch s)) = starts (plog s)
    /\ handles (plog (qrun sch s)) = handles (plog s) /\ closes (plog (qrun sch s)) = closes (plog s)).
  { apply (qrun_inv (fun t => dead t /\ starts (plog t) = starts (plog s)
      /\ handles (plog t) = handles (plog s) /\ closes (plog t) = closes (plog s))); [|auto].
    intros m t t' (D' & E1 & E2 & E3) E. destruct (dead_step m t t' D' E) as (D2 & F1 & F2 & F3).
    split; [exact D2|]. split; [|split]; congruence. }
  apply G.
Qed.
Print Assumptions C80_dead_for_ever.

(** Every pool gets there: one connection per worker, two requests on each; no
    request of any of them was handled. *)
Lemma first_requests n mx : forall k l, k <= n ->
  qrun (flat_map (fun w => [QMsg w 0; QSubmit w]) (seq 0 k))
    (MkPServer n mx true (Z.of_nat n) PAccept [] (map KServing (seq 0 n)) n l)
  = MkPServer n mx true (Z.of_nat n) PAccept (map (fun c => JReq c 0) (seq 0 k)) (map KServing (seq 0 n)) n l.
Proof.
  induction k as [|k IH]; intros l K; [reflexivity|].
  rewrite seq_S, flat_map_app. unfold qrun in *. rewrite fold_left_app, IH by lia. cbn [flat_map app fold_left Nat.add].
  assert (NK : nth_error (map KServing (seq 0 n)) k = Some (KServing k)).
  { rewrite nth_error_map, (nth_error_nth' _ 0) by (rewrite seq_length; lia). rewrite seq_nth by lia. reflexivity. }
  rewrite (act_msg _ _ _ _ _ _ _ _ _ _ _ NK).
  rewrite (act_submit _ _ _ _ _ _ _ _ _ k k 0).
  2: { apply setnth_same. rewrite map_length, seq_length. lia. }
  2: { rewrite map_length, seq_length. lia. }
  rewrite setnth_setnth, setnth_id by exact NK. rewrite map_app. reflexivity.
Qed.

Lemma second_requests n mx q l : forall k, k <= n ->
  qrun (map (fun w => QMsg w 1) (seq 0 k))
    (MkPServer n mx true (Z.of_nat n) PAccept q (map KServing (seq 0 n)) n l)
  = MkPServer n mx true (Z.of_nat n) PAccept q (map (fun c => KSubmit c 1) (seq 0 k) ++ map KServing (seq k (n - k))) n l.
Proof.
  induction k as [|k IH]; intro K; [rewrite Nat.sub_0_r; reflexivity|].
  rewrite seq_S, map_app. unfold qrun in *. rewrite fold_left_app, IH by lia. cbn [map fold_left Nat.add].
  destruct (n - k) as [|d] eqn:D; [lia|]. replace (n - S k) with d by lia. cbn [seq map].
  assert (LN : length (map (fun c => KSubmit c 1) (seq 0 k)) = k) by (rewrite map_length, seq_length; reflexivity).
  assert (NM : nth_error (map (fun c => KSubmit c 1) (seq 0 k) ++ KServing k :: map KServing (seq (S k) d)) k = Some (KServing k)).
  { transitivity (nth_error (map (fun c => KSubmit c 1) (seq 0 k) ++ KServing k :: map KServing (seq (S k) d)) (length (map (fun c => KSubmit c 1) (seq 0 k)))); [rewrite LN; reflexivity|apply nth_error_mid]. }
  rewrite (act_msg _ _ _ _ _ _ _ _ _ _ _ NM). f_equal.
  rewrite <- LN at 1. rewrite setnth_mid. rewrite map_app, <- app_assoc. reflexivity.
Qed.

Theorem C80_deadlock_refuted : forall n mx, 0 < n -> (Z.of_nat n < 2147483648)%Z ->
  (mx = 0 \/ Z.of_nat n < wrap32 mx)%Z ->
  exists sch, let s := qrun sch (pstart n mx true) in
  dead s /\ starts (plog s) = seq 0 n /\ handles (plog s) = [] /\ closes (plog s) = [].
Proof.
  intros n mx P N M.
  exists (flat_map one_more (seq 0 n) ++ flat_map (fun w => [QMsg w 0; QSubmit w]) (seq 0 n) ++ map (fun w => QMsg w 1) (seq 0 n)).
  destruct (fill n mx true M N n (le_n n)) as (l & E & S1 & S2 & S3). cbv zeta. unfold qrun in *. rewrite !fold_left_app, E.
  rewrite Nat.sub_diag, app_nil_r.
  pose proof (first_requests n mx n l (le_n n)) as F. unfold qrun in F. rewrite F.
  pose proof (second_requests n mx (map (fun c => JReq c 0) (seq 0 n)) l n (le_n n)) as G. unfold qrun in G. rewrite G.
  rewrite Nat.sub_diag. cbn [seq map plog]. rewrite app_nil_r. split; [|auto]. split; cbn [wrk que size].
  - rewrite Forall_map. apply Forall_forall. eauto.
  - rewrite map_length, seq_length. reflexivity.
Qed.
Print Assumptions C80_deadlock_refuted.

Example C80_ex :
  let sch := [QLoop; QLoop; QLoop; QTake 0; QMsg 0 5; QSubmit 0; QMsg 0 6; QEnd 0; QTake 0; QLoop; QLoop; QLoop] in
  let s := qrun sch (pstart 1 0 true) in
  dead s /\ plog s = [VNew 0; VStart 0; VNew 1] /\ que s = [JReq 0 5] /\ lp s = PPut 1
  /\ handles (plog (qrun [QLoop; QLoop; QLoop; QTake 0; QMsg 0 5; QSubmit 0; QTake 1; QDone 1] (pstart 2 0 true))) = [(0, 5)].
Proof. vm_compute. repeat split; try reflexivity. repeat constructor. exists 0, 6. reflexivity. Qed.
