(** Invariant of the test server when CloseClientConnections is not called directly. *)
From Coq Require Import Permutation.
From Verif Require Export TestServerModel.

(** The connections recorded are those accepted, but for the one in hand. *)
Definition book (s : tserver) : Prop :=
  match accepting s with
  | AGot c => fresh s = S c /\ recorded s = seq 0 c
  | _ => recorded s = seq 0 (fresh s)
  end.

(** How far closing has come.  [r0]: connections recorded at some earlier time.
    [tmo]: timeouts may have happened. *)
Inductive phase (r0 : nat) (tmo : bool) (s : tserver) : Prop :=
| Ph0 : tclosed s = false -> owner s = None -> (forall j, closes s j = CStart) ->
    pending s = [] -> shut s = [] -> listening s = true -> r0 <= length (recorded s) -> phase r0 tmo s
| Ph1 i : tclosed s = true -> owner s = Some i -> closes s i = CLocked -> (forall j, j <> i -> closes s j = CStart) ->
    pending s = [] -> shut s = [] -> r0 <= length (recorded s) -> phase r0 tmo s
| Ph2 i : tclosed s = true -> owner s = Some i -> closes s i = CSpawn -> (forall j, j <> i -> closes s j = CStart) ->
    pending s = [] -> shut s = [] -> listening s = false -> r0 <= length (recorded s) -> phase r0 tmo s
| Ph3 i w : tclosed s = true -> owner s = Some i -> closes s i = CWaiting w -> (forall j, j <> i -> closes s j = CStart) ->
    Permutation (shut s ++ pending s) (recorded s) -> acks s + length (pending s) = w ->
    listening s = false -> r0 <= length (recorded s) -> phase r0 tmo s
| Ph4 m i : tclosed s = true -> owner s = None -> (forall j, closes s j = CStart \/ closes s j = CReturned) ->
    closes s i = CReturned ->
    Permutation (shut s ++ pending s) (seq 0 m) -> (tmo = false -> pending s = []) ->
    listening s = false -> m <= length (recorded s) -> fresh s <= S m -> r0 <= m -> phase r0 tmo s.

Definition inv (r0 : nat) (tmo : bool) (s : tserver) : Prop := raced s = false /\ book s /\ phase r0 tmo s.

Definition no_timeout (m : tmove) : Prop := match m with TTimeout _ => False | _ => True end.

Lemma remove_nth_perm {A} (l : list A) : forall k c, nth_error l k = Some c -> Permutation (c :: remove_nth k l) l.
Proof.
  induction l as [|x l IH]; intros [|k] c H; try discriminate H.
  - injection H as ->. reflexivity.
  - cbn [nth_error remove_nth] in *. specialize (IH k c H).
    eapply Permutation_trans; [apply perm_swap|]. apply perm_skip, IH.
Qed.

Lemma put_same {A} (f : nat -> A) i a : put f i a i = a.
Proof. unfold put. rewrite Nat.eqb_refl. reflexivity. Qed.
Lemma put_other {A} (f : nat -> A) i a j : j <> i -> put f i a j = f j.
Proof. intro H. unfold put. rewrite (proj2 (Nat.eqb_neq j i) H). reflexivity. Qed.

Lemma shut_move {A} (c : A) sh p k r : nth_error p k = Some c -> Permutation (sh ++ p) r ->
  Permutation ((c :: sh) ++ remove_nth k p) r.
Proof.
  intros H P. rewrite <- P. cbn [app]. eapply Permutation_trans; [apply Permutation_middle|].
  apply Permutation_app_head, remove_nth_perm, H.
Qed.

Lemma inv_step r0 tmo m s s' : inv r0 tmo s -> tstep 0 m s = Some s' -> (tmo = true \/ no_timeout m) -> inv r0 tmo s'.
Proof.
  destruct s as [a l f r cl o cs ds p k sh bad]. intros (R & B & P) E T. cbn [raced] in R. subst bad.
  destruct m as [|i|i|j|j|c]; cbn [tstep] in E.
  - (* accept loop *)
    destruct a as [|c|]; [| |discriminate E].
    + destruct l; injection E as <-.
      * split; [reflexivity|]. split; [unfold book in *; cbn in *; split; [reflexivity|exact B]|].
        destruct P as [| i | i | i w | m q]; cbn in *; try discriminate; [eapply Ph0|eapply Ph1]; cbn; eauto.
      * split; [reflexivity|]. split; [exact B|].
        destruct P as [| i | i | i w | m q]; cbn in *; try discriminate.
        -- eapply (Ph1 _ _ _ i); cbn; eauto.
        -- eapply (Ph2 _ _ _ i); cbn; eauto.
        -- eapply (Ph3 _ _ _ i w); cbn; eauto.
        -- eapply (Ph4 _ _ _ m q); cbn; eauto.
    + destruct o as [o|]; [discriminate E|]. injection E as <-. unfold book in B. cbn in B. destruct B as [-> ->].
      split; [reflexivity|]. split; [unfold book; cbn [accepting recorded fresh]; rewrite seq_S; reflexivity|].
      destruct P as [| i | i | i w | m q]; cbn in *; try discriminate.
      * eapply Ph0; cbn; eauto. rewrite app_length. cbn. lia.
      * eapply (Ph4 _ _ _ m q); cbn; eauto. rewrite app_length. cbn. lia.
  - (* a call of Close *)
    destruct (cs i) as [| | |w|] eqn:C.
    + destruct o as [o|]; [discriminate E|]. destruct cl; injection E as <-; (split; [reflexivity|]; split; [exact B|]);
      destruct P as [| i' | i' | i' w | m q]; cbn in *; try discriminate.
      * eapply (Ph4 _ _ _ m i); cbn; eauto; [|apply put_same]. intro j. destruct (Nat.eq_dec j i) as [->|N]; [right; apply put_same|]. rewrite put_other by exact N. auto.
      * eapply (Ph1 _ _ _ i); cbn; eauto; [apply put_same|]. intros j N. rewrite put_other by exact N. auto.
    + injection E as <-. split; [reflexivity|]; split; [exact B|].
      destruct P as [| i' | i' | i' w | m q]; cbn in *.
      * rewrite H1 in C. discriminate C.
      * assert (i' = i) as ->. { destruct (Nat.eq_dec i' i) as [|N]; [assumption|]. rewrite H2 in C by congruence. discriminate C. }
        apply (Ph2 _ _ _ i); cbn; auto; [apply put_same|]. intros j N. rewrite put_other by exact N. auto.
      * destruct (Nat.eq_dec i i') as [->|N]; [congruence|]. rewrite H2 in C by exact N. discriminate C.
      * destruct (Nat.eq_dec i i') as [->|N]; [congruence|]. rewrite H2 in C by exact N. discriminate C.
      * destruct (H1 i) as [X|X]; congruence.
    + injection E as <-. split; [reflexivity|]; split; [exact B|].
      destruct P as [| i' | i' | i' w | m q]; cbn in *.
      * rewrite H1 in C. discriminate C.
      * destruct (Nat.eq_dec i i') as [->|N]; [congruence|]. rewrite H2 in C by exact N. discriminate C.
      * assert (i' = i) as ->. { destruct (Nat.eq_dec i' i) as [|N]; [assumption|]. rewrite H2 in C by congruence. discriminate C. }
        subst sh. eapply (Ph3 _ _ _ i (length r)); cbn; auto; [apply put_same|].
        intros j N. rewrite put_other by exact N. auto.
      * destruct (Nat.eq_dec i i') as [->|N]; [congruence|]. rewrite H2 in C by exact N. discriminate C.
      * destruct (H1 i) as [X|X]; congruence.
    + assert (P3 : exists w', w' = w /\ o = Some i /\ cl = true /\ (forall j, j <> i -> cs j = CStart)
                    /\ Permutation (sh ++ p) r /\ k + length p = w' /\ l = false /\ r0 <= length r).
      { exists w. split; [reflexivity|]. destruct P as [| i' | i' | i' w' | m q]; cbn in *.
        - rewrite H1 in C. discriminate C.
        - destruct (Nat.eq_dec i i') as [->|N]; [congruence|]. rewrite H2 in C by exact N. discriminate C.
        - destruct (Nat.eq_dec i i') as [->|N]; [congruence|]. rewrite H2 in C by exact N. discriminate C.
        - destruct (Nat.eq_dec i i') as [->|N]; [|rewrite H2 in C by exact N; discriminate C].
          rewrite C in H1. injection H1 as ->. auto 10.
        - destruct (H1 i) as [X|X]; congruence. }
      destruct P3 as (w' & -> & -> & -> & CO & PM & AK & -> & R0).
      destruct w as [|w].
      * injection E as <-. split; [reflexivity|]; split; [exact B|].
        assert (p = []) as -> by (destruct p; [reflexivity|cbn in AK; lia]). cbn in AK.
        unfold book in B. cbn [accepting fresh recorded] in B.
        eapply (Ph4 _ _ _ (length r) i); cbn; eauto.
        -- intro j. destruct (Nat.eq_dec j i) as [->|N]; [right; apply put_same|]. rewrite put_other by exact N. auto.
        -- apply put_same.
        -- destruct a as [|c|]; [rewrite B at 1|destruct B as [_ B]; rewrite B at 1|rewrite B at 1]; rewrite ?B, ?seq_length in *; rewrite ?app_nil_r in *; exact PM.
        -- destruct a as [|c|]; [|destruct B as [B1 B]; rewrite B1|]; rewrite B, seq_length; lia.
      * destruct k as [|k]; [discriminate E|]. injection E as <-. split; [reflexivity|]; split; [exact B|].
        eapply (Ph3 _ _ _ i w); cbn; eauto; [apply put_same|intros j N; rewrite put_other by exact N; auto].
    + discriminate E.
  - (* timeout *)
    destruct T as [->|[]]. destruct (cs i) as [| | |w|] eqn:C; try discriminate E. injection E as <-.
    split; [reflexivity|]; split; [exact B|].
    assert (P3 : o = Some i /\ cl = true /\ (forall j, j <> i -> cs j = CStart)
                    /\ Permutation (sh ++ p) r /\ l = false /\ r0 <= length r).
    { destruct P as [| i' | i' | i' w' | m q]; cbn in *.
        - rewrite H1 in C. discriminate C.
        - destruct (Nat.eq_dec i i') as [->|N]; [congruence|]. rewrite H2 in C by exact N. discriminate C.
        - destruct (Nat.eq_dec i i') as [->|N]; [congruence|]. rewrite H2 in C by exact N. discriminate C.
        - destruct (Nat.eq_dec i i') as [->|N]; [|rewrite H2 in C by exact N; discriminate C]. auto 10.
        - destruct (H1 i) as [X|X]; congruence. }
    destruct P3 as (-> & -> & CO & PM & -> & R0). unfold book in B. cbn [accepting fresh recorded] in B.
    eapply (Ph4 _ _ _ (length r) i); cbn; eauto.
    + intro j. destruct (Nat.eq_dec j i) as [->|N]; [right; apply put_same|]. rewrite put_other by exact N. auto.
    + apply put_same.
    + destruct a as [|c|]; [|destruct B as [_ B]|]; rewrite B in *; rewrite seq_length; exact PM.
    + discriminate.
    + destruct a as [|c|]; [|destruct B as [B1 B]; rewrite B1|]; rewrite B, seq_length; lia.
  - (* a closing goroutine *)
    destruct (nth_error p j) as [c|] eqn:N; [|discriminate E]. injection E as <-.
    split; [reflexivity|]; split; [exact B|].
    assert (LP : length p = S (length (remove_nth j p))) by (rewrite <- (Permutation_length (remove_nth_perm p j c N)); reflexivity).
    destruct P as [| i' | i' | i' w' | m q]; cbn in *; try (subst p; destruct j; discriminate N).
    + eapply (Ph3 _ _ _ i' w'); cbn; eauto; [|lia]. apply (shut_move c sh p j r N H3).
    + eapply (Ph4 _ _ _ m q); cbn; eauto; [apply (shut_move c sh p j _ N H3)|]. intro X. rewrite (H4 X) in N. destruct j; discriminate N.
  - discriminate E.
  - discriminate E.
Qed.

Lemma inv_run r0 tmo sch : forall s, inv r0 tmo s -> (tmo = true \/ Forall no_timeout sch) -> inv r0 tmo (trun 0 sch s).
Proof.
  induction sch as [|m sch IH]; intros s I T; [exact I|]. cbn [trun fold_left]. apply IH.
  - unfold tact. destruct (tstep 0 m s) as [s'|] eqn:E; [|exact I]. eapply inv_step; eauto.
    destruct T as [T|T]; [auto|right; inversion T; assumption].
  - destruct T as [T|T]; [auto|right; inversion T; assumption].
Qed.

Lemma inv_start tmo : inv 0 tmo tstart.
Proof. split; [reflexivity|]. split; [reflexivity|]. apply Ph0; cbn; auto. Qed.

Lemma trun_app n a b s : trun n (a ++ b) s = trun n b (trun n a s).
Proof. unfold trun. apply fold_left_app. Qed.

(** The invariant at a later time, for the connections recorded before any call. *)
Lemma inv_from s tmo : inv 0 tmo s -> (forall j, closes s j = CStart) -> inv (length (recorded s)) false s.
Proof.
  intros (R & B & P) C. split; [exact R|]. split; [exact B|].
  destruct P as [|i|i|i w|m q].
  - apply Ph0; auto.
  - rewrite C in H1. discriminate H1.
  - rewrite C in H1. discriminate H1.
  - rewrite C in H1. discriminate H1.
  - rewrite C in H2. discriminate H2.
Qed.

(** Once Close has returned nothing beyond its snapshot is ever closed. *)
Definition done (m : nat) (s : tserver) : Prop :=
  raced s = false /\ book s /\ tclosed s = true /\ owner s = None
  /\ (forall j, closes s j = CStart \/ closes s j = CReturned)
  /\ (forall c, In c (shut s ++ pending s) -> c < m) /\ listening s = false.

Lemma done_step m t s s' : done m s -> tstep 0 t s = Some s' -> done m s' /\ fresh s' = fresh s.
Proof.
  destruct s as [a l f r cl o cs ds p k sh bad]. unfold done. cbn.
  intros (-> & B & -> & -> & C & S & ->) E. destruct t as [|i|i|j|j|c]; cbn [tstep] in E.
  - destruct a as [|c|]; [| |discriminate E]; injection E as <-; unfold book in *; cbn in *; (split; [|reflexivity]).
    + repeat split; auto.
    + destruct B as [-> ->]. repeat split; auto. rewrite seq_S. reflexivity.
  - destruct (C i) as [X|X]; rewrite X in E; [|discriminate E]. injection E as <-. cbn. unfold book in *. cbn in *.
    split; [|reflexivity]. repeat split; auto. intro j. unfold put. destruct (j =? i); auto.
  - destruct (C i) as [X|X]; rewrite X in E; discriminate E.
  - destruct (nth_error p j) as [c|] eqn:N; [|discriminate E]. injection E as <-. cbn. unfold book in *. cbn in *.
    split; [|reflexivity]. repeat split; auto. intros c' H. apply S.
    apply (Permutation_in c' (shut_move c sh p j _ N (Permutation_refl _))), H.
  - discriminate E.
  - discriminate E.
Qed.

Lemma done_run m sch : forall s, done m s -> done m (trun 0 sch s) /\ fresh (trun 0 sch s) = fresh s.
Proof.
  induction sch as [|t sch IH]; intros s D; [auto|]. cbn [trun fold_left]. unfold tact.
  destruct (tstep 0 t s) as [s'|] eqn:E; [|apply IH, D].
  destruct (done_step m t s s' D E) as [D' F]. destruct (IH s' D') as [D2 F2]. split; [exact D2|]. rewrite <- F. exact F2.
Qed.

(** A returned Close means the last phase. *)
Lemma returned_phase r0 tmo s i : inv r0 tmo s -> closes s i = CReturned ->
  exists m, tclosed s = true /\ owner s = None /\ (forall j, closes s j = CStart \/ closes s j = CReturned)
    /\ Permutation (shut s ++ pending s) (seq 0 m) /\ (tmo = false -> pending s = [])
    /\ listening s = false /\ m <= length (recorded s) /\ fresh s <= S m /\ r0 <= m.
Proof.
  intros (_ & _ & P) C. destruct P as [|j|j|j w|m q].
  - rewrite H1 in C. discriminate C.
  - destruct (Nat.eq_dec i j) as [->|N]; [congruence|]. rewrite H2 in C by exact N. discriminate C.
  - destruct (Nat.eq_dec i j) as [->|N]; [congruence|]. rewrite H2 in C by exact N. discriminate C.
  - destruct (Nat.eq_dec i j) as [->|N]; [congruence|]. rewrite H2 in C by exact N. discriminate C.
  - exists m. auto 12.
Qed.

Lemma returned_done r0 tmo s i : inv r0 tmo s -> closes s i = CReturned ->
  exists m, done m s /\ Permutation (shut s ++ pending s) (seq 0 m) /\ m <= length (recorded s) /\ fresh s <= S m.
Proof.
  intros I C. destruct (returned_phase _ _ _ _ I C) as (m & A1 & A2 & A3 & A4 & _ & A6 & A7 & A8 & _).
  exists m. destruct I as (R & B & _). split; [|auto]. repeat (split; [assumption|]).
  split; [|assumption]. intros c H. apply (Permutation_in c A4), in_seq in H. lia.
Qed.

(** ** Every call of Close returns *)

Lemma tact_run n m sch s s' : tstep n m s = Some s' -> trun n (m :: sch) s = trun n sch s'.
Proof. intro E. cbn [trun fold_left]. unfold tact. rewrite E. reflexivity. Qed.

Lemma finish_waiting tmo : forall b s i w, inv 0 tmo s -> owner s = Some i -> closes s i = CWaiting w ->
  w + length (pending s) <= b ->
  exists sch, Forall no_timeout sch /\ owner (trun 0 sch s) = None /\ tclosed (trun 0 sch s) = true
    /\ forall j, closes (trun 0 sch s) j = if j =? i then CReturned else closes s j.
Proof.
  induction b as [|b IH]; intros s i w I O C L.
  all: assert (R : raced s = false) by apply I.
  all: pose proof I as (_ & _ & P); destruct P as [|q|q|q w'|m q]; rewrite H0 in O; try discriminate O; injection O as ->;
       rewrite C in H1; try discriminate H1; injection H1 as ->.
  all: destruct s as [a l f r cl o cs ds p k sh bad]; cbn in *; subst bad cl o.
  - assert (w' = 0) as -> by lia. exists [TClose i]. split; [repeat constructor|].
    erewrite tact_run; [|cbn [tstep]; rewrite C; reflexivity]. cbn. repeat split; auto.
  - destruct w' as [|w'].
    + exists [TClose i]. split; [repeat constructor|].
      erewrite tact_run; [|cbn [tstep]; rewrite C; reflexivity]. cbn. repeat split; auto.
    + destruct k as [|k].
      * destruct p as [|c p]; [cbn in H4; lia|].
        set (s := MkTs a l f r true (Some i) cs ds (c :: p) 0 sh false) in *.
        assert (E : tstep 0 (TCloser 0) s = Some (MkTs a l f r true (Some i) cs ds p 1 (c :: sh) false)) by reflexivity.
        pose proof (inv_step _ _ _ _ _ I E (or_intror Logic.I)) as I'.
        destruct (IH _ i (S w') I' eq_refl C ltac:(cbn in *; lia)) as (sch & F & X). exists (TCloser 0 :: sch).
        split; [constructor; [exact Logic.I|exact F]|]. rewrite (tact_run _ _ _ _ _ E). exact X.
      * set (s := MkTs a l f r true (Some i) cs ds p (S k) sh false) in *.
        assert (E : tstep 0 (TClose i) s = Some (MkTs a l f r true (Some i) (put cs i (CWaiting w')) ds p k sh false))
          by (cbn [tstep s]; rewrite C; reflexivity).
        pose proof (inv_step _ _ _ _ _ I E (or_intror Logic.I)) as I'.
        destruct (IH _ i w' I' eq_refl (put_same _ _ _) ltac:(cbn in *; lia)) as (sch & F & X1 & X2 & X3). exists (TClose i :: sch).
        split; [constructor; [exact Logic.I|exact F]|]. rewrite (tact_run _ _ _ _ _ E). split; [exact X1|]. split; [exact X2|].
        intro j. rewrite X3. cbn. unfold put. destruct (j =? i); reflexivity.
Qed.

Definition to_end (s : tserver) (i : nat) : Prop :=
  exists sch, Forall no_timeout sch /\ closes (trun 0 sch s) i = CReturned.

Lemma to_end_step m s s' i : tstep 0 m s = Some s' -> no_timeout m -> to_end s' i -> to_end s i.
Proof.
  intros E N (sch & F & X). exists (m :: sch). split; [constructor; assumption|]. rewrite (tact_run _ _ _ _ _ E). exact X.
Qed.

(** A call may start once the lock is free and the server closed. *)
Lemma to_end_free s i : raced s = false -> owner s = None -> tclosed s = true ->
  closes s i = CStart \/ closes s i = CReturned -> to_end s i.
Proof.
  destruct s as [a l f r cl o cs ds p k sh bad]. cbn. intros -> -> -> [C|C].
  - eapply (to_end_step (TClose i)); [cbn [tstep]; rewrite C; reflexivity|exact Logic.I|].
    exists []. split; [constructor|]. apply put_same.
  - exists []. split; [constructor|exact C].
Qed.

Lemma to_end_waiting tmo s j w i : inv 0 tmo s -> owner s = Some j -> closes s j = CWaiting w ->
  (forall q, q <> j -> closes s q = CStart) -> to_end s i.
Proof.
  intros I O C N. destruct (finish_waiting tmo _ s j w I O C (le_n _)) as (sch & F & X1 & X2 & X3).
  assert (E : to_end (trun 0 sch s) i).
  { apply to_end_free; auto.
    - apply (inv_run 0 tmo sch s I). auto.
    - rewrite X3. destruct (i =? j) eqn:Q; [auto|]. left. apply N, Nat.eqb_neq, Q. }
  destruct E as (sch' & F' & X). exists (sch ++ sch'). split; [apply Forall_app; auto|]. rewrite trun_app. exact X.
Qed.

Lemma to_end_spawn tmo s j i : inv 0 tmo s -> owner s = Some j -> closes s j = CSpawn ->
  (forall q, q <> j -> closes s q = CStart) -> to_end s i.
Proof.
  intros I O C N. assert (E : exists s', tstep 0 (TClose j) s = Some s' /\ owner s' = Some j
    /\ closes s' = put (closes s) j (CWaiting (length (recorded s)))).
  { pose proof (proj1 I) as R. destruct s as [a l f r cl o cs ds p k sh bad]; cbn in *; subst bad. rewrite C. eauto. }
  destruct E as (s' & E & O' & C'). apply (to_end_step _ _ _ _ E Logic.I).
  apply (to_end_waiting tmo _ j (length (recorded s))); auto.
  - exact (inv_step _ _ _ _ _ I E (or_intror Logic.I)).
  - rewrite C'. apply put_same.
  - intros q Q. rewrite C', put_other; auto.
Qed.

Lemma to_end_locked tmo s j i : inv 0 tmo s -> owner s = Some j -> closes s j = CLocked ->
  (forall q, q <> j -> closes s q = CStart) -> to_end s i.
Proof.
  intros I O C N. assert (E : exists s', tstep 0 (TClose j) s = Some s' /\ owner s' = Some j
    /\ closes s' = put (closes s) j CSpawn).
  { pose proof (proj1 I) as R. destruct s as [a l f r cl o cs ds p k sh bad]; cbn in *; subst bad. rewrite C. eauto. }
  destruct E as (s' & E & O' & C'). apply (to_end_step _ _ _ _ E Logic.I).
  apply (to_end_spawn tmo _ j); auto.
  - exact (inv_step _ _ _ _ _ I E (or_intror Logic.I)).
  - rewrite C'. apply put_same.
  - intros q Q. rewrite C', put_other; auto.
Qed.

Lemma close_ends tmo s i : inv 0 tmo s -> to_end s i.
Proof.
  intro I. pose proof I as (R & B & P). destruct P as [|j|j|j w|m q].
  - assert (E : exists s', tstep 0 (TClose i) s = Some s' /\ owner s' = Some i
      /\ closes s' = put (closes s) i CLocked).
    { destruct s as [a l f r cl o cs ds p k sh bad]; cbn in *; subst bad cl o. rewrite H1. eauto. }
    destruct E as (s' & E & O' & C'). apply (to_end_step _ _ _ _ E Logic.I).
    apply (to_end_locked tmo _ i); auto.
    + exact (inv_step _ _ _ _ _ I E (or_intror Logic.I)).
    + rewrite C'. apply put_same.
    + intros q Q. rewrite C', put_other; auto.
  - eapply to_end_locked; eauto.
  - eapply to_end_spawn; eauto.
  - eapply to_end_waiting; eauto.
  - apply to_end_free; auto.
Qed.
