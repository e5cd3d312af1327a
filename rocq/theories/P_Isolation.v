(** C110: connections do not influence each other. *)
From Verif Require Import ServerSpec ServerFacts P_Server IsolationSpec.
From Coq Require Import Lia Permutation.

(** The loops of two servers stand at the same place; the count that was loaded may differ. *)
Definition same_place (p p' : accepting) : Prop :=
  match p, p' with
  | LTest c _, LTest c' _ => c = c'
  | _, _ => p = p'
  end.
Lemma same_place_refl p : same_place p p. Proof. destruct p; reflexivity. Qed.

Definition other_hand (c0 : nat) (h : nat * Request * option stage) : bool := negb (fst (fst h) =? c0).
Definition other_event (c0 : nat) (e : event) : bool := negb (conn_of e =? c0).

(** Two servers without limit that agree on all but connection [c0]. *)
Record alike (c0 : nat) (s s' : server) : Prop := MkAlike {
  al_limit : limit s = 0%Z /\ limit s' = 0%Z;
  al_seq : sequential s' = sequential s;
  al_loops : Forall2 same_place (loops s) (loops s');
  al_length : length (cns s') = length (cns s);
  al_cns : forall c, c <> c0 -> nth_error (cns s') c = nth_error (cns s) c;
  al_hands : filter (other_hand c0) (hands s') = filter (other_hand c0) (hands s);
  al_trace : filter (other_event c0) (trace s') = filter (other_event c0) (trace s) }.

Lemma Forall2_nth {A B} (R : A -> B -> Prop) l l' : Forall2 R l l' -> forall k x, nth_error l k = Some x ->
  exists y, nth_error l' k = Some y /\ R x y.
Proof.
  induction 1 as [|a b l l' H _ IH]; intros [|k] x E; try discriminate; cbn in *.
  - injection E as <-. eauto.
  - auto.
Qed.
Lemma Forall2_set {A B} (R : A -> B -> Prop) l l' : Forall2 R l l' -> forall k x y, R x y -> Forall2 R (setnth k x l) (setnth k y l').
Proof. induction 1 as [|a b l l' H F IH]; intros [|k] x y E; cbn [setnth]; constructor; auto. Qed.

Lemma filter_set {A} (p : A -> bool) l : forall j x y, nth_error l j = Some y -> p x = p y ->
  filter p (setnth j x l) = (if p y then setnth (length (filter p (firstn j l))) x (filter p l) else filter p l).
Proof.
  induction l as [|z l IH]; intros [|j] x y E P; try discriminate; cbn [setnth firstn filter nth_error] in *.
  - injection E as ->. rewrite P. destruct (p y); reflexivity.
  - rewrite (IH j x y E P). destruct (p z), (p y); reflexivity.
Qed.
Lemma filter_nth {A} (p : A -> bool) l : forall j y, nth_error l j = Some y -> p y = true ->
  nth_error (filter p l) (length (filter p (firstn j l))) = Some y.
Proof.
  induction l as [|z l IH]; intros [|j] y E P; try discriminate; cbn [firstn filter nth_error] in *.
  - injection E as ->. rewrite P. reflexivity.
  - destruct (p z); cbn [length nth_error]; apply IH; assumption.
Qed.
Lemma filter_find {A} (p : A -> bool) l : forall i y, nth_error (filter p l) i = Some y ->
  exists j, nth_error l j = Some y /\ length (filter p (firstn j l)) = i.
Proof.
  induction l as [|z l IH]; intros i y E; [destruct i; discriminate|]. cbn [filter] in E.
  destruct (p z) eqn:P.
  - destruct i as [|i]; cbn in E.
    + injection E as <-. exists 0. auto.
    + destruct (IH i y E) as (j & J1 & J2). exists (S j). cbn [nth_error firstn filter]. rewrite P. cbn [length]. auto.
  - destruct (IH i y E) as (j & J1 & J2). exists (S j). cbn [nth_error firstn filter]. rewrite P. auto.
Qed.

Lemma cns_set c0 c x (l l' : list cn) : (forall d, d <> c0 -> nth_error l' d = nth_error l d) -> length l' = length l ->
  forall d, d <> c0 -> nth_error (setnth c x l') d = nth_error (setnth c x l) d.
Proof.
  intros H L d D. destruct (Nat.eq_dec d c) as [->|N].
  - destruct (Nat.lt_ge_cases c (length l)) as [K|K].
    + rewrite !setnth_same by lia. reflexivity.
    + transitivity (@None cn); [|symmetry]; apply nth_error_None; rewrite setnth_length; lia.
  - rewrite !setnth_other by exact N. auto.
Qed.


(** What connection [c0] sends, if it is there, is [ms0]. *)
Definition brings (c0 : nat) (ms0 : list Request) (s : server) : Prop := forall ms, sent c0 s ms -> ms = ms0.
Lemma brings_cns c0 ms0 s t : (forall x, nth_error (cns t) c0 = Some x -> exists y, nth_error (cns s) c0 = Some y /\ cmsgs y = cmsgs x) ->
  brings c0 ms0 s -> brings c0 ms0 t.
Proof. intros H B ms (x & X1 & X2). destruct (H x X1) as (y & Y1 & Y2). apply B. exists y. split; congruence. Qed.

Lemma other_here c0 c j (s s' : server) q o :
  filter (other_hand c0) (hands s') = filter (other_hand c0) (hands s) -> nth_error (hands s) j = Some (c, q, o) -> c <> c0 ->
  exists j', nth_error (hands s') j' = Some (c, q, o)
    /\ length (filter (other_hand c0) (firstn j' (hands s'))) = length (filter (other_hand c0) (firstn j (hands s))).
Proof.
  intros HA J D. apply filter_find. rewrite HA. apply filter_nth; [exact J|].
  unfold other_hand. cbn [fst]. apply Nat.eqb_neq in D. rewrite D. reflexivity.
Qed.

(** A step of the first server, and what the second does meanwhile: nothing when
    the step is [c0]'s own.  A new connection [c0] brings [ms0]. *)
Lemma alike_step c0 ms0 s s' m t : alike c0 s s' -> sstep m s = Some t ->
  exists l, alike c0 t (srun l s') /\ stuck c0 l s' /\ (brings c0 ms0 s' -> brings c0 ms0 (srun l s')).
Proof.
  intros [[L L'] Q LO LE CN HA TR] E.
  destruct m as [k ms|c|c|j]; cbn [sstep] in E.
  - (* accept loop *)
    set (ms1 := if length (cns s) =? c0 then ms0 else ms).
    exists [MLoop k ms1]. unfold srun. cbn [fold_left sact stuck own_move]. unfold sact. cbn [sstep].
    unfold loop_step in *. destruct (nth_error (loops s) k) as [p|] eqn:K; [|discriminate].
    destruct (Forall2_nth _ _ _ LO k p K) as (p' & K' & SP). rewrite K'.
    assert (KL : forall x y, same_place x y -> Forall2 same_place (setnth k x (loops s)) (setnth k y (loops s')))
      by (intros; apply Forall2_set; assumption).
    destruct p as [|c|c|c n|c|c|c]; cbn [same_place] in SP; try subst p'.
    + injection E as <-. split; [|split; [auto|]].
      * constructor; cbn [limit sequential loops cns hands trace with_loop with_new]; rewrite ?app_length; auto.
        -- apply KL. cbn. rewrite LE. reflexivity.
        -- intros d D. destruct (Nat.lt_ge_cases d (length (cns s))) as [J|J].
           ++ rewrite !nth_error_app1 by lia. auto.
           ++ rewrite !nth_error_app2 by lia. rewrite LE. destruct (d - length (cns s)) as [|i] eqn:I; [|reflexivity].
              cbn. unfold ms1. destruct (Nat.eqb_spec (length (cns s)) c0); [lia|reflexivity].
      * intros B ms2 (x & X1 & X2). cbn [cns with_loop with_new] in *.
        destruct (Nat.lt_ge_cases c0 (length (cns s'))) as [J|J].
        -- rewrite nth_error_app1 in X1 by exact J. apply B. exists x. auto.
        -- pose proof (nth_error_lt _ _ _ X1) as G. rewrite app_length in G. cbn in G. assert (H : c0 = length (cns s')) by lia.
           rewrite nth_error_app2 in X1 by lia. rewrite H, Nat.sub_diag in X1. cbn in X1. injection X1 as <-. cbn [cmsgs] in X2.
           unfold ms1 in X2. rewrite <- LE, <- H, Nat.eqb_refl in X2. auto.
    + injection E as <-. split; [|split; [auto|]].
      2: { apply brings_cns. intros x X. exists x. auto. }
      constructor; cbn [limit sequential loops cns hands trace with_loop emits]; rewrite ?filter_app; auto using same_place_refl.
      rewrite TR. reflexivity.
    + injection E as <-. split; [|split; [auto|]].
      2: { apply brings_cns. intros x X. exists x. auto. }
      constructor; cbn [limit sequential loops cns hands trace with_loop emits]; auto. apply KL. reflexivity.
    + destruct p' as [|c'|c'|c' n'|c'|c'|c']; try discriminate. subst c'.
      rewrite L in E. rewrite L'. cbn [Z.eqb negb andb] in *. injection E as <-. split; [|split; [auto|]].
      2: { apply brings_cns. intros x X. exists x. auto. }
      constructor; cbn [limit sequential loops cns hands trace with_loop with_counter]; auto using same_place_refl.
    + injection E as <-. split; [|split; [auto|]].
      2: { apply brings_cns. intros x X. exists x. auto. }
      constructor; cbn [limit sequential loops cns hands trace with_loop emits]; rewrite ?filter_app; auto using same_place_refl.
      rewrite TR. reflexivity.
    + injection E as <-. split; [|split; [auto|]].
      2: { apply brings_cns. intros x X. exists x. auto. }
      constructor; cbn [limit sequential loops cns hands trace with_loop emits]; rewrite ?filter_app; auto using same_place_refl.
      rewrite TR. reflexivity.
    + destruct (nth_error (cns s) c) as [x|] eqn:X; [|discriminate]. injection E as <-.
      assert (X' : exists x', nth_error (cns s') c = Some x').
      { destruct (nth_error (cns s') c) eqn:Y; [eauto|]. apply nth_error_None in Y. apply nth_error_lt in X. lia. }
      destruct X' as (x' & X'). rewrite X'. split; [|split; [auto|]].
      * constructor; cbn [limit sequential loops cns hands trace with_loop with_cn]; rewrite ?setnth_length; auto using same_place_refl.
        intros d D. destruct (Nat.eq_dec d c) as [->|N].
        -- rewrite CN in X' by exact D. rewrite X in X'. injection X' as <-.
           rewrite !setnth_same by (apply nth_error_lt in X; lia). reflexivity.
        -- rewrite !setnth_other by exact N. auto.
      * apply brings_cns. cbn [cns with_loop with_cn]. intros y Y.
        destruct (Nat.eq_dec c0 c) as [->|N].
        -- rewrite setnth_same in Y by (apply nth_error_lt in X'; exact X'). injection Y as <-. exists x'. auto.
        -- rewrite setnth_other in Y by exact N. exists y. auto.
  - (* receive *)
    unfold recv_step in E. destruct (nth_error (cns s) c) as [[ms lf r v]|] eqn:X; [|discriminate].
    destruct r; try discriminate.
    destruct (Nat.eq_dec c c0) as [->|D].
    + exists []. cbn [srun fold_left stuck]. split; [|auto].
      destruct lf; injection E as <-; constructor; cbn [limit sequential loops cns hands trace with_cn]; rewrite ?setnth_length; auto;
        intros d Dd; rewrite setnth_other by exact Dd; auto.
    + exists [MRecv c]. unfold srun. cbn [fold_left sact stuck own_move]. unfold sact. cbn [sstep]. unfold recv_step.
      rewrite CN, X by exact D. apply Nat.eqb_neq in D as D'. rewrite D'.
      destruct lf; injection E as <-; (split; [|split; [auto|]]).
      1, 3: constructor; cbn [limit sequential loops cns hands trace with_cn]; rewrite ?setnth_length; auto; apply cns_set; auto.
      all: apply brings_cns; cbn [cns with_cn]; intros y Y; rewrite setnth_other in Y by congruence; exists y; auto.
  - (* serve *)
    unfold serve_step in E. destruct (nth_error (cns s) c) as [[ms lf r v]|] eqn:X; [|discriminate].
    destruct (Nat.eq_dec c c0) as [->|D].
    + exists []. cbn [srun fold_left stuck]. split; [|auto].
      assert (OE : forall e, conn_of e = c0 -> filter (other_event c0) [e] = []).
      { intros e <-. cbn. unfold other_event. rewrite Nat.eqb_refl. reflexivity. }
      assert (OH : forall q o, filter (other_hand c0) [(c0, q, o)] = []).
      { intros q o. cbn. unfold other_hand. cbn. rewrite Nat.eqb_refl. reflexivity. }
      destruct v as [| |q st| | | |]; try discriminate.
      * destruct r as [| |[q|]|]; try discriminate; [destruct (sequential s) eqn:SQ|]; injection E as <-;
          constructor; cbn [limit sequential loops cns hands trace with_cn with_hands]; rewrite ?setnth_length, ?filter_app, ?OH, ?app_nil_r; auto; try congruence;
          intros d Dd; rewrite setnth_other by exact Dd; auto.
      * destruct (serve_req c0 q st) as [e st'] eqn:SR. injection E as <-.
        assert (conn_of e = c0) by (destruct st; injection SR as <- <-; reflexivity).
        constructor; cbn [limit sequential loops cns hands trace with_cn emits]; rewrite ?setnth_length, ?filter_app, ?OE, ?app_nil_r by assumption; auto;
          intros d Dd; rewrite setnth_other by exact Dd; auto.
      * injection E as <-. constructor; cbn [limit sequential loops cns hands trace with_cn with_counter]; rewrite ?setnth_length; auto;
          intros d Dd; rewrite setnth_other by exact Dd; auto.
      * injection E as <-. constructor; cbn [limit sequential loops cns hands trace with_cn emits]; rewrite ?setnth_length, ?filter_app, ?OE, ?app_nil_r by reflexivity; auto;
          intros d Dd; rewrite setnth_other by exact Dd; auto.
      * injection E as <-. constructor; cbn [limit sequential loops cns hands trace with_cn emits]; rewrite ?setnth_length, ?filter_app, ?OE, ?app_nil_r by reflexivity; auto;
          intros d Dd; rewrite setnth_other by exact Dd; auto.
    + exists [MServe c]. unfold srun. cbn [fold_left sact stuck own_move]. unfold sact. cbn [sstep]. unfold serve_step.
      rewrite CN, X by exact D. apply Nat.eqb_neq in D as D'. rewrite D'. rewrite Q.
      destruct v as [| |q st| | | |]; try discriminate.
      * destruct r as [| |[q|]|]; try discriminate; [destruct (sequential s) eqn:SQ|]; injection E as <-; (split; [|split; [auto|]]).
        1, 3, 5: constructor; cbn [limit sequential loops cns hands trace with_cn with_hands]; rewrite ?setnth_length, ?filter_app; auto; try congruence; try (apply cns_set; auto); rewrite HA; reflexivity.
        all: apply brings_cns; cbn [cns with_cn with_hands]; intros y Y; rewrite setnth_other in Y by congruence; exists y; auto.
      * destruct (serve_req c q st) as [e st'] eqn:SR. injection E as <-. split; [|split; [auto|]].
        -- constructor; cbn [limit sequential loops cns hands trace with_cn emits]; rewrite ?setnth_length, ?filter_app; auto; try (apply cns_set; auto); rewrite TR; reflexivity.
        -- apply brings_cns; cbn [cns with_cn emits]; intros y Y; rewrite setnth_other in Y by congruence; exists y; auto.
      * injection E as <-. split; [|split; [auto|]].
        -- constructor; cbn [limit sequential loops cns hands trace with_cn with_counter]; rewrite ?setnth_length; auto; apply cns_set; auto.
        -- apply brings_cns; cbn [cns with_cn with_counter]; intros y Y; rewrite setnth_other in Y by congruence; exists y; auto.
      * injection E as <-. split; [|split; [auto|]].
        -- constructor; cbn [limit sequential loops cns hands trace with_cn emits]; rewrite ?setnth_length, ?filter_app; auto; try (apply cns_set; auto); rewrite TR; reflexivity.
        -- apply brings_cns; cbn [cns with_cn emits]; intros y Y; rewrite setnth_other in Y by congruence; exists y; auto.
      * injection E as <-. split; [|split; [auto|]].
        -- constructor; cbn [limit sequential loops cns hands trace with_cn emits]; rewrite ?setnth_length, ?filter_app; auto; try (apply cns_set; auto); rewrite TR; reflexivity.
        -- apply brings_cns; cbn [cns with_cn emits]; intros y Y; rewrite setnth_other in Y by congruence; exists y; auto.
  - (* handler *)
    unfold hand_step in E. destruct (nth_error (hands s) j) as [[[c q] [st|]]|] eqn:J; try discriminate.
    destruct (serve_req c q st) as [e st'] eqn:SR. injection E as <-.
    assert (CE : conn_of e = c) by (destruct st; injection SR as <- <-; reflexivity).
    destruct (Nat.eq_dec c c0) as [EC|D].
    + exists []. cbn [srun fold_left stuck]. split; [|auto].
      constructor; cbn [limit sequential loops cns hands trace with_hands emits]; auto.
      * rewrite (filter_set _ _ j _ _ J) by reflexivity. unfold other_hand at 2. cbn [fst]. rewrite EC, Nat.eqb_refl. exact HA.
      * rewrite filter_app. cbn [filter]. unfold other_event at 3. rewrite CE, EC, Nat.eqb_refl, app_nil_r. exact TR.
    + destruct (other_here c0 c j s s' q (Some st) HA J D) as (j' & J1 & J2).
      exists [MHand j']. unfold srun. cbn [fold_left sact stuck own_move]. unfold sact. cbn [sstep]. unfold hand_step.
      rewrite J1, SR. apply Nat.eqb_neq in D as D'. rewrite D'. split; [|split; [auto|]].
      * constructor; cbn [limit sequential loops cns hands trace with_hands emits]; rewrite ?filter_app; auto.
        -- rewrite (filter_set _ _ j _ _ J), (filter_set _ _ j' _ _ J1) by reflexivity. rewrite J2, HA. reflexivity.
        -- rewrite TR. reflexivity.
      * apply brings_cns. intros y Y. exists y. auto.
Qed.

Lemma stuck_app c l l' s : stuck c l s -> stuck c l' (srun l s) -> stuck c (l ++ l') s.
Proof. revert s. induction l as [|m l IH]; intros s; cbn [stuck app]; [auto|]. intros [H1 H2] H3. split; [exact H1|]. apply IH; assumption. Qed.

Lemma alike_run c0 ms0 sch : forall s s', alike c0 s s' ->
  exists l, alike c0 (srun sch s) (srun l s') /\ stuck c0 l s' /\ (brings c0 ms0 s' -> brings c0 ms0 (srun l s')).
Proof.
  induction sch as [|m sch IH]; intros s s' A.
  - exists []. cbn. auto.
  - unfold srun at 1. cbn [fold_left]. fold (srun sch (sact s m)). unfold sact.
    destruct (sstep m s) as [t|] eqn:E.
    + destruct (alike_step c0 ms0 s s' m t A E) as (l & A1 & S1 & B1).
      destruct (IH t (srun l s') A1) as (l2 & A2 & S2 & B2).
      exists (l ++ l2). rewrite srun_app. auto using stuck_app.
    + apply IH. exact A.
Qed.

Lemma alike_refl c0 s : limit s = 0%Z -> alike c0 s s.
Proof.
  intros L. constructor; auto. induction (loops s); constructor; auto using same_place_refl.
Qed.

Lemma alike_story c0 s s' c : alike c0 s s' -> c <> c0 -> story c s' = story c s.
Proof.
  intros A D. pose proof (al_trace _ _ _ A) as T. unfold story.
  assert (F : forall l, filter (fun e => conn_of e =? c) l = filter (fun e => conn_of e =? c) (filter (other_event c0) l)).
  { induction l as [|e l IH]; [reflexivity|]. cbn [filter]. unfold other_event at 1.
    destruct (Nat.eqb_spec (conn_of e) c0) as [K|K]; cbn [negb].
    - destruct (Nat.eqb_spec (conn_of e) c); [lia|exact IH].
    - cbn [filter]. rewrite IH. reflexivity. }
  rewrite F, T, <- F. reflexivity.
Qed.
Lemma alike_sent c0 s s' c ms : alike c0 s s' -> c <> c0 -> (sent c s' ms <-> sent c s ms).
Proof. intros A D. unfold sent. rewrite (al_cns _ _ _ A c D). reflexivity. Qed.

(** Whatever peer [c0] sends: without a limit on the connections the same can
    happen on all the other connections. *)
Theorem C110_independent q n sch c0 ms' :
  let s := srun sch (sstart 0 q n) in
  exists sch', let s' := srun sch' (sstart 0 q n) in
    length (cns s') = length (cns s)
    /\ (c0 < length (cns s) -> sent c0 s' ms')
    /\ forall c, c <> c0 -> story c s' = story c s /\ forall ms, sent c s' ms <-> sent c s ms.
Proof.
  intros s. destruct (alike_run c0 ms' sch (sstart 0 q n) (sstart 0 q n) (alike_refl c0 (sstart 0 q n) eq_refl)) as (l & A & _ & B).
  exists l. intros s'. fold s in A. fold s' in A, B. split; [exact (al_length _ _ _ A)|split].
  - intros K. rewrite <- (al_length _ _ _ A) in K.
    destruct (nth_error (cns s') c0) as [x|] eqn:X; [|apply nth_error_None in X; lia].
    exists x. split; [exact X|]. apply B; [|exists x; auto].
    intros ms (y & Y & _). cbn in Y. destruct c0; discriminate.
  - intros c D. split; [exact (alike_story _ _ _ c A D)|intros ms; exact (alike_sent _ _ _ c ms A D)].
Qed.
Print Assumptions C110_independent.

Lemma sent_step m s t c ms : sstep m s = Some t -> sent c s ms -> sent c t ms.
Proof.
  assert (G : forall d x y (l : list cn), nth_error l d = Some x -> cmsgs y = cmsgs x ->
    (exists z, nth_error l c = Some z /\ cmsgs z = ms) -> exists z, nth_error (setnth d y l) c = Some z /\ cmsgs z = ms).
  { intros d x y l X M (z & Z1 & Z2). destruct (Nat.eq_dec c d) as [->|N].
    - rewrite setnth_same by (apply nth_error_lt in X; exact X). exists y. split; congruence.
    - rewrite setnth_other by exact N. eauto. }
  intros E K. unfold sent in *. destruct m as [k ms1|d|d|j]; cbn [sstep] in E.
  - unfold loop_step in E. destruct (nth_error (loops s) k) as [[|d|d|d n|d|d|d]|]; try discriminate; try (injection E as <-; exact K).
    + injection E as <-. cbn [cns with_loop with_new]. destruct K as (z & Z1 & Z2). exists z. split; [|exact Z2].
      rewrite nth_error_app1; [exact Z1|apply nth_error_lt in Z1; exact Z1].
    + destruct (negb _ && _)%bool; injection E as <-; exact K.
    + destruct (nth_error (cns s) d) as [x|] eqn:X; [|discriminate]. injection E as <-. cbn [cns with_loop with_cn]. apply (G d x); auto.
  - unfold recv_step in E. destruct (nth_error (cns s) d) as [[ms2 lf r v]|] eqn:X; [|discriminate]. destruct r; try discriminate.
    destruct lf; injection E as <-; cbn [cns with_cn]; eapply G; eauto.
  - unfold serve_step in E. destruct (nth_error (cns s) d) as [[ms2 lf r v]|] eqn:X; [|discriminate].
    destruct v as [| |q st| | | |]; try discriminate; [| |injection E as <-; cbn [cns with_cn with_counter emits]; eapply G; eauto ..].
    + destruct r as [| |[q|]|]; try discriminate; [destruct (sequential s)|]; injection E as <-; cbn [cns with_cn with_hands]; eapply G; eauto.
    + destruct (serve_req d q st) as [e st']. injection E as <-. cbn [cns with_cn emits]. eapply G; eauto.
  - unfold hand_step in E. destruct (nth_error (hands s) j) as [[[d q] [st|]]|]; try discriminate.
    destruct (serve_req d q st). injection E as <-. exact K.
Qed.
Lemma sent_run sch : forall s c ms, sent c s ms -> sent c (srun sch s) ms.
Proof.
  induction sch as [|m sch IH]; intros s c ms K; [exact K|]. change (sent c (srun sch (sact s m)) ms). apply IH.
  unfold sact. destruct (sstep m s) eqn:E; [eapply sent_step; eauto|exact K].
Qed.

(** Even when the goroutines of connection [c0] (its handlers, say) never move
    again: everything the other peers sent can be handled to the end. *)
Theorem C110_progress q n sch c0 :
  let s := srun sch (sstart 0 q n) in
  exists sch', let t := srun sch' s in
    stuck c0 sch' s
    /\ forall c ms, c <> c0 -> sent c s ms ->
         Permutation (calls (story c t)) ms /\ (q = true -> story c t = served_story c ms).
Proof.
  intros s. destruct (C32_comes_to_rest 0 q n sch) as [_ (sch1 & _ & ST)]. fold s in ST.
  assert (L : limit s = 0%Z) by (apply limit_run; reflexivity).
  destruct (alike_run c0 [] sch1 s s (alike_refl c0 s L)) as (l & A & U & _).
  exists l. intros t. split; [exact U|]. intros c ms D K. unfold t. rewrite (alike_story _ _ _ c A D).
  apply (sent_run sch1) in K. unfold s in K, ST |- *. rewrite <- srun_app in K, ST |- *. split.
  - apply (C65_exactly_once q n (sch ++ sch1) c ms); assumption.
  - intros ->. apply C35_complete_unlimited; assumption.
Qed.
Print Assumptions C110_progress.

(** Connection 0 sits in a handler that does not return; connection 1 comes
    later and is served to its end. *)
Definition hung : server :=
  srun (come 0 [hello; echo] ++ [MRecv 0; MServe 0; MServe 0; MServe 0]) (sstart 0 true 1).
Definition past_it : list move :=
  come 0 [barrier] ++ [MRecv 1] ++ repeat (MServe 1) 6 ++ [MRecv 1] ++ repeat (MServe 1) 4.
Example C110_ex :
  story 0 hung = [EState 0 StateNew; EState 0 StateHandshake; ECall 0 (MkWriter 0 4 (Header_Transaction (Request_Header hello))) hello]
  /\ stuck 0 past_it hung /\ story 0 (srun past_it hung) = story 0 hung
  /\ story 1 (srun past_it hung) = served_story 1 [barrier] /\ sent 1 (srun past_it hung) [barrier].
Proof.
  split; [vm_compute; reflexivity|split; [|split; [vm_compute; reflexivity|split; [vm_compute; reflexivity|]]]].
  - vm_compute. repeat split.
  - exists (MkCn [barrier] [] REnd VGone). vm_compute. auto.
Qed.

(** With a limit this is not so: one connection that is held keeps all the others out. *)
Definition held (ms : list Request) (s : server) : Prop :=
  limit s = 1%Z /\ counter s = 1%Z /\ hands s = []
  /\ (exists p, loops s = [p] /\ p <> LSpawn 0 /\ forall c, p <> LSpawn c /\ forall z, p = LTest c z -> (1 <= z)%Z)
  /\ nth_error (cns s) 0 = Some (MkCn ms ms RReading VWait)
  /\ (forall c x, c <> 0 -> nth_error (cns s) c = Some x -> crcv x = RNot /\ cserve x = VNot)
  /\ calls (trace s) = [].

Lemma held_step ms s m : held ms s -> own_move 0 s m = false -> held ms (sact s m).
Proof.
  intros (L & C & H & (p & P & P0 & P1) & X0 & X & T) O. unfold sact.
  destruct (sstep m s) as [t|] eqn:E; [|repeat split; eauto; eapply X; eauto].
  assert (CL : forall c, cns s <> [] /\ (nth_error (cns s) c = None \/ exists x, nth_error (cns s) c = Some x)).
  { intros c. split; [intros K; rewrite K in X0; discriminate|]. destruct (nth_error (cns s) c); eauto. }
  destruct m as [k ms1|d|d|j]; cbn [sstep own_move] in E, O.
  - unfold loop_step in E. rewrite P in E. destruct k as [|k]; [|destruct k; discriminate]. cbn [nth_error] in E.
    assert (TS : forall e, calls [e] = [] -> calls (trace s ++ [e]) = []).
    { intros e K. unfold calls in *. rewrite flat_map_app, T, K. reflexivity. }
    destruct p as [|d|d|d z|d|d|d].
    + injection E as <-. unfold held. cbn [limit counter hands loops cns trace with_loop with_new]. rewrite P. cbn [setnth].
      repeat split; auto.
      * eexists. split; [reflexivity|]. split; [discriminate|]. split; discriminate.
      * rewrite nth_error_app1; [exact X0|apply nth_error_lt in X0; exact X0].
      * destruct (Nat.lt_ge_cases c (length (cns s))) as [J|J].
        -- rewrite nth_error_app1 in H1 by exact J. eapply X; eauto.
        -- rewrite nth_error_app2 in H1 by exact J. destruct (c - length (cns s)) as [|i]; [|destruct i; discriminate].
           injection H1 as <-. reflexivity.
      * destruct (Nat.lt_ge_cases c (length (cns s))) as [J|J].
        -- rewrite nth_error_app1 in H1 by exact J. eapply X; eauto.
        -- rewrite nth_error_app2 in H1 by exact J. destruct (c - length (cns s)) as [|i]; [|destruct i; discriminate].
           injection H1 as <-. reflexivity.
    + injection E as <-. unfold held. cbn [limit counter hands loops cns trace with_loop emits]. rewrite P. cbn [setnth].
      split; [auto|]. split; [auto|]. split; [auto|]. split; [|auto].
      eexists. split; [reflexivity|]. split; [discriminate|]. split; discriminate.
    + injection E as <-. unfold held. cbn [limit counter hands loops cns trace with_loop emits]. rewrite P, C. cbn [setnth].
      split; [auto|]. split; [auto|]. split; [auto|]. split; [|auto].
      eexists. split; [reflexivity|]. split; [discriminate|]. split; [discriminate|]. intros z' K. injection K as _ <-. lia.
    + assert (Z1 : (1 <= z)%Z) by (apply (P1 d); reflexivity).
      rewrite L in E. change (wrap32 1) with 1%Z in E. destruct (Z.leb_spec 1 z); [|lia]. cbn [Z.eqb negb andb] in E.
      injection E as <-. unfold held. cbn [limit counter hands loops cns trace with_loop emits]. rewrite P. cbn [setnth].
      split; [auto|]. split; [auto|]. split; [auto|]. split; [|auto].
      eexists. split; [reflexivity|]. split; [discriminate|]. split; discriminate.
    + injection E as <-. unfold held. cbn [limit counter hands loops cns trace with_loop emits]. rewrite P. cbn [setnth].
      split; [auto|]. split; [auto|]. split; [auto|]. split; [|auto].
      eexists. split; [reflexivity|]. split; [discriminate|]. split; discriminate.
    + injection E as <-. unfold held. cbn [limit counter hands loops cns trace with_loop emits]. rewrite P. cbn [setnth].
      split; [auto|]. split; [auto|]. split; [auto|]. split; [|auto].
      eexists. split; [reflexivity|]. split; [discriminate|]. split; discriminate.
    + destruct (P1 d) as [K _]. contradiction.
  - apply Nat.eqb_neq in O. unfold recv_step in E. destruct (nth_error (cns s) d) as [[a b r v]|] eqn:Y; [|discriminate].
    destruct (X d _ O Y) as [R1 R2]. cbn in R1. rewrite R1 in E. discriminate.
  - apply Nat.eqb_neq in O. unfold serve_step in E. destruct (nth_error (cns s) d) as [[a b r v]|] eqn:Y; [|discriminate].
    destruct (X d _ O Y) as [R1 R2]. cbn in R2. rewrite R2 in E. discriminate.
  - unfold hand_step in E. rewrite H in E. destruct j; discriminate.
Qed.

Lemma held_run ms sch : forall s, held ms s -> stuck 0 sch s -> held ms (srun sch s).
Proof.
  induction sch as [|m sch IH]; intros s Hs K; [exact Hs|]. destruct K as [O K].
  change (held ms (srun sch (sact s m))). apply IH; [apply held_step; assumption|exact K].
Qed.

Theorem C110_limit_refuted q ms : exists sch, forall sch',
  let s := srun sch (sstart 1 q 1) in
  sent 0 s ms /\ (stuck 0 sch' s -> calls (trace (srun sch' s)) = []).
Proof.
  exists (come 0 ms). intros sch' s. split.
  - exists (MkCn ms ms RReading VWait). split; reflexivity.
  - intros K. assert (HS : held ms s).
    { repeat split; try reflexivity.
      - exists LIdle. split; [reflexivity|]. split; [discriminate|]. split; discriminate.
      - destruct c as [|[|c]]; [lia|discriminate..].
      - destruct c as [|[|c]]; [lia|discriminate..]. }
    apply (held_run ms sch' s HS K).
Qed.
Print Assumptions C110_limit_refuted.
