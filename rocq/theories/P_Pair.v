(** C104: replies reach the one-shot handlers that wait for them. *)
From Verif Require Import RequestSpec MuxFacts PairSpec.
From Coq Require Import Lia.

Lemma disposed_grow fs i s s' k : mtrans fs i s s' -> count k (disposed s) <= count k (disposed s').
Proof.
  intro H. unfold disposed. destruct H;
    repeat match goal with H : mresults s' = _ |- _ => rewrite H end; rewrite ?flat_map_app, ?count_app; lia.
Qed.

(** A message that came too late: somebody else took the handler. *)
Definition taken (fs : nat -> Request -> verdict) (s : mux) : Prop :=
  forall i r snap r', In (i, Served r snap Lost r') (mresults s) ->
  exists e, In e snap /\ accepts fs e r /\ 1 <= count (ekey e) (disposed s).

Lemma count_in e l : In e l -> 1 <= count (ekey e) l.
Proof.
  intro H. destruct (count (ekey e) l) eqn:C; [|lia]. apply count_zero in C.
  assert (registered (ekey e) l = true) by (apply registered_spec; eauto). congruence.
Qed.

Lemma taken_run fs prog sch : plain_prog fs prog -> taken fs (mrun fs sch (mstart prog)).
Proof.
  intro Hp. induction sch as [|a sch IH] using rev_ind; [intros i r snap r' []|].
  rewrite mrun_app. cbn [mrun fold_left]. unfold mact.
  destruct (mstep fs (fst a) (snd a) (mrun fs sch (mstart prog))) as [s'|] eqn:E; [|exact IH].
  apply mstep_trans in E. set (s := mrun fs sch (mstart prog)) in *.
  intros i r snap r' H.
  assert (Old : In (i, Served r snap Lost r') (mresults s) ->
                exists e, In e snap /\ accepts fs e r /\ 1 <= count (ekey e) (disposed s')).
  { intro H0. destruct (IH _ _ _ _ H0) as (e & A & B & C). exists e. split; [exact A|]. split; [exact B|].
    pose proof (disposed_grow _ _ _ _ (ekey e) E). lia. }
  pose proof (conserved_run fs sch prog) as [_ CV]. pose proof (known_run fs sch prog) as [_ KN].
  pose proof (proj1 (right_run fs prog sch Hp)) as RT. fold s in CV, KN, RT.
  destruct E as [? ? ? ? ? ? R|? ? ? ? ? ? ? ? ? ? ? ? R|? ? ? ? ? ? R|? ? ? ? ? ? ? ? R|? ? ? ? ? ? ? ? ? ? ? ? R|? ? ? ? ? ? ? ? ? ? ? ? R|? ? ? ? ? ? ? ? ? ? ? ? R|? ? ? ? ? ? ? ? ? R|snap0 e r0 r1 At Nr Reg En Rd R Th];
    rewrite R in H; auto; try (apply in_app_or in H; destruct H as [H|[H|[]]]; [auto|discriminate H]).
  apply in_app_or in H. destruct H as [H|[H|[]]]; [auto|]. injection H as <- <- <- <-.
  specialize (KN (fst a)). specialize (RT (fst a)). rewrite At in KN, RT.
  destruct KN as [K1 K2]. destruct RT as (-> & _ & Acc).
  exists e. split; [exact K2|]. split; [exact Acc|].
  destruct (CV (ekey e)) as [C1 C2]. apply count_zero in Reg. rewrite Reg in C1.
  assert (D : disposed s' = disposed s) by (unfold disposed; rewrite R, flat_map_app; cbn; apply app_nil_r).
  rewrite D. pose proof (count_in e (registrations s) (K1 _ K2)). lia.
Qed.

Lemma chosen_known fs prog sch i r snap e r' : plain_prog fs prog ->
  In (i, Served r snap (Chosen e) r') (mresults (mrun fs sch (mstart prog))) ->
  In e (registrations (mrun fs sch (mstart prog))) /\ accepts fs e r.
Proof.
  intros Hp H. destruct (dispatch fs prog sch i r snap (Chosen e) r' Hp H) as (_ & [A B] & a & b & -> & ->).
  split; [|exact B]. apply (known_run fs a prog) in A. rewrite mrun_app.
  apply (registrations_run fs b (mrun fs a (mstart prog))), A.
Qed.

Lemma snap_known fs prog sch i r snap c r' : plain_prog fs prog ->
  In (i, Served r snap c r') (mresults (mrun fs sch (mstart prog))) ->
  incl snap (registrations (mrun fs sch (mstart prog))).
Proof.
  intros Hp H e A. destruct (dispatch fs prog sch i r snap c r' Hp H) as (_ & _ & a & b & -> & ->).
  apply (known_run fs a prog) in A. rewrite mrun_app.
  apply (registrations_run fs b (mrun fs a (mstart prog))), A.
Qed.

(** The messages given to the handlers of a matcher registered once, and the
    selections of its disposable entry. *)
Lemma given_disposed fs prog sch e : plain_prog fs prog -> let s := mrun fs sch (mstart prog) in
  In e (registrations s) -> eonce e = true -> count (ekey e) (registrations s) = 1 ->
  length (given (ekey e) s) = count (ekey e) (disposed s)
  /\ forall r, In r (given (ekey e) s) -> accepts fs e r.
Proof.
  intros Hp s Hi Ho Hc.
  assert (K : forall i r snap e' r', In (i, Served r snap (Chosen e') r') (mresults s) -> ekey e' = ekey e -> e' = e /\ accepts fs e r).
  { intros i r snap e' r' H E. destruct (chosen_known fs prog sch _ _ _ _ _ Hp H) as [A B].
    assert (X : e' = e) by (apply (count_two (ekey e) (registrations s)); auto; lia). subst e'. auto. }
  unfold given, disposed. rewrite same_key_eq. clearbody s. induction (mresults s) as [|[i o] l IH]; [split; [reflexivity|intros r []]|].
  cbn [flat_map snd]. rewrite count_app, app_length.
  destruct IH as [IH1 IH2]; [intros; eapply K; [right; eassumption|assumption]|].
  destruct o as [x|r snap [e'| |] r']; cbn [length]; try (split; [cbn; exact IH1|exact IH2]).
  specialize (K i r snap e' r' (or_introl eq_refl)).
  destruct (mkey_eqb_spec (ekey e') (ekey e)) as [E|E].
  - destruct (K E) as [-> A]. rewrite Ho, count_cons, mkey_eqb_refl. split; [cbn; lia|].
    intros q [<-|Hq]; auto.
  - split; [|exact IH2]. destruct (eonce e'); [|cbn; exact IH1].
    rewrite count_cons. destruct (mkey_eqb_spec (ekey e') (ekey e)); [contradiction|]. cbn. exact IH1.
Qed.

(** A one-shot handler that alone waits for a transaction is given only messages
    of this transaction, at most one, and one as soon as any was dispatched while
    the handler was registered: under every interleaving of any number of
    goroutines, and every order of map iteration. *)
Theorem C104_exactly_one : forall fs prog sch e x, plain_prog fs prog -> let s := mrun fs sch (mstart prog) in
  waits fs s e x ->
  (forall r, In r (given (ekey e) s) -> xid r = x)
  /\ length (given (ekey e) s) <= 1
  /\ (length (given (ekey e) s) = 1 <-> arrived e x s).
Proof.
  intros fs prog sch e x Hp s (Hi & Ho & Hc & Ha & Hu).
  destruct (given_disposed fs prog sch e Hp Hi Ho Hc) as [L A]. fold s in L, A.
  destruct (once_per_registration fs prog sch (ekey e)) as [C1 C2]. fold s in C1, C2.
  split; [intros r Hr; apply Ha, A, Hr|]. split; [lia|]. split.
  - intro E. unfold given in E.
    destruct (flat_map _ (mresults s)) as [|r0 l0] eqn:F; [discriminate|].
    assert (X : In r0 (given (ekey e) s)) by (unfold given; rewrite F; left; reflexivity).
    pose proof (A r0 X) as Acc. unfold given in X. rewrite same_key_eq in X. apply in_flat_map in X. destruct X as ([i o] & H & X).
    destruct o as [?|r snap [e'| |] r']; cbn [snd] in X; try contradiction.
    destruct (mkey_eqb_spec (ekey e') (ekey e)) as [E'|]; [|contradiction]. destruct X as [->|[]].
    exists i, r0, snap, (Chosen e'), r'. split; [exact H|]. split; [apply Ha, Acc|].
    destruct (dispatch fs prog sch _ _ _ _ _ Hp H) as (_ & [In' _] & _).
    destruct (chosen_known fs prog sch _ _ _ _ _ Hp H) as [Reg _]. fold s in Reg.
    assert (Q : e' = e) by (apply (count_two (ekey e) (registrations s)); auto; lia). subst e'. exact In'.
  - intros (i & r & snap & c & r' & H & Hx & He). rewrite L.
    assert (D : 1 <= count (ekey e) (disposed s)); [|lia].
    destruct (dispatch fs prog sch _ _ _ _ _ Hp H) as (_ & R & _).
    pose proof (snap_known fs prog sch _ _ _ _ _ Hp H) as SK. fold s in SK.
    destruct c as [e'| |]; cbn [right_choice] in R.
    + destruct R as [In' Acc']. assert (Q : e' = e) by (eapply Hu; eauto). subst e'. rewrite <- L.
      assert (X : In r (given (ekey e) s)).
      { unfold given. rewrite same_key_eq. apply in_flat_map. exists (i, Served r snap (Chosen e) r'). split; [exact H|].
        cbn [snd]. rewrite mkey_eqb_refl. left. reflexivity. }
      destruct (given (ekey e) s); [destruct X|cbn; lia].
    + exfalso. apply (R e He), Ha, Hx.
    + destruct (taken_run fs prog sch Hp _ _ _ _ H) as (e' & In' & Acc' & C). fold s in C.
      assert (Q : e' = e) by (eapply Hu; eauto). subst e'. exact C.
Qed.
Print Assumptions C104_exactly_one.

(** All other messages of the transaction are dropped: those that come before the
    handler is registered, and those that come after the first. *)
Theorem C104_others_dropped : forall fs prog sch e x i r snap c r', plain_prog fs prog ->
  let s := mrun fs sch (mstart prog) in
  waits fs s e x -> In (i, Served r snap c r') (mresults s) -> xid r = x -> c = Chosen e \/ c = Lost \/ c = NoMatch /\ ~ In e snap.
Proof.
  intros fs prog sch e x i r snap c r' Hp s (Hi & Ho & Hc & Ha & Hu) H Hx.
  destruct (dispatch fs prog sch _ _ _ _ _ Hp H) as (_ & R & _).
  pose proof (snap_known fs prog sch _ _ _ _ _ Hp H) as SK. fold s in SK.
  destruct c as [e'| |]; cbn [right_choice] in R; auto.
  - destruct R as [In' Acc']. left. f_equal. eapply Hu; eauto.
  - right. right. split; [reflexivity|]. intro He. apply (R e He), Ha, Hx.
Qed.
Print Assumptions C104_others_dropped.

(** ** Matchers made for request headers *)
Lemma awaited_accepts draw hdr fs p h once id r : from_header draw hdr fs p ->
  accepts fs (MkEntry (KPtr p) h once id) r <-> xid r = awaited draw hdr p.
Proof.
  intro F. unfold accepts, asked. cbn [ekey]. rewrite F. unfold awaited, xid, transaction_matcher. cbn [snd fst].
  split.
  - intros (r' & E). injection E as E _. apply N.eqb_eq. exact E.
  - intro E. exists r. apply N.eqb_eq in E. rewrite E. reflexivity.
Qed.

(** Requests with distinct transactions, each registered once: whatever the order
    in which replies are dispatched, each handler gets the reply to its own
    request, exactly one if any came after the registration, and messages of
    other transactions reach nobody. *)
Theorem C104_pairing : forall draw hdr fs prog sch,
  (forall i k h once, In (OHandle (Some k) h once) (prog i) -> once = true /\ exists p, k = KPtr p /\ from_header draw hdr fs p) ->
  let s := mrun fs sch (mstart prog) in
  (forall p q, registered (KPtr p) (registrations s) = true -> registered (KPtr q) (registrations s) = true ->
               awaited draw hdr p = awaited draw hdr q -> p = q) ->
  (forall k, count k (registrations s) <= 1) ->
  forall e, In e (registrations s) -> exists p, ekey e = KPtr p
    /\ (forall r, In r (given (ekey e) s) -> xid r = awaited draw hdr p)
    /\ length (given (ekey e) s) <= 1
    /\ (length (given (ekey e) s) = 1 <-> arrived e (awaited draw hdr p) s).
Proof.
  intros draw hdr fs prog sch HP s HD HC e He.
  assert (Hp : plain_prog fs prog).
  { intros i k h once Hi r. destruct (HP i k h once Hi) as [_ (p & -> & F)]. cbn [asked]. rewrite F.
    unfold transaction_matcher. cbn [snd]. eauto. }
  assert (Sh : forall e', In e' (registrations s) -> eonce e' = true /\ exists p, ekey e' = KPtr p /\ from_header draw hdr fs p).
  { intros e' He'. destruct (proj2 (from_prog_run fs sch prog) e' He') as [i Hi]. exact (HP i _ _ _ Hi). }
  destruct (Sh e He) as (Ho & p & Ek & F). exists p. split; [exact Ek|].
  apply (C104_exactly_one fs prog sch e (awaited draw hdr p) Hp). fold s.
  split; [exact He|]. split; [exact Ho|]. split.
  - pose proof (HC (ekey e)). pose proof (count_in e _ He). lia.
  - split.
    + intro r. destruct e as [k h o i]. cbn [ekey] in Ek. subst k. apply awaited_accepts, F.
    + intros e' r He' Acc Hx. destruct (Sh e' He') as (_ & q & Ek' & F').
      destruct e' as [k' h' o' i']. cbn [ekey] in Ek'. subst k'.
      apply (awaited_accepts draw hdr fs q h' o' i' r F') in Acc. rewrite Hx in Acc. apply HD in Acc;
        [subst q|apply registered_spec; eauto|apply registered_spec; exists (MkEntry (KPtr q) h' o' i'); auto].
      apply (count_two (KPtr p) (registrations s)); auto.
Qed.
Print Assumptions C104_pairing.

(** A header that was used before keeps its transaction: the second matcher waits
    for the same one. *)
Theorem C104_header_reused : forall d1 d2 h, d1 <> 0%N -> let h1 := fst (transaction_matcher d1 h) in
  fst (transaction_matcher d2 h1) = h1
  /\ forall r, snd (transaction_matcher d2 h1) r = snd (transaction_matcher d1 h) r.
Proof.
  intros d1 d2 [v t l x] Hd. unfold transaction_matcher. cbn [Header_Transaction fst snd].
  destruct (N.eqb_spec x 0) as [E|E]; unfold set_Header_Transaction;
    cbn [Header_Transaction Header_Version Header_Type Header_Length fst snd].
  - destruct (N.eqb_spec d1 0); [contradiction|]. auto.
  - destruct (N.eqb_spec x 0); [contradiction|]. auto.
Qed.
Print Assumptions C104_header_reused.

(** ** Cases *)
Definition reply (x : N) (b : bytes) : Request := MkRequest (MkHeader 4 19 (8 + lenN b) x) (BBuf b) 1 3 (Z.of_nat (length b)).

(** Three requests: transaction 70 set by the caller, 81 and 82 drawn. *)
Definition hdrs (p : nat) : Header := MkHeader 4 18 0 (if p =? 0 then 70 else 0).
Definition draws (p : nat) : N := 80 + N.of_nat p.
Definition made_by (draw : nat -> N) (hdr : nat -> Header) (p : nat) : Request -> verdict :=
  snd (transaction_matcher (draw p) (hdr p)).

Definition three (i : nat) : list mop :=
  match i with
  | 0 => [OHandle (Some (KPtr 0)) (Some 10) true; OHandle (Some (KPtr 1)) (Some 11) true; OHandle (Some (KPtr 2)) (Some 12) true]
  | 1 => [OServe (reply 82 [x02]); OServe (reply 70 [x00])]
  | 2 => [OServe (reply 82 [x03]); OServe (reply 81 [x01])]
  | _ => []
  end.

Example C104_pairing_ex :
  let fs := made_by draws hdrs in
  let s := mrun fs ([(0,0); (0,0); (0,0); (1,0); (1,1); (1,1); (2,0); (2,0); (1,0); (2,0); (1,0)]
                    ++ concat (repeat [(1,0); (2,0)] 8)) (mstart three) in
  length (registrations s) = 3
  /\ given (KPtr 0) s = [reply 70 [x00]] /\ given (KPtr 1) s = [reply 81 [x01]] /\ length (given (KPtr 2) s) = 1.
Proof. vm_compute. auto. Qed.

(** Two requests that drew the same transaction. *)
Definition same_draws (p : nat) : N := 80.
Definition no_ids (p : nat) : Header := MkHeader 4 18 0 0.
Definition two (i : nat) : list mop :=
  match i with
  | 0 => [OHandle (Some (KPtr 1)) (Some 11) true; OHandle (Some (KPtr 2)) (Some 12) true]
  | 1 => [OServe (reply 80 [x01])]
  | 2 => [OServe (reply 80 [x02])]
  | _ => []
  end.

(** Without distinct transactions the pairing is lost: both registrations succeed;
    in one run each handler gets the reply to the other request, in another one
    reply is dropped although a handler that waits for it stays registered. *)
Theorem C104_collision_refuted : 
  let fs := made_by same_draws no_ids in
  (exists sch, let s := mrun fs sch (mstart two) in
     given (KPtr 1) s = [reply 80 [x02]] /\ given (KPtr 2) s = [reply 80 [x01]])
  /\ exists sch, let s := mrun fs sch (mstart two) in
     length (registrations s) = 2 /\ given (KPtr 1) s = [] /\ given (KPtr 2) s = [reply 80 [x01]]
     /\ registered (KPtr 1) (entries s) = true
     /\ (forall i, mtodo (mthreads s i) = [] /\ mat (mthreads s i) = MIdle).
Proof.
  split.
  - exists [(0,0); (0,0); (1,0); (1,0); (1,0); (2,0); (2,0); (2,0)]. vm_compute. auto.
  - exists [(0,0); (0,0); (1,0); (2,0); (1,0); (2,0); (1,0); (2,0)].
    split; [vm_compute; reflexivity|]. split; [vm_compute; reflexivity|]. split; [vm_compute; reflexivity|].
    split; [vm_compute; reflexivity|]. intros [|[|[|i]]]; vm_compute; auto.
Qed.
Print Assumptions C104_collision_refuted.

(** Nor does a handler registered after the reply came ever run. *)
Definition late (i : nat) : list mop :=
  match i with
  | 0 => [OHandle (Some (KPtr 1)) (Some 11) true]
  | 1 => [OServe (reply 81 [x01])]
  | _ => []
  end.
Theorem C104_late_refuted : exists sch, let s := mrun (made_by draws hdrs) sch (mstart late) in
  given (KPtr 1) s = [] /\ registered (KPtr 1) (entries s) = true
  /\ (exists i snap r', In (i, Served (reply 81 [x01]) snap NoMatch r') (mresults s))
  /\ forall i, mtodo (mthreads s i) = [] /\ mat (mthreads s i) = MIdle.
Proof.
  exists [(1,0); (1,0); (0,0)]. split; [vm_compute; reflexivity|]. split; [vm_compute; reflexivity|]. split.
  - exists 1, [], (reply 81 [x01]). vm_compute. auto.
  - intros [|[|i]]; vm_compute; auto.
Qed.
Print Assumptions C104_late_refuted.
