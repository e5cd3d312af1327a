(** C115: operations on a shared multiplexer happen as if one at a time. *)
From Verif Require Import MuxSpec MuxFacts AtomicSpec P_Mux.
From Coq Require Import Lia Permutation.

Definition tabled (es : list entry) : handlers := fun k =>
  match find (fun e => mkey_eqb (ekey e) k) es with Some e => Some (ehandler e, eonce e) | None => None end.

Lemma tabled_registered k es : tabled es k <> None <-> registered k es = true.
Proof. unfold tabled. rewrite registered_find. destruct (find _ es); split; congruence. Qed.
Lemma tabled_some k es : tabled es k <> None -> exists e, In e es /\ ekey e = k.
Proof. intros H. apply tabled_registered, registered_spec in H. exact H. Qed.
Lemma tabled_in es e : (forall k, count k es <= 1) -> In e es -> tabled es (ekey e) = Some (ehandler e, eonce e).
Proof.
  intros C I. unfold tabled. destruct (find (fun x => mkey_eqb (ekey x) (ekey e)) es) as [x|] eqn:F.
  - apply find_some in F. destruct F as [F1 F2]. destruct (mkey_eqb_spec (ekey x) (ekey e)) as [E|]; [|discriminate].
    rewrite (count_two (ekey e) es x e (C _) F1 I E eq_refl). reflexivity.
  - apply (find_none _ _ F) in I. rewrite mkey_eqb_refl in I. discriminate.
Qed.
Lemma tabled_cons e es : updated (ekey e) (Some (ehandler e, eonce e)) (tabled es) (tabled (e :: es)).
Proof.
  split; unfold tabled; cbn [find].
  - rewrite mkey_eqb_refl. reflexivity.
  - intros j J. destruct (mkey_eqb_spec (ekey e) j); congruence.
Qed.
Lemma tabled_removed k es : updated k None (tabled es) (tabled (removed k es)).
Proof.
  split.
  - destruct (tabled (removed k es) k) eqn:E; [|reflexivity]. exfalso.
    assert (H : tabled (removed k es) k <> None) by congruence. apply tabled_some in H. destruct H as (e & I & K).
    apply in_removed in I. tauto.
  - intros j J. unfold tabled. induction es as [|e es IH]; [reflexivity|]. cbn [removed filter].
    destruct (mkey_eqb_spec (ekey e) k) as [E|E]; cbn [negb find].
    + destruct (mkey_eqb_spec (ekey e) j); [congruence|exact IH].
    + destruct (mkey_eqb (ekey e) j); [reflexivity|exact IH].
Qed.

(** Where a goroutine is in its program; a scan sees the map as it is. *)
Definition placed (prog : nat -> list mop) (s : mux) : Prop := forall i,
  let n := results_of i (mresults s) in
  match mat (mthreads s i) with
  | MIdle => mtodo (mthreads s i) = skipn n (prog i)
  | MScan snap _ r0 _ => nth_error (prog i) n = Some (OServe r0) /\ mtodo (mthreads s i) = skipn (S n) (prog i)
      /\ snap = entries s /\ In i (readers s)
  | MTaking _ _ r0 _ => nth_error (prog i) n = Some (OServe r0) /\ mtodo (mthreads s i) = skipn (S n) (prog i)
  | MDead => True
  end.

Lemma results_same i h o : results_of i (h ++ [(i, o)]) = S (results_of i h).
Proof. unfold results_of. rewrite filter_app, app_length. cbn. rewrite Nat.eqb_refl. cbn. lia. Qed.
Lemma results_other i j h o : j <> i -> results_of j (h ++ [(i, o)]) = results_of j h.
Proof.
  intro N. unfold results_of. rewrite filter_app, app_length. cbn. destruct (Nat.eqb_spec i j); [congruence|]. cbn. lia.
Qed.
Lemma skipn_cons {A} n (l : list A) x t : skipn n l = x :: t -> nth_error l n = Some x /\ skipn (S n) l = t.
Proof.
  revert l. induction n as [|n IH]; intros l E; [destruct l; [discriminate|]; cbn in E; injection E as -> ->; auto|].
  destruct l as [|y l]; [discriminate|]. cbn in E. apply IH in E. exact E.
Qed.
Lemma in_drop i j l : j <> i -> In j l -> In j (drop_reader i l).
Proof. intros N I. unfold drop_reader. apply filter_In. split; [exact I|]. destruct (Nat.eqb_spec j i); [congruence|reflexivity]. Qed.

Lemma placed_step fs prog i s s' : placed prog s -> mtrans fs i s s' -> placed prog s'.
Proof.
  intros P H j. cbv zeta. pose proof (P i) as Pi. pose proof (P j) as Pj. cbv zeta in Pi, Pj.
  destruct H; match goal with Ht : mthreads s' = _ |- _ => at_thread j i Ht; cbn [mat mtodo] end;
    match goal with Ha : mat (mthreads s i) = _ |- _ => rewrite Ha in Pi end;
    repeat match goal with Hr : mresults s' = _ |- _ => rewrite Hr; clear Hr end;
    rewrite ?results_same; rewrite ?results_other by assumption;
    repeat match goal with He : entries s' = _ |- _ => rewrite He end;
    repeat match goal with He : readers s' = _ |- _ => rewrite He end.
  - rewrite H0 in Pi. symmetry in Pi. apply skipn_cons in Pi. destruct Pi as [A B]. split; [exact A|]. split; [auto|].
    split; [reflexivity|left; reflexivity].
  - destruct (mat (mthreads s j)); auto. destruct Pj as (A & B & C & D). repeat split; auto. right. exact D.
  - rewrite H0 in Pi. symmetry in Pi. apply skipn_cons in Pi. destruct Pi as [A B]. auto.
  - destruct (mat (mthreads s j)); auto. destruct Pj as (A & B & C & D). rewrite H2 in D. destruct D.
  - apply Pi.
  - destruct (mat (mthreads s j)); auto. destruct Pj as (A & B & C & D). repeat split; auto. apply in_drop; assumption.
  - exact I.
  - exact Pj.
  - destruct Pi as (A & B & C & D). auto.
  - exact Pj.
  - destruct Pi as (A & B & C & D). auto.
  - destruct (mat (mthreads s j)); auto. destruct Pj as (A & B & C & D). repeat split; auto. apply in_drop; assumption.
  - apply Pi.
  - destruct (mat (mthreads s j)); auto. destruct Pj as (A & B & C & D). repeat split; auto. apply in_drop; assumption.
  - apply Pi.
  - destruct (mat (mthreads s j)); auto. destruct Pj as (A & B & C & D). rewrite H0 in D. destruct D.
  - apply Pi.
  - destruct (mat (mthreads s j)); auto. destruct Pj as (A & B & C & D). rewrite H0 in D. destruct D.
Qed.
Lemma placed_run fs prog sch : placed prog (mrun fs sch (mstart prog)).
Proof. apply mrun_inv; [intro i; reflexivity|intros; eapply placed_step; eassumption]. Qed.

Lemma register_does fs lossy m h once id es es' x : register m h once id es = (es', x) ->
  does fs lossy (tabled es) (OHandle m h once) (Registered x) (tabled es').
Proof.
  unfold register. destruct m as [k|]; [|intro H; injection H as <- <-; constructor; intro; reflexivity].
  destruct h as [f|]; [|intro H; injection H as <- <-; constructor; intro; reflexivity].
  destruct (registered k es) eqn:Hr; intro H; injection H as <- <-.
  - apply DDuplicate; [apply tabled_registered; exact Hr|intro; reflexivity].
  - apply DRegistered; [|exact (tabled_cons (MkEntry k f once id) es)].
    destruct (tabled es k) eqn:E; [|reflexivity]. assert (T : tabled es k <> None) by congruence.
    apply tabled_registered in T. congruence.
Qed.

(** One step keeps the order of results an order of operations. *)
Lemma atomic_step fs lossy prog i s s' : plain_prog fs prog ->
  known s -> from_prog prog s -> conserved s -> right fs s -> placed prog s ->
  (lossy = true \/ permanent_only prog) -> (forall k, count k (registrations s) <= 1 \/ permanent_only prog) ->
  one_at_a_time fs lossy prog (mresults s) (tabled (entries s)) -> mtrans fs i s s' ->
  one_at_a_time fs lossy prog (mresults s') (tabled (entries s')).
Proof.
  intros Hp [K1 K2] [F1 F2] [T C] [R1 _] P L U O H.
  assert (Pl : forall e, In e (registrations s) -> forall r, exists b, match_of fs (ekey e) r = Says b r).
  { intros e He r. destruct (F2 e He) as [j Hj]. exact (Hp j _ _ _ Hj r). }
  assert (N : forall e, In e (registrations s) -> eonce e = true -> permanent_only prog -> False).
  { intros e He Eo Q. destruct (F2 e He) as [j Hj]. rewrite Eo in Hj. exact (Q _ _ _ Hj). }
  specialize (P i). cbv zeta in P. specialize (K2 i). specialize (R1 i).
  destruct H; rewrite H in P, K2, R1; repeat match goal with E : mresults s' = _ |- _ => rewrite E; clear E end;
    repeat match goal with E : entries s' = _ |- _ => rewrite E; clear E end; try exact O.
  - rewrite H0 in P. symmetry in P. apply skipn_cons in P. destruct P as [P _].
    eapply ONext; [exact O|exact P|]. eapply register_does. eassumption.
  - destruct P as (P & _ & -> & _). destruct K2 as [K2 _], R1 as [-> R1]. eapply ONext; [exact O|exact P|].
    apply DNoMatch; [|intro; reflexivity]. intros k Hk. apply tabled_some in Hk. destruct Hk as (e & He & <-).
    destruct (Pl e (K1 e He) r0) as [[|] Hb]; [|exact Hb]. exfalso. destruct (R1 e He) as [[]|A]. apply A. exists r0. exact Hb.
  - destruct P as (P & _ & -> & _). destruct K2 as [K2 K3], R1 as [-> R1]. eapply ONext; [exact O|exact P|].
    pose proof (K3 e H0) as He. destruct (Pl e (K1 e He) r0) as [b Hb]. rewrite Hb in H1. injection H1 as -> <-.
    apply DPermanent; [|exact Hb|exact H2|intro; reflexivity]. rewrite <- H2. apply tabled_in; [intro k; apply C|exact He].
  - destruct P as (P & _). destruct K2 as [K2 K3], R1 as (-> & R2 & R3). eapply ONext; [exact O|exact P|].
    pose proof (T _ _ _ _ _ H) as Eo. pose proof (K2 e K3) as He.
    destruct R3 as [r' R3]. rewrite asked_eq in R3. destruct (Pl e He r0) as [b Hb]. rewrite Hb in R3. injection R3 as -> <-.
    apply DDisposable; [|exact Hb|exact Eo|apply tabled_removed].
    apply registered_spec in H1. destruct H1 as (e' & I' & E').
    assert (e' = e) as ->.
    { destruct (U (ekey e)) as [U1|U1]; [|exfalso; eapply N; eassumption].
      apply (count_two (ekey e) (registrations s)); auto. }
    rewrite <- Eo. apply tabled_in; [intro k; apply C|exact I'].
  - destruct P as (P & _). destruct K2 as [K2 K3], R1 as (-> & R2 & R3). eapply ONext; [exact O|exact P|].
    pose proof (T _ _ _ _ _ H) as Eo.
    destruct L as [L|L]; [|exfalso; eapply (N e); [exact (K2 e K3)|exact Eo|exact L]].
    apply DDropped; [exact L|intro; reflexivity].
Qed.

Lemma atomic_run fs lossy prog sch : plain_prog fs prog ->
  (lossy = true \/ permanent_only prog) ->
  (permanent_only prog \/ forall k, count k (registrations (mrun fs sch (mstart prog))) <= 1) ->
  one_at_a_time fs lossy prog (mresults (mrun fs sch (mstart prog))) (tabled (entries (mrun fs sch (mstart prog)))).
Proof.
  intros Hp L. induction sch as [|a sch IH] using rev_ind; intro U; [apply ONone; intro; reflexivity|].
  rewrite mrun_app in *. set (s := mrun fs sch (mstart prog)) in *.
  assert (U0 : permanent_only prog \/ forall k, count k (registrations s) <= 1).
  { destruct U as [U|U]; [left; exact U|right]. intro k. destruct (registrations_run fs [a] s) as [_ G].
    specialize (G k). specialize (U k). lia. }
  specialize (IH U0). change (mrun fs [a] s) with (mact fs s a) in *. unfold mact in *.
  destruct (mstep fs (fst a) (snd a) s) as [s'|] eqn:E; [|exact IH].
  eapply (atomic_step fs lossy prog (fst a) s s' Hp); try exact IH.
  - exact (known_run fs sch prog).
  - exact (from_prog_run fs sch prog).
  - exact (conserved_run fs sch prog).
  - exact (right_run fs prog sch Hp).
  - exact (placed_run fs prog sch).
  - exact L.
  - intro k. destruct U0; auto.
  - eapply mstep_trans. exact E.
Qed.

(** Without disposable handlers, any number of goroutines registering handlers
    and serving requests on one multiplexer get results that the same
    operations have one at a time, in the order in which they end. *)
Theorem C115_atomic : forall fs prog sch, plain_prog fs prog -> permanent_only prog ->
  let s := mrun fs sch (mstart prog) in
  exists M, one_at_a_time fs false prog (mresults s) M
  /\ forall k v, M k = Some v <-> exists e, In e (entries s) /\ ekey e = k /\ (ehandler e, eonce e) = v.
Proof.
  intros fs prog sch Hp Hq s. exists (tabled (entries s)). split; [apply atomic_run; auto|].
  pose proof (proj2 (conserved_run fs sch prog)) as C. fold s in C. intros k v. split.
  - intro E. assert (X : tabled (entries s) k <> None) by congruence. apply tabled_some in X.
    destruct X as (e & I & <-). exists e. split; [exact I|]. split; [reflexivity|].
    rewrite (tabled_in (entries s) e (fun k => proj2 (C k)) I) in E. congruence.
  - intros (e & I & <- & <-). apply tabled_in; [intro k; apply C|exact I].
Qed.
Print Assumptions C115_atomic.

(** With disposable handlers the same holds as long as no matcher is
    registered twice, except that a request may be discarded ... *)
Theorem C115_disposable : forall fs prog sch, plain_prog fs prog ->
  let s := mrun fs sch (mstart prog) in (forall k, count k (registrations s) <= 1) ->
  exists M, one_at_a_time fs true prog (mresults s) M
  /\ forall k v, M k = Some v <-> exists e, In e (entries s) /\ ekey e = k /\ (ehandler e, eonce e) = v.
Proof.
  intros fs prog sch Hp s U. exists (tabled (entries s)). split; [apply atomic_run; auto|].
  pose proof (proj2 (conserved_run fs sch prog)) as C. fold s in C. intros k v. split.
  - intro E. assert (X : tabled (entries s) k <> None) by congruence. apply tabled_some in X.
    destruct X as (e & I & <-). exists e. split; [exact I|]. split; [reflexivity|].
    rewrite (tabled_in (entries s) e (fun k => proj2 (C k)) I) in E. congruence.
  - intros (e & I & <- & <-). apply tabled_in; [intro k; apply C|exact I].
Qed.
Print Assumptions C115_disposable.

(** ... which only happens after another request used up a disposable handler
    that matched this one. *)
Definition excused (fs : nat -> Request -> verdict) (h : list (nat * outcome)) : Prop :=
  forall h1 i r snap r' h2, h = h1 ++ (i, Served r snap Lost r') :: h2 ->
  exists j q snap' e q', In (j, Served q snap' (Chosen e) q') h1 /\ eonce e = true /\ asked fs (ekey e) r = Says true r.

Lemma excused_snoc fs h i o : excused fs h ->
  (forall r snap r', o = Served r snap Lost r' -> exists j q snap' e q',
     In (j, Served q snap' (Chosen e) q') h /\ eonce e = true /\ asked fs (ekey e) r = Says true r) ->
  excused fs (h ++ [(i, o)]).
Proof.
  intros X N h1 j r snap r' h2 E. destruct h2 as [|y h2 _] using rev_ind.
  - apply app_inj_tail in E. destruct E as [<- E]. injection E as _ E. eapply N. exact E.
  - replace (h1 ++ (j, Served r snap Lost r') :: h2 ++ [y]) with ((h1 ++ (j, Served r snap Lost r') :: h2) ++ [y]) in E
      by (rewrite <- app_assoc; reflexivity).
    apply app_inj_tail in E. destruct E as [E _]. eapply X. exact E.
Qed.

Theorem C115_discarded : forall fs prog sch, plain_prog fs prog -> excused fs (mresults (mrun fs sch (mstart prog))).
Proof.
  intros fs prog sch Hp. induction sch as [|a sch IH] using rev_ind; [intros [|] ? ? ? ? ? E; discriminate|].
  rewrite mrun_app. set (s := mrun fs sch (mstart prog)) in *. change (mrun fs [a] s) with (mact fs s a). unfold mact.
  destruct (mstep fs (fst a) (snd a) s) as [s'|] eqn:E; [|exact IH]. apply mstep_trans in E.
  pose proof (known_run fs sch prog) as [_ K]. pose proof (conserved_run fs sch prog) as [T C].
  pose proof (from_prog_run fs sch prog) as [_ F]. pose proof (right_run fs prog sch Hp) as [R _]. fold s in K, T, C, F, R.
  specialize (K (fst a)). specialize (R (fst a)).
  destruct E; match goal with E : mresults s' = _ |- _ => rewrite E end; try exact IH;
    apply excused_snoc; try exact IH; intros r1 snap1 r1' Eo; try discriminate.
  injection Eo as -> -> ->. rewrite H in K, R. destruct K as [K1 K2], R as (-> & R2 & r' & R3).
  destruct (F e (K1 e K2)) as [j Hj]. destruct (Hp j _ _ _ Hj r1) as [b Hb]. rewrite Hb in R3. injection R3 as -> _.
  specialize (C (ekey e)). destruct C as [C _]. apply count_zero in H1.
  assert (X : count (ekey e) (registrations s) <> 0).
  { intro Z. apply count_zero in Z. assert (registered (ekey e) (registrations s) = true) by (apply registered_spec; eauto). congruence. }
  assert (Y : count (ekey e) (disposed s) <> 0) by lia.
  assert (Z : registered (ekey e) (disposed s) = true).
  { destruct (registered (ekey e) (disposed s)) eqn:Q; [reflexivity|]. apply count_zero in Q. congruence. }
  apply registered_spec in Z. destruct Z as (e' & I & Ek). unfold disposed in I. apply in_flat_map in I.
  destruct I as ([j' o] & I1 & I2). destruct o as [|q snap' c q']; [destruct I2|]. destruct c as [e''| |]; try (destruct I2; fail).
  cbn in I2. destruct (eonce e'') eqn:Eo'; [|destruct I2]. destruct I2 as [->|[]].
  exists j', q, snap', e', q'. split; [exact I1|]. split; [exact Eo'|]. rewrite Ek. exact Hb.
Qed.
Print Assumptions C115_discarded.

(** Results are listed as operations end: what had ended earlier comes first. *)
Theorem C115_real_time : forall fs prog sch later, exists rest,
  mresults (mrun fs (sch ++ later) (mstart prog)) = mresults (mrun fs sch (mstart prog)) ++ rest.
Proof.
  intros fs prog sch later. rewrite mrun_app. set (s := mrun fs sch (mstart prog)).
  apply (mrun_inv fs (fun s' => exists rest, mresults s' = mresults s ++ rest)).
  - exists []. rewrite app_nil_r. reflexivity.
  - intros i s1 s2 [rest E] H. destruct H; match goal with E : mresults s2 = _ |- _ => rewrite E end;
      try (exists rest; exact E); rewrite E, <- app_assoc; eexists; reflexivity.
Qed.
Print Assumptions C115_real_time.

(** A multiplexer that works one at a time gives a disposable handler to at
    most one request per registration, and discards nothing. *)
Definition uses (k : mkey) (f : nat) (h : list (nat * outcome)) : nat := length (filter (fun x =>
  match snd x with Served _ _ (Chosen e) _ => same_key (ekey e) k && (ehandler e =? f) && eonce e | _ => false end) h).
Definition grants (k : mkey) (f : nat) (h : list (nat * outcome)) : nat := length (filter (fun x =>
  match snd x with Registered (RegOk e) => same_key (ekey e) k && (ehandler e =? f) && eonce e | _ => false end) h).

Theorem C115_one_use : forall fs lossy prog h M, one_at_a_time fs lossy prog h M -> forall k f,
  uses k f h + (match M k with Some (g, true) => if g =? f then 1 else 0 | _ => 0 end) <= grants k f h.
Proof.
  intros fs lossy prog h M H k f. induction H as [M Z|h M i op o M' H IH Hn D].
  - rewrite Z. cbn. lia.
  - unfold uses, grants in *. rewrite same_key_eq in *. rewrite !filter_app, !app_length. cbn [filter snd length].
    destruct D; cbn [length andb ekey ehandler eonce];
      try (match goal with Q : same_handlers _ _ |- _ => rewrite Q end); try lia.
    + destruct H1 as [A B]. destruct (mkey_eqb_spec k0 k) as [->|Nk].
      * rewrite A, H0 in *. destruct once; cbn [andb]; rewrite ?Bool.andb_false_r; cbn [length]; [|lia].
        rewrite Bool.andb_true_r. destruct (f0 =? f); cbn [length]; lia.
      * rewrite (B k) by congruence. cbn [andb length]. lia.
    + rewrite H2, Bool.andb_false_r. cbn [length]. lia.
    + destruct H3 as [A B]. destruct (mkey_eqb_spec (ekey e) k) as [Ek|Nk].
      * rewrite <- Ek in *. rewrite A, H0 in *. rewrite H2, Bool.andb_true_r. cbn [andb].
        destruct (ehandler e =? f); cbn [length]; lia.
      * rewrite (B k) by congruence. cbn [andb length]. lia.
Qed.
Print Assumptions C115_one_use.

Lemma none_dropped fs prog h M : one_at_a_time fs false prog h M -> forall i r snap r', ~ In (i, Served r snap Lost r') h.
Proof.
  intro H. induction H as [|h M i op o M' H IH Hn D]; intros j r snap r' I; [destruct I|].
  apply in_app_or in I. destruct I as [I|[I|[]]]; [exact (IH _ _ _ _ I)|]. injection I as -> ->. inversion D. discriminate.
Qed.
Lemma filter_perm {A} (f : A -> bool) a b : Permutation a b -> length (filter f a) = length (filter f b).
Proof. intro H. induction H; cbn; try (destruct (f x)); try (destruct (f y)); cbn; lia. Qed.

(** Two requests and one disposable handler: in no order do the operations
    have these results one at a time, because a request is discarded that also
    matches a permanent handler. *)
Theorem C115_exact_refuted : exists sch,
  let s := mrun demo sch (mstart once_prog) in
  (forall k, count k (registrations s) <= 1)
  /\ forall h M, Permutation h (mresults s) -> ~ one_at_a_time demo false once_prog h M.
Proof.
  exists [(4,0); (0,0); (5,0); (6,0); (5,0); (6,0); (5,0); (6,0)]. cbv zeta.
  set (s := mrun _ _ _). split.
  - intro k. assert (E : registrations s = [MkEntry (KPtr 100) 14 false 0; MkEntry (KPtr 1) 11 true 1]) by (vm_compute; reflexivity).
    rewrite E. rewrite !count_cons. cbn [ekey]. destruct (mkey_eqb_spec (KPtr 100) k), (mkey_eqb_spec (KPtr 1) k);
      change (count k []) with 0; try lia. congruence.
  - intros h M Pm O. assert (X : exists r snap r', In (6, Served r snap Lost r') (mresults s)).
    { eexists. eexists. eexists. vm_compute. right. right. right. left. reflexivity. }
    destruct X as (r & snap & r' & X). eapply (none_dropped _ _ _ _ O). eapply Permutation_in; [symmetry; exact Pm|exact X].
Qed.
Print Assumptions C115_exact_refuted.

(** When a matcher is registered again meanwhile, in no order do the operations
    have these results one at a time, even with discarded requests. *)
Theorem C115_reregistered_refuted : exists sch,
  let s := mrun demo sch (mstart once_prog) in
  forall h M, Permutation h (mresults s) -> ~ one_at_a_time demo true once_prog h M.
Proof.
  exists [(0,0); (0,0); (1,0); (0,0); (1,0); (0,0); (2,0); (1,0)]. cbv zeta. set (s := mrun _ _ _).
  intros h M Pm O. pose proof (C115_one_use _ _ _ _ _ O (KPtr 1) 11) as U. unfold uses, grants in U.
  rewrite !(filter_perm _ _ _ Pm) in U.
  assert (A : uses (KPtr 1) 11 (mresults s) = 2) by (vm_compute; reflexivity).
  assert (B : grants (KPtr 1) 11 (mresults s) = 1) by (vm_compute; reflexivity). unfold uses, grants in A, B.
  rewrite A, B in U. lia.
Qed.
Print Assumptions C115_reregistered_refuted.

(** Four goroutines, one of which scans while another waits to register. *)
Definition perm_prog (i : nat) : list mop :=
  match i with
  | 0 => [OHandle (Some (KType 2)) (Some 21) false; OHandle (Some (KType 2)) (Some 22) false]
  | 1 => [OServe (req 2 1 []); OServe (req 3 1 [])]
  | 2 => [OServe (req 3 1 [])]
  | 3 => [OHandle (Some (KType 3)) (Some 23) false]
  | _ => []
  end.
Lemma perm_plain : plain_prog demo perm_prog.
Proof.
  intros i k h once H. assert (E : k = KType 2 \/ k = KType 3).
  { destruct i as [|[|[|[|?]]]]; cbn in H; intuition congruence. }
  intro r. destruct E as [-> | ->]; eexists; reflexivity.
Qed.
Lemma perm_only : permanent_only perm_prog.
Proof. intros i m h H. destruct i as [|[|[|[|?]]]]; cbn in H; intuition congruence. Qed.
Example C115_ex :
  let s := mrun demo [(0,0); (1,0); (2,0); (3,0); (1,0); (2,0); (2,0); (3,0); (0,0); (1,0); (1,0); (1,0)] (mstart perm_prog) in
  map (fun x => (fst x, match snd x with Registered (RegOk e) => Some (ehandler e) | Served _ _ (Chosen e) _ => Some (ehandler e) | _ => None end))
    (mresults s) = [(0, Some 21); (1, Some 21); (2, None); (3, Some 23); (0, None); (1, Some 23)]
  /\ exists M, one_at_a_time demo false perm_prog (mresults s) M /\ M (KType 3) = Some (23, false).
Proof.
  set (sch := [(0,0); (1,0); (2,0); (3,0); (1,0); (2,0); (2,0); (3,0); (0,0); (1,0); (1,0); (1,0)]). cbv zeta.
  split; [vm_compute; reflexivity|].
  destruct (C115_atomic demo perm_prog sch perm_plain perm_only) as (M & O & E). exists M. split; [exact O|].
  apply E. exists (MkEntry (KType 3) 23 false 1). split; [|split; reflexivity]. vm_compute. auto.
Qed.
