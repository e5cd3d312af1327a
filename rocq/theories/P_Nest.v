(** C124: handlers that use multiplexers, and multiplexers that are handlers. *)
From Coq Require Import Permutation.
From Verif Require Import NestModel NestSpec NestFacts MuxSpec MuxFacts P_Mux.

(** C124: whatever handlers, nested multiplexers and other goroutines do, every
    multiplexer goes through a run of its own, of goroutines that only perform the
    operations performed on it. *)
Theorem C124_alone : forall fs body prog sch m, let s := nrun fs body sch (nstart prog) in
  exists sch', let x := mrun fs sch' (mstart (fun i => used m i s)) in
  entries x = entries (nmux s m) /\ mresults x = of_mux m (nlog s).
Proof.
  intros fs body prog sch m s. destruct (alone_run fs body prog sch m (fun _ => [])) as [sch' A]. fold s in A. exists sch'. cbv zeta.
  assert (X : forall i, used m i s = used m i s ++ []) by (intro; rewrite app_nil_r; reflexivity).
  destruct (ahead_trans _ _ _ _ (mrun_ext fs _ _ sch' X) A) as (E & _ & _ & R & _).
  split; [exact E|]. rewrite R. apply (tidy_run fs body prog sch).
Qed.
Print Assumptions C124_alone.

(** C124: a goroutine that has finished performed its operations in order, and behind
    each dispatch all operations of the handler that was called, to any depth. *)
Theorem C124_depth_first : forall fs body prog sch i, let s := nrun fs body sch (nstart prog) in
  ~ nbusy s i -> performs body (prog i) (of_goroutine i (nlog s)).
Proof.
  intros fs body prog sch i s H. rewrite <- (app_nil_r (of_goroutine i (nlog s))). apply (depth_run fs body prog sch i). fold s.
  unfold left_over, nbusy in *. destruct (nin s i) as [o|]; [destruct H; right; discriminate|].
  destruct (ntodo s i); [constructor|destruct H; left; discriminate].
Qed.
Print Assumptions C124_depth_first.

(** C124: registrations and uses of disposable handlers balance for every multiplexer
    and matcher; a call of Handler counts as a use. *)
Theorem C124_once : forall fs body prog sch m k, let s := nrun fs body sch (nstart prog) in
  mresults (nmux s m) = of_mux m (nlog s)
  /\ count k (disposed (nmux s m)) + count k (entries (nmux s m)) = count k (registrations (nmux s m))
  /\ count k (entries (nmux s m)) <= 1.
Proof.
  intros fs body prog sch m k s. pose proof (proj2 (tidy_run fs body prog sch) m) as R. fold s in R. split; [exact R|].
  destruct (C124_alone fs body prog sch m) as (sch' & E & Q). fold s in E, Q.
  pose proof (C22_once_per_registration fs (fun i => used m i s) sch' k) as C. cbv zeta in C.
  unfold disposed, registrations in *. rewrite E, Q in C. rewrite R. exact C.
Qed.
Print Assumptions C124_once.

(** ** What a dispatch saw *)
Definition snap_of (p : mpc) : option (list entry) :=
  match p with MScan snap _ _ _ | MTaking snap _ _ _ => Some snap | _ => None end.
Definition saw (M : mux) (snap : list entry) : Prop :=
  (exists j, snap_of (mat (mthreads M j)) = Some snap) \/ exists j r c r', In (j, Served r snap c r') (mresults M).

Lemma saw_mstep fs i n M M' snap : mstep fs i n M = Some M' -> saw M' snap -> saw M snap \/ snap = entries M.
Proof.
  intros E H. apply mstep_trans in E. unfold saw in H. destruct H as [(j & H)|(j & r1 & c & r2 & H)].
  - destruct E;
    match goal with X : mthreads M' = _ |- _ => rewrite X in H end; unfold mupd in H; destruct (Nat.eqb_spec j i) as [Ej|Nj];
      try (left; left; exists j; exact H); cbn in H; try discriminate;
      try (left; left; exists i; match goal with X : mat (mthreads M i) = _ |- _ => rewrite X end; exact H).
    right. congruence.
  - destruct E; match goal with X : mresults M' = _ |- _ => rewrite X in H end; try (left; right; exists j, r1, c, r2; exact H);
      apply in_app_or in H; destruct H as [H|H]; try (left; right; exists j, r1, c, r2; exact H);
      destruct H as [H|[]]; injection H as; try discriminate;
      left; left; exists i; match goal with X : mat (mthreads M i) = _ |- _ => rewrite X end; cbn; congruence.
Qed.

Lemma saw_run fs body prog sch m snap : saw (nmux (nrun fs body sch (nstart prog)) m) snap ->
  exists a b, sch = a ++ b /\ snap = entries (nmux (nrun fs body a (nstart prog)) m).
Proof.
  induction sch as [|a sch IH] using rev_ind.
  - intros [(j & H)|(j & r & c & r' & [])]. discriminate.
  - rewrite nrun_app. set (s := nrun fs body sch (nstart prog)) in *. cbn. unfold nact.
    destruct (nstep fs body (fst a) (snd a) s) as [s'|] eqn:E;
      [|intro H; destruct (IH H) as (x & y & -> & K); exists x, (y ++ [a]); rewrite app_assoc; auto].
    apply nstep_trans in E. destruct E as [o l M M' E W Hm R]. rewrite Hm.
    assert (Old : saw (nmux s m) snap -> exists a0 b, sch ++ [a] = a0 ++ b /\ snap = entries (nmux (nrun fs body a0 (nstart prog)) m)).
    { intro H; destruct (IH H) as (x & y & -> & K); exists x, (y ++ [a]); rewrite app_assoc; auto. }
    destruct (Nat.eq_dec m (nmux_of o)) as [->|Nm]; [rewrite put_same|rewrite (put_other _ _ _ _ Nm); exact Old].
    intro H. destruct (saw_mstep _ _ _ _ _ _ E H) as [K|K].
    + apply Old. destruct W as [(_ & _ & ->)|(_ & _ & ->)]; [exact K|]. destruct K as [(j & K)|K]; [|right; exact K].
      left. cbn in K. unfold mupd in K. destruct (j =? fst a); [discriminate|]. exists j. exact K.
    + exists sch, [a]. split; [reflexivity|]. rewrite K. destruct W as [(_ & _ & ->)|(_ & _ & ->)]; reflexivity.
Qed.

(** C124: with matchers that only look, every dispatch at every level chooses rightly
    among the entries that its multiplexer had at some moment. *)
Theorem C124_routed : forall fs body prog sch i o r snap c r', (forall p, plain (fs p)) ->
  In (i, o, Served r snap c r') (nlog (nrun fs body sch (nstart prog))) ->
  r' = r /\ right_choice fs snap r c
  /\ exists a b, sch = a ++ b /\ snap = entries (nmux (nrun fs body a (nstart prog)) (target o)).
Proof.
  intros fs body prog sch i o r snap c r' Hp H. set (s := nrun fs body sch (nstart prog)) in *. set (m := target o).
  assert (Q : In (i, Served r snap c r') (of_mux m (nlog s))).
  { unfold of_mux. apply in_map_iff. exists (i, o, Served r snap c r'). split; [reflexivity|]. apply filter_In. split; [exact H|apply Nat.eqb_refl]. }
  destruct (C124_alone fs body prog sch m) as (sch' & _ & R). fold s in R. rewrite <- R in Q.
  assert (PP : plain_prog fs (fun i => used m i s)).
  { intros j k h once _. destruct k as [t|p]; [intro x; eexists; reflexivity|apply Hp]. }
  destruct (C21_dispatch _ _ _ _ _ _ _ _ PP Q) as (E & C & _). split; [exact E|]. split; [exact C|].
  apply saw_run. right. exists i, r, c, r'. fold s. pose proof (proj2 (tidy_run fs body prog sch) m) as Z. fold s in Z. rewrite Z, <- R. exact Q.
Qed.
Print Assumptions C124_routed.

(** ** A multiplexer that leads back to itself *)
Definition leads (k : mkey) (h : nat) (e : entry) : Prop := ekey e = k /\ ehandler e = h /\ eonce e = false.

Definition circling (m i : nat) (k : mkey) (h : nat) (r : Request) (P : nat -> list nop) (s : nest) : Prop :=
  (forall e, In e (entries (nmux s m)) -> leads k h e)
  /\ (forall j, match mat (mthreads (nmux s m) j) with
                 | MScan snap rest _ _ => forall e, In e rest -> leads k h e | MTaking _ _ _ _ => False | _ => True end)
  /\ (forall j, j <> i -> no_registration m (ntodo s j))
  /\ (forall j a b c, nin s j <> Some (NHandle m a b c))
  /\ ((nin s i = None /\ ntodo s i = P i /\ entries (nmux s m) = [])
      \/ exists l, no_registration m l /\ entries (nmux s m) <> []
         /\ ((nin s i = None /\ ntodo s i = NServe m r :: l)
             \/ (nin s i = Some (NServe m r) /\ ntodo s i = l
                 /\ exists snap rest, mat (mthreads (nmux s m) i) = MScan snap rest r r /\ rest <> []))).

Lemma circling_step fs body m i k h r P j n s s' : 
  (forall rr, asked fs k r = Says true rr -> rr = r) -> accepts fs (MkEntry k h false 0) r ->
  (exists more, body h r = NServe m r :: more) -> (forall f q, no_registration m (body f q)) ->
  (exists l, P i = NHandle m (Some k) (Some h) false :: NServe m r :: l /\ no_registration m l) ->
  tidy s -> circling m i k h r P s -> ntrans fs body j n s s' -> circling m i k h r P s'.
Proof.
  intros Same [rr Acc] (more & Bd) Bn (l0 & Pi & Hl0) T C H. cbn [ekey] in Acc. rewrite asked_eq in Acc. pose proof (Same _ Acc) as ->.
  destruct C as (Ce & Cs & Ct & Cn & Ci). destruct H as [o l M M' E W Hm R].
  destruct (Nat.eq_dec j i) as [->|Nj].
  - (* the circling goroutine *)
    destruct Ci as [(N & Td & Em)|(l1 & Hl1 & Em & [(N & Td)|(N & Td & snap & rest & A & Hr)])].
    + destruct W as [(W & _)|(_ & W & EM)]; [congruence|]. rewrite Td, Pi in W. injection W as <- <-. cbn [nmux_of nmop] in *.
      subst M. unfold mstep, begun in E. cbn [mthreads entries readers nextid mresults] in E. unfold mupd at 1 2 in E. rewrite Nat.eqb_refl in E.
      cbn [mat mtodo] in E. destruct (readers (nmux s m)) eqn:Rd; [|discriminate]. rewrite Em in E. cbn in E. injection E as <-.
      cbn [mresults begun] in R. destruct R as [(R & _)|(x & R & Rt & Rn & _)].
      { apply (f_equal (@length _)) in R. rewrite app_length in R. cbn in R. lia. }
      unfold circling. rewrite Hm, put_same. cbn [entries mthreads]. rewrite Rt, Rn.
      split; [intros e [<-|[]]; repeat split|]. split.
      { intro j. unfold mupd. cbn [mthreads]. destruct (j =? i); [exact I|]. apply Cs. }
      split; [intros j Hj; rewrite put_other by exact Hj; apply Ct; exact Hj|].
      split; [intros j a b c; destruct (Nat.eq_dec j i) as [->|Hj]; [rewrite put_same; discriminate|rewrite put_other by exact Hj; apply Cn]|].
      right. exists l0. split; [exact Hl0|]. split; [discriminate|]. left. rewrite !put_same. split; reflexivity.
    + destruct W as [(W & _)|(_ & W & EM)]; [congruence|]. rewrite Td in W. injection W as <- <-. cbn [nmux_of nmop] in *.
      subst M. unfold mstep, begun in E. cbn [mthreads entries readers nextid mresults] in E. unfold mupd at 1 2 in E. rewrite Nat.eqb_refl in E.
      cbn [mat mtodo] in E. injection E as <-. cbn [mresults begun] in R. destruct R as [(R & Rt & Rn & _)|(x & R & _)].
      2:{ apply (f_equal (@length _)) in R. rewrite app_length in R. cbn in R. lia. }
      unfold circling. rewrite Hm, put_same. cbn [entries mthreads]. rewrite Rt, Rn.
      split; [exact Ce|]. split.
      { intro j. unfold mupd. cbn [mthreads]. destruct (j =? i); [cbn; exact Ce|]. apply Cs. }
      split; [intros j Hj; rewrite put_other by exact Hj; apply Ct; exact Hj|].
      split; [intros j a b c; destruct (Nat.eq_dec j i) as [->|Hj]; [rewrite put_same; discriminate|rewrite put_other by exact Hj; apply Cn]|].
      right. exists l1. split; [exact Hl1|]. split; [exact Em|]. right. rewrite !put_same. repeat split; auto.
      exists (entries (nmux s m)), (entries (nmux s m)). unfold mupd. rewrite Nat.eqb_refl. split; [reflexivity|exact Em].
    + destruct W as [(W & Wl & EM)|(W & _)]; [|congruence]. rewrite N in W. injection W as <-. cbn [nmux_of] in *. rewrite Td in Wl. subst l M.
      pose proof (Cs i) as Csi. rewrite A in Csi. unfold mstep in E. rewrite A in E. destruct rest as [|e0 rest0]; [congruence|].
      pose proof (pick_perm n e0 rest0) as Hp. destruct (pick n e0 rest0) as [e rest]. cbn [fst snd] in Hp.
      assert (Hin : In e (e0 :: rest0)) by (eapply Permutation_in; [symmetry; exact Hp|left; reflexivity]).
      destruct (Csi e Hin) as (K1 & K2 & K3). rewrite K1, Acc, K3 in E. injection E as <-. cbn [mresults] in R.
      destruct R as [(R & _)|(x & R & Rt & Rn & _)].
      { apply (f_equal (@length _)) in R. rewrite app_length in R. cbn in R. lia. }
      apply app_inv_head in R. injection R as <-. cbn [ncalls] in Rt. rewrite K2, Bd in Rt.
      unfold circling. rewrite Hm, put_same. cbn [entries mthreads]. rewrite Rt, Rn.
      split; [exact Ce|]. split.
      { intro j. unfold mupd. cbn [mthreads]. destruct (j =? i); [exact I|]. apply Cs. }
      split; [intros j Hj; rewrite put_other by exact Hj; apply Ct; exact Hj|].
      split; [intros j a b c; destruct (Nat.eq_dec j i) as [->|Hj]; [rewrite put_same; discriminate|rewrite put_other by exact Hj; apply Cn]|].
      right. exists (more ++ l1). split.
      { intros a b c Hx. apply in_app_or in Hx. destruct Hx as [Hx|Hx]; [|exact (Hl1 _ _ _ Hx)].
        apply (Bn h r a b c). rewrite Bd. right. exact Hx. }
      split; [exact Em|]. left. rewrite !put_same. split; reflexivity.
  - (* another goroutine *)
    assert (No : no_registration m (o :: l) \/ (nmux_of o <> m)).
    { destruct W as [(W1 & -> & _)|(_ & W & _)]; [|left; rewrite <- W; apply Ct; exact Nj].
      left. intros a b c [K|K]; [apply (Cn j a b c); congruence|apply (Ct j Nj a b c K)]. }
    assert (Nl : no_registration m l).
    { destruct W as [(W1 & -> & _)|(_ & W & _)]; [apply Ct; exact Nj|]. intros a b c K. apply (Ct j Nj a b c). rewrite W. right. exact K. }
    assert (Tds : forall q, q <> i -> no_registration m (ntodo s' q)).
    { intros q Hq. destruct R as [(_ & -> & _)|(x & _ & -> & _)]; destruct (Nat.eq_dec q j) as [->|Nq];
        rewrite ?put_same, ?(put_other _ _ _ _ Nq); try (apply Ct; exact Hq); [exact Nl|].
      intros a b c K. apply in_app_or in K. destruct K as [K|K]; [|exact (Nl _ _ _ K)].
      unfold ncalls in K. destruct o; try (destruct K). destruct x as [|? ? [e| |] ?]; try (destruct K). exact (Bn _ _ _ _ _ K). }
    assert (I1 : nin s' i = nin s i /\ ntodo s' i = ntodo s i).
    { destruct R as [(_ & -> & -> & _)|(x & _ & -> & -> & _)]; rewrite !put_other by congruence; auto. }
    destruct I1 as [I1 I2].
    assert (Nin : forall q a b c, nin s' q <> Some (NHandle m a b c)).
    { intros q a b c. destruct (Nat.eq_dec q j) as [->|Nq].
      - destruct R as [(R & _ & -> & _)|(x & _ & _ & -> & _)]; rewrite put_same; [|discriminate]. intro K. injection K as ->.
        destruct No as [No|No]; [exact (No a b c (or_introl eq_refl))|exact (No eq_refl)].
      - destruct R as [(_ & _ & -> & _)|(x & _ & _ & -> & _)]; rewrite (put_other _ _ _ _ Nq); apply Cn. }
    assert (Mm : entries (nmux s' m) = entries (nmux s m) /\ mthreads (nmux s' m) i = mthreads (nmux s m) i
        /\ forall q, match mat (mthreads (nmux s' m) q) with
             | MScan snap rest _ _ => forall e, In e rest -> leads k h e | MTaking _ _ _ _ => False | _ => True end).
    { rewrite Hm. destruct (Nat.eq_dec m (nmux_of o)) as [Em|Nm]; [|rewrite (put_other _ _ _ _ Nm); auto].
      assert (PS : put (nmux_of o) M' (nmux s) m = M') by (rewrite Em; apply put_same). rewrite PS.
      destruct No as [No|No]; [|congruence].
      assert (Cs' : forall q, match mat (mthreads M q) with
             | MScan snap rest _ _ => forall e, In e rest -> leads k h e | MTaking _ _ _ _ => False | _ => True end).
      { destruct W as [(_ & _ & ->)|(_ & _ & ->)]; rewrite <- Em; [exact Cs|]. intro q. cbn. unfold mupd. destruct (q =? j); [exact I|apply Cs]. }
      assert (EM : entries M = entries (nmux s m)) by (destruct W as [(_ & _ & ->)|(_ & _ & ->)]; rewrite <- Em; reflexivity).
      assert (TM : mthreads M i = mthreads (nmux s m) i).
      { destruct W as [(_ & _ & ->)|(_ & _ & ->)]; rewrite <- Em; [reflexivity|]. cbn. unfold mupd. destruct (Nat.eqb_spec i j); congruence. }
      assert (Nr : mat (mthreads M j) = MIdle -> forall a b c l', mtodo (mthreads M j) <> OHandle a b c :: l').
      { intros _ a b c l' K. destruct W as [(W1 & _ & ->)|(_ & W2 & ->)].
        - destruct T as [T _]. destruct (T (nmux_of o) j) as [T0 _]. congruence.
        - cbn in K. unfold mupd in K. rewrite Nat.eqb_refl in K. cbn in K. destruct o; cbn in K; try discriminate.
          cbn in Em. subst m0. exact (No _ _ _ (or_introl eq_refl)). }
      pose proof (Cs' j) as Cj. apply mstep_trans in E.
      assert (Oth : entries M' = entries M /\ exists t, mthreads M' = mupd j t M /\
         match mat t with MScan snap rest _ _ => forall e, In e rest -> leads k h e | MTaking _ _ _ _ => False | _ => True end).
      { destruct E as [r1 l1 A B C D E F|m1 h1 once l1 es x A B C D E F G K|snap r0 r1 A B C D E|snap rest r0 r1 A B C D E F
          |snap rest r0 r1 e rest' r' A B C D E F G|snap rest r0 r1 e r' A B C D E F G K|snap rest r0 r1 e r' A B C D E F G K
          |snap e r0 r1 A B C D E F G|snap e r0 r1 A B C D E F G]; rewrite A in Cj.
        - split; [exact C|]. eexists. split; [exact F|]. cbn. rewrite EM. exact Ce.
        - destruct (Nr A _ _ _ _ B).
        - split; [exact B|]. eexists. split; [exact E|]. exact I.
        - split; [exact C|]. eexists. split; [exact F|]. exact I.
        - split; [exact D|]. eexists. split; [exact G|]. cbn. intros e1 H1. apply Cj. eapply Permutation_in; [symmetry; exact B|right; exact H1].
        - destruct (Cj e B) as (_ & _ & X). congruence.
        - split; [exact E|]. eexists. split; [exact K|]. exact I.
        - destruct Cj.
        - destruct Cj. }
      destruct Oth as (O1 & t & O2 & O3). rewrite O1, O2. split; [exact EM|]. unfold mupd. split.
      - destruct (Nat.eqb_spec i j); [congruence|exact TM].
      - intro q. destruct (q =? j); [exact O3|apply Cs']. }
    destruct Mm as (M1 & M2 & M3). unfold circling. rewrite I1, I2, M1, M2. auto 10.
Qed.

(** C124: a multiplexer registered with itself, or with a handler that begins by handing
    the request back to it: the dispatch of a request that the entry accepts never
    ends, whatever other goroutines do. *)
Theorem C124_circle : forall fs body prog sch m i k h r l more,
  asked fs k r = Says true r -> body h r = NServe m r :: more ->
  prog i = NHandle m (Some k) (Some h) false :: NServe m r :: l ->
  no_registration m l -> (forall j, j <> i -> no_registration m (prog j)) -> (forall f q, no_registration m (body f q)) ->
  nbusy (nrun fs body sch (nstart prog)) i.
Proof.
  intros fs body prog sch m i k h r l more Acc Bd Pi Hl Hj Hb.
  assert (C : tidy (nrun fs body sch (nstart prog)) /\ circling m i k h r prog (nrun fs body sch (nstart prog))).
  { apply nrun_inv.
    - split; [apply (tidy_run fs body prog [])|]. split; [intros e []|]. split; [intro j; exact I|]. split; [exact Hj|].
      split; [intros; discriminate|]. left. auto.
    - intros j n s s' [T C] H. split; [eapply tidy_step; eauto|]. eapply circling_step; eauto.
      + intros rr X. congruence.
      + exists r. exact Acc. }
  destruct C as (_ & _ & _ & _ & _ & [(_ & Td & _)|(l1 & _ & _ & [(_ & Td)|(N & _)])]); [left|left|right]; congruence.
Qed.
Print Assumptions C124_circle.

(** Handlers of the examples: 10 is multiplexer 1, 20 is multiplexer 0, 7 registers
    itself again, the others do nothing with multiplexers. *)
Definition bodies (h : nat) (r : Request) : list nop :=
  match h with
  | 10 => [NServe 1 r]
  | 20 => [NServe 0 r]
  | 7 => [NHandle 0 (Some (KPtr 1)) (Some 7) true]
  | _ => []
  end.

(** The handlers of a log: multiplexer, handler or nothing. *)
Definition called (lg : list (nat * nop * outcome)) : list (nat * nat * option nat) :=
  flat_map (fun y => match snd y with
    | Served _ _ c _ => [(fst (fst y), target (snd (fst y)), match c with Chosen e => Some (ehandler e) | _ => None end)]
    | _ => [] end) lg.

(** The type is looked at outside, the transaction inside. *)
Definition inner_prog (i : nat) : list nop :=
  match i with
  | 0 => [NHandle 0 (Some (KType 2)) (Some 10) false; NHandle 1 (Some (KPtr 1)) (Some 5) true; NServe 0 (req 2 1 []); NServe 0 (req 2 1 [])]
  | 1 => [NServe 0 (req 3 1 [])]
  | _ => []
  end.

Example C124_nested_ex :
  let s := nrun demo bodies (repeat (0, 0) 20 ++ repeat (1, 0) 5) (nstart inner_prog) in
  (~ nbusy s 0 /\ ~ nbusy s 1)
  /\ called (nlog s) = [(0, 0, Some 10); (0, 1, Some 5); (0, 0, Some 10); (0, 1, None); (1, 0, None)]
  /\ used 1 0 s = [OHandle (Some (KPtr 1)) (Some 5) true; OServe (req 2 1 []); OServe (req 2 1 [])]
  /\ map ehandler (disposed (nmux s 1)) = [5] /\ map ehandler (entries (nmux s 0)) = [10].
Proof. split; [split; intros [H|H]; apply H; vm_compute; reflexivity|]. vm_compute. repeat split; reflexivity. Qed.

(** C124: a disposable entry whose handler is a multiplexer is used up by a request
    that nothing handles there. *)
Theorem C124_spent_refuted : exists prog sch, let s := nrun demo bodies sch (nstart prog) in
  prog 0 = [NHandle 0 (Some (KType 2)) (Some 10) true; NServe 0 (req 2 1 []);
            NHandle 1 (Some (KPtr 1)) (Some 5) false; NServe 0 (req 2 1 [])]
  /\ ~ nbusy s 0 /\ called (nlog s) = [(0, 0, Some 10); (0, 1, None); (0, 0, None)]
  /\ map ehandler (entries (nmux s 1)) = [5].
Proof.
  exists (fun i => match i with 0 => [NHandle 0 (Some (KType 2)) (Some 10) true; NServe 0 (req 2 1 []);
            NHandle 1 (Some (KPtr 1)) (Some 5) false; NServe 0 (req 2 1 [])] | _ => [] end), (repeat (0, 0) 20).
  split; [reflexivity|]. split; [intros [H|H]; apply H; vm_compute; reflexivity|]. vm_compute. split; reflexivity.
Qed.
Print Assumptions C124_spent_refuted.

(** C124: asking with Handler which handler a request would get uses up a disposable
    one: the request itself is discarded. *)
Theorem C124_asked_refuted : exists prog sch, let s := nrun demo bodies sch (nstart prog) in
  prog 0 = [NHandle 0 (Some (KPtr 1)) (Some 5) true; NHandler 0 (req 2 1 []); NServe 0 (req 2 1 [])]
  /\ ~ nbusy s 0 /\ called (nlog s) = [(0, 0, Some 5); (0, 0, None)].
Proof.
  exists (fun i => match i with 0 => [NHandle 0 (Some (KPtr 1)) (Some 5) true; NHandler 0 (req 2 1 []); NServe 0 (req 2 1 [])] | _ => [] end),
    (repeat (0, 0) 20).
  split; [reflexivity|]. split; [intros [H|H]; apply H; vm_compute; reflexivity|]. vm_compute. reflexivity.
Qed.
Print Assumptions C124_asked_refuted.

(** C124: a disposable handler that registers itself again misses a request that is
    dispatched in between, and serves one that comes later. *)
Theorem C124_again_refuted : exists prog sch, let s := nrun demo bodies sch (nstart prog) in
  prog 0 = [NHandle 0 (Some (KPtr 1)) (Some 7) true; NServe 0 (req 2 1 [])]
  /\ prog 1 = [NServe 0 (req 2 1 []); NServe 0 (req 2 1 [])]
  /\ ~ nbusy s 0 /\ ~ nbusy s 1
  /\ called (nlog s) = [(0, 0, Some 7); (1, 0, None); (1, 0, Some 7)].
Proof.
  exists (fun i => match i with 0 => [NHandle 0 (Some (KPtr 1)) (Some 7) true; NServe 0 (req 2 1 [])]
                          | 1 => [NServe 0 (req 2 1 []); NServe 0 (req 2 1 [])] | _ => [] end),
    (repeat (0, 0) 4 ++ repeat (1, 0) 2 ++ repeat (0, 0) 1 ++ repeat (1, 0) 10).
  split; [reflexivity|]. split; [reflexivity|].
  split; [intros [H|H]; apply H; vm_compute; reflexivity|]. split; [intros [H|H]; apply H; vm_compute; reflexivity|].
  vm_compute. reflexivity.
Qed.
Print Assumptions C124_again_refuted.

(** A multiplexer registered with itself: ten rounds in twenty steps. *)
Example C124_circle_ex :
  let prog i := match i with 0 => [NHandle 0 (Some (KType 2)) (Some 20) false; NServe 0 (req 2 1 [])] | _ => [] end in
  let s := nrun demo bodies (repeat (0, 0) 21) (nstart prog) in
  asked demo (KType 2) (req 2 1 []) = Says true (req 2 1 []) /\ bodies 20 (req 2 1 []) = [NServe 0 (req 2 1 [])]
  /\ nbusy s 0 /\ called (nlog s) = repeat (0, 0, Some 20) 10.
Proof. split; [vm_compute; reflexivity|]. split; [reflexivity|]. split; [left; vm_compute; discriminate|]. vm_compute. reflexivity. Qed.
