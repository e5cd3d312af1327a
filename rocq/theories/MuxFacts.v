(** Lemmas about the multiplexer. *)
From Verif Require Import RequestSpec.
From Verif Require Export MuxModel MuxSpec.
From Coq Require Import Lia Permutation.

Lemma same_key_eq : same_key = mkey_eqb.
Proof. reflexivity. Qed.

Lemma asked_eq : asked = match_of.
Proof. reflexivity. Qed.

Lemma mkey_eqb_spec a b : reflect (a = b) (mkey_eqb a b).
Proof.
  destruct a as [t|p], b as [u|q]; cbn; try (constructor; discriminate).
  - destruct (N.eqb_spec t u); constructor; congruence.
  - destruct (Nat.eqb_spec p q); constructor; congruence.
Qed.

Lemma mkey_eqb_refl a : mkey_eqb a a = true.
Proof. destruct (mkey_eqb_spec a a); congruence. Qed.

Lemma registered_spec k es : registered k es = true <-> exists e, In e es /\ ekey e = k.
Proof.
  unfold registered. rewrite existsb_exists. split; intros (e & H1 & H2); exists e; split; auto.
  - destruct (mkey_eqb_spec (ekey e) k); congruence.
  - subst k. apply mkey_eqb_refl.
Qed.

Lemma count_app k a b : count k (a ++ b) = count k a + count k b.
Proof. unfold count. rewrite filter_app, app_length. reflexivity. Qed.

Lemma count_cons k e l : count k (e :: l) = (if mkey_eqb (ekey e) k then 1 else 0) + count k l.
Proof. unfold count. rewrite same_key_eq. cbn. destruct (mkey_eqb (ekey e) k); reflexivity. Qed.

Lemma count_zero k l : count k l = 0 <-> registered k l = false.
Proof.
  induction l as [|e l IH]; [split; reflexivity|]. rewrite count_cons. cbn [registered existsb].
  destruct (mkey_eqb (ekey e) k); cbn [orb]; [split; [lia|discriminate]|exact IH].
Qed.

Lemma count_removed k j l : count k (removed j l) = if mkey_eqb j k then 0 else count k l.
Proof.
  induction l as [|e l IH]; cbn [removed filter]; [destruct (mkey_eqb j k); reflexivity|].
  fold (removed j l).
  destruct (mkey_eqb_spec (ekey e) j) as [E|E]; cbn [negb].
  - rewrite IH, count_cons, E. destruct (mkey_eqb j k); reflexivity.
  - rewrite !count_cons, IH. destruct (mkey_eqb_spec j k) as [E2|E2]; [|reflexivity].
    subst k. destruct (mkey_eqb_spec (ekey e) j); [congruence|reflexivity].
Qed.

Lemma count_two k l e e' : count k l <= 1 -> In e l -> In e' l -> ekey e = k -> ekey e' = k -> e = e'.
Proof.
  induction l as [|x l IH]; intros H H1 H2 E1 E2; [destruct H1|]. rewrite count_cons in H.
  assert (Z : forall y, In y l -> ekey y = k -> 1 <= count k l).
  { intros y Hy Ey. destruct (count k l) eqn:C; [|lia]. apply count_zero in C.
    assert (registered k l = true) by (apply registered_spec; eauto). congruence. }
  destruct H1 as [->|H1], H2 as [->|H2].
  - reflexivity.
  - rewrite E1, mkey_eqb_refl in H. specialize (Z e' H2 E2). lia.
  - rewrite E2, mkey_eqb_refl in H. specialize (Z e H1 E1). lia.
  - apply IH; auto. lia.
Qed.

Lemma in_removed e k l : In e (removed k l) <-> In e l /\ ekey e <> k.
Proof.
  unfold removed. rewrite filter_In. destruct (mkey_eqb_spec (ekey e) k); cbn; split; intros [? ?]; split; auto; congruence.
Qed.

Lemma pick_perm : forall n e l, Permutation (e :: l) (fst (pick n e l) :: snd (pick n e l)).
Proof.
  induction n as [|n IH]; intros e [|f l]; cbn; try reflexivity.
  specialize (IH f l). destruct (pick n f l) as [x rest]. cbn in *.
  rewrite IH. apply perm_swap.
Qed.

(** ** The effect of one step *)
Inductive mtrans (fs : nat -> Request -> verdict) (i : nat) (s s' : mux) : Prop :=
| TBegin r l : mat (mthreads s i) = MIdle -> mtodo (mthreads s i) = OServe r :: l ->
    entries s' = entries s -> readers s' = i :: readers s -> mresults s' = mresults s ->
    mthreads s' = mupd i (MkMThread l (MScan (entries s) (entries s) r r)) s -> mtrans fs i s s'
| TReg m h once l es x : mat (mthreads s i) = MIdle -> mtodo (mthreads s i) = OHandle m h once :: l ->
    register m h once (nextid s) (entries s) = (es, x) -> readers s = [] ->
    entries s' = es -> readers s' = [] -> mresults s' = mresults s ++ [(i, Registered x)] ->
    mthreads s' = mupd i (MkMThread l MIdle) s -> mtrans fs i s s'
| TNone snap r0 r : mat (mthreads s i) = MScan snap [] r0 r ->
    entries s' = entries s -> readers s' = drop_reader i (readers s) ->
    mresults s' = mresults s ++ [(i, Served r0 snap NoMatch r)] ->
    mthreads s' = mupd i (MkMThread (mtodo (mthreads s i)) MIdle) s -> mtrans fs i s s'
| TPanic snap rest r0 r : mat (mthreads s i) = MScan snap rest r0 r ->
    (exists e, In e rest /\ match_of fs (ekey e) r = Panics) ->
    entries s' = entries s -> readers s' = readers s -> mresults s' = mresults s ->
    mthreads s' = mupd i (MkMThread (mtodo (mthreads s i)) MDead) s -> mtrans fs i s s'
| TNext snap rest r0 r e rest' r' : mat (mthreads s i) = MScan snap rest r0 r ->
    Permutation rest (e :: rest') -> match_of fs (ekey e) r = Says false r' ->
    entries s' = entries s -> readers s' = readers s -> mresults s' = mresults s ->
    mthreads s' = mupd i (MkMThread (mtodo (mthreads s i)) (MScan snap rest' r0 r')) s -> mtrans fs i s s'
| TFound snap rest r0 r e r' : mat (mthreads s i) = MScan snap rest r0 r ->
    In e rest -> match_of fs (ekey e) r = Says true r' -> eonce e = true ->
    entries s' = entries s -> readers s' = drop_reader i (readers s) -> mresults s' = mresults s ->
    mthreads s' = mupd i (MkMThread (mtodo (mthreads s i)) (MTaking snap e r0 r')) s -> mtrans fs i s s'
| TChose snap rest r0 r e r' : mat (mthreads s i) = MScan snap rest r0 r ->
    In e rest -> match_of fs (ekey e) r = Says true r' -> eonce e = false ->
    entries s' = entries s -> readers s' = drop_reader i (readers s) ->
    mresults s' = mresults s ++ [(i, Served r0 snap (Chosen e) r')] ->
    mthreads s' = mupd i (MkMThread (mtodo (mthreads s i)) MIdle) s -> mtrans fs i s s'
| TTook snap e r0 r : mat (mthreads s i) = MTaking snap e r0 r -> readers s = [] ->
    registered (ekey e) (entries s) = true ->
    entries s' = removed (ekey e) (entries s) -> readers s' = [] ->
    mresults s' = mresults s ++ [(i, Served r0 snap (Chosen e) r)] ->
    mthreads s' = mupd i (MkMThread (mtodo (mthreads s i)) MIdle) s -> mtrans fs i s s'
| TLost snap e r0 r : mat (mthreads s i) = MTaking snap e r0 r -> readers s = [] ->
    registered (ekey e) (entries s) = false ->
    entries s' = entries s -> readers s' = [] ->
    mresults s' = mresults s ++ [(i, Served r0 snap Lost r)] ->
    mthreads s' = mupd i (MkMThread (mtodo (mthreads s i)) MIdle) s -> mtrans fs i s s'.

Lemma mstep_trans fs i n s s' : mstep fs i n s = Some s' -> mtrans fs i s s'.
Proof.
  unfold mstep. destruct (mat (mthreads s i)) as [|snap rest r0 r|snap e r0 r|] eqn:Ha; [| | |discriminate].
  - destruct (mtodo (mthreads s i)) as [|[m h once|r] l] eqn:Ht; [discriminate| |].
    + destruct (readers s) as [|? ?] eqn:Hr; [|discriminate].
      destruct (register m h once (nextid s) (entries s)) as [es x] eqn:Hg. intro H. injection H as <-.
      eapply TReg; eauto.
    + intro H. injection H as <-. eapply TBegin; eauto.
  - destruct rest as [|e0 rest0].
    + intro H. injection H as <-. eapply TNone; eauto.
    + pose proof (pick_perm n e0 rest0) as Hp. destruct (pick n e0 rest0) as [e rest]. cbn [fst snd] in Hp.
      assert (Hin : In e (e0 :: rest0)) by (eapply Permutation_in; [symmetry; exact Hp|left; reflexivity]).
      destruct (match_of fs (ekey e) r) as [[|] r'|] eqn:Hm.
      * destruct (eonce e) eqn:Ho; intro H; injection H as <-; [eapply TFound|eapply TChose]; eauto.
      * intro H. injection H as <-. eapply TNext; eauto.
      * intro H. injection H as <-. eapply TPanic; eauto.
  - destruct (readers s) as [|? ?] eqn:Hr; [|discriminate].
    destruct (registered (ekey e) (entries s)) eqn:Hg; intro H; injection H as <-; [eapply TTook|eapply TLost]; eauto.
Qed.

Lemma mrun_app fs a b s : mrun fs (a ++ b) s = mrun fs b (mrun fs a s).
Proof. unfold mrun. apply fold_left_app. Qed.

(** Induction over all schedules. *)
Lemma mrun_inv fs (P : mux -> Prop) s : P s -> (forall i s s', P s -> mtrans fs i s s' -> P s') ->
  forall sch, P (mrun fs sch s).
Proof.
  intros H0 Hs sch. revert s H0. induction sch as [|a sch IH]; intros s H0; [exact H0|].
  cbn. apply IH. unfold mact. destruct (mstep fs (fst a) (snd a) s) as [s'|] eqn:E; [|exact H0].
  eapply Hs; [exact H0|eapply mstep_trans; exact E].
Qed.

(** ** Conservation: each registration is in the map or was disposed of *)
Lemma register_ok m h once id es es' x : register m h once id es = (es', x) ->
  (exists e, x = RegOk e /\ es' = e :: es /\ registered (ekey e) es = false
     /\ m = Some (ekey e) /\ h = Some (ehandler e) /\ eonce e = once) \/
  (es' = es /\ forall e, x <> RegOk e).
Proof.
  unfold register. destruct m as [k|]; [|intro H; injection H as <- <-; right; split; [reflexivity|discriminate]].
  destruct h as [f|]; [|intro H; injection H as <- <-; right; split; [reflexivity|discriminate]].
  destruct (registered k es) eqn:Hr; intro H; injection H as <- <-.
  - right. split; [reflexivity|discriminate].
  - left. eexists. repeat split; auto.
Qed.

(** Entries taken are disposable. *)
Definition taking_once (s : mux) : Prop := forall i snap e r0 r, mat (mthreads s i) = MTaking snap e r0 r -> eonce e = true.

Definition conserved (s : mux) : Prop :=
  taking_once s /\ forall k, count k (disposed s) + count k (entries s) = count k (registrations s) /\ count k (entries s) <= 1.

Lemma mupd_same i t s : mupd i t s i = t.
Proof. unfold mupd. rewrite Nat.eqb_refl. reflexivity. Qed.

Lemma mupd_other i j t s : j <> i -> mupd i t s j = mthreads s j.
Proof. unfold mupd. destruct (Nat.eqb_spec j i); congruence. Qed.

Ltac at_thread j i Ht :=
  rewrite Ht; destruct (Nat.eq_dec j i) as [->|?]; [rewrite mupd_same|rewrite mupd_other by assumption].

Lemma conserved_step fs i s s' : conserved s -> mtrans fs i s s' -> conserved s'.
Proof.
  intros [T C] H.
  assert (T' : taking_once s').
  { intros j snap' e' r0' r1. destruct H;
      match goal with Ht : mthreads s' = _ |- _ => at_thread j i Ht; cbn [mat]; [try discriminate|apply T] end.
    intro E. injection E as <- <- <- <-. assumption. }
  split; [exact T'|]. intro k. specialize (C k). destruct C as [C1 C2]. unfold disposed, registrations in *.
  destruct H; repeat match goal with H : entries s' = _ |- _ => rewrite H | H : mresults s' = _ |- _ => rewrite H end;
    rewrite ?flat_map_app, ?count_app; cbn [flat_map snd app]; rewrite ?app_nil_r;
    try (change (count k []) with 0); rewrite ?Nat.add_0_r; auto.
  - destruct (register_ok _ _ _ _ _ _ _ H1) as [(e & -> & -> & Hr & _)|(-> & Hn)].
    + rewrite !count_cons. change (count k []) with 0. destruct (mkey_eqb_spec (ekey e) k) as [E|E]; [|split; lia].
      subst k. apply count_zero in Hr. split; lia.
    + destruct x; try (split; [cbn; lia|assumption]). exfalso. eapply Hn. reflexivity.
  - rewrite H2. change (count k []) with 0. split; lia.
  - rewrite (T i snap e r0 r H). rewrite count_cons. change (count k []) with 0. rewrite count_removed.
    destruct (mkey_eqb_spec (ekey e) k) as [E|E]; [|split; lia]. subst k.
    assert (count (ekey e) (entries s) <> 0) by (rewrite count_zero; congruence). split; lia.
Qed.

Lemma conserved_run fs sch prog : conserved (mrun fs sch (mstart prog)).
Proof.
  apply mrun_inv; [|intros; eapply conserved_step; eassumption].
  split; [intros ? ? ? ? ? H; discriminate|]. intro k. cbn. lia.
Qed.

Lemma once_per_registration fs prog sch k : let s := mrun fs sch (mstart prog) in
  count k (disposed s) + count k (entries s) = count k (registrations s) /\ count k (entries s) <= 1.
Proof. intro s. apply (proj2 (conserved_run fs sch prog)). Qed.

Lemma once_at_most_once fs prog sch k : let s := mrun fs sch (mstart prog) in
  count k (registrations s) <= 1 ->
  count k (disposed s) <= 1 /\ (count k (disposed s) = 1 -> registered k (entries s) = false).
Proof.
  intros s H. destruct (once_per_registration fs prog sch k) as [C _]. fold s in C. split; [lia|].
  intro E. apply count_zero. lia.
Qed.

(** ** Every entry a lookup deals with was registered *)
Definition known (s : mux) : Prop :=
  (forall e, In e (entries s) -> In e (registrations s))
  /\ forall i, match mat (mthreads s i) with
       | MScan snap rest _ _ => incl snap (registrations s) /\ incl rest snap
       | MTaking snap e _ _ => incl snap (registrations s) /\ In e snap
       | _ => True end.

Lemma registrations_grow fs i s s' : mtrans fs i s s' -> incl (registrations s) (registrations s').
Proof.
  intros H e He. unfold registrations in *. destruct H; 
    repeat match goal with H : mresults s' = _ |- _ => rewrite H end; rewrite ?flat_map_app; auto; apply in_or_app; auto.
Qed.

Lemma known_step fs i s s' : known s -> mtrans fs i s s' -> known s'.
Proof.
  intros [K1 K2] H. pose proof (registrations_grow _ _ _ _ H) as G. split.
  - intros e He. destruct H; repeat match goal with H : entries s' = _ |- _ => rewrite H in He; clear H end; auto.
    + destruct (register_ok _ _ _ _ _ _ _ H1) as [(e' & -> & -> & _)|(-> & Hn)]; [|auto].
      destruct He as [<-|He]; [|auto]. unfold registrations.
      match goal with H : mresults s' = _ |- _ => rewrite H end. rewrite flat_map_app. apply in_or_app. right. left. reflexivity.
    + apply in_removed in He. apply G, K1, He.
  - intro j. assert (Old : match mat (mthreads s j) with
       | MScan snap rest _ _ => incl snap (registrations s') /\ incl rest snap
       | MTaking snap e _ _ => incl snap (registrations s') /\ In e snap
       | _ => True end).
    { specialize (K2 j). destruct (mat (mthreads s j)); auto; destruct K2 as [A B]; split; auto;
        eapply incl_tran; eassumption. }
    destruct H; match goal with Ht : mthreads s' = _ |- _ => at_thread j i Ht; cbn [mat]; [|exact Old] end; auto;
      match goal with Ha : mat (mthreads s i) = _ |- _ => rewrite Ha in Old end.
    + split; [intros e He; apply G, K1, He|apply incl_refl].
    + destruct Old as [A B]. split; [exact A|]. intros x Hx. apply B.
      eapply Permutation_in; [symmetry; eassumption|right; exact Hx].
    + destruct Old as [A B]. split; [exact A|]. apply B. assumption.
Qed.

Lemma known_run fs sch prog : known (mrun fs sch (mstart prog)).
Proof. apply mrun_inv; [|intros; eapply known_step; eassumption]. split; [intros e []|intro; exact I]. Qed.

(** An entry leaves the map only when a disposable entry with its key is selected. *)
Lemma leaves fs i n s s' e : mstep fs i n s = Some s' -> In e (entries s) ->
  In e (entries s') \/ exists snap e' r0 r, mresults s' = mresults s ++ [(i, Served r0 snap (Chosen e') r)]
    /\ mat (mthreads s i) = MTaking snap e' r0 r /\ ekey e' = ekey e.
Proof.
  intros H He. apply mstep_trans in H. destruct H;
    match goal with H : entries s' = _ |- _ => rewrite H end; auto.
  - destruct (register_ok _ _ _ _ _ _ _ H1) as [(e' & -> & -> & _)|(-> & Hn)]; [|auto]. left. right. exact He.
  - destruct (mkey_eqb_spec (ekey e0) (ekey e)) as [E|E].
    + right. exists snap, e0, r0, r. auto.
    + left. apply in_removed. split; [exact He|congruence].
Qed.

Lemma others_stay fs prog sch i n s' e : let s := mrun fs sch (mstart prog) in
  mstep fs i n s = Some s' -> In e (entries s) ->
  In e (entries s') \/ exists snap e' r0 r, mresults s' = mresults s ++ [(i, Served r0 snap (Chosen e') r)]
    /\ eonce e' = true /\ ekey e' = ekey e.
Proof.
  intros s H He. destruct (leaves fs i n s s' e H He) as [L|(snap & e' & r0 & r & A & B & C)]; [auto|].
  right. exists snap, e', r0, r. split; [exact A|]. split; [|exact C].
  eapply (proj1 (conserved_run fs sch prog)). exact B.
Qed.

(** A permanent handler stays, unless its matcher is registered a second time. *)
Lemma registrations_run fs sch : forall s, incl (registrations s) (registrations (mrun fs sch s))
  /\ forall k, count k (registrations s) <= count k (registrations (mrun fs sch s)).
Proof.
  intro s. apply (mrun_inv fs (fun s' => incl (registrations s) (registrations s')
    /\ forall k, count k (registrations s) <= count k (registrations s'))).
  - split; [apply incl_refl|auto].
  - intros i s1 s2 [A B] H. split.
    + eapply incl_tran; [exact A|]. eapply registrations_grow. exact H.
    + intro k. specialize (B k). unfold registrations in *. destruct H;
        repeat match goal with H : mresults _ = _ |- _ => rewrite H end; rewrite ?flat_map_app, ?count_app; lia.
Qed.

Lemma permanent_stays fs prog sch e : eonce e = false -> In e (entries (mrun fs sch (mstart prog))) ->
  forall sch', let s' := mrun fs (sch ++ sch') (mstart prog) in
  count (ekey e) (registrations s') <= 1 -> In e (entries s').
Proof.
  intros Ho He sch'. cbn zeta. induction sch' as [|a sch' IH] using rev_ind.
  - rewrite app_nil_r. auto.
  - rewrite app_assoc, (mrun_app fs (sch ++ sch')). set (s := mrun fs (sch ++ sch') (mstart prog)) in *.
    intro Hc. destruct (registrations_run fs [a] s) as [_ G]. specialize (G (ekey e)).
    specialize (IH ltac:(lia)). change (mrun fs [a] s) with (mact fs s a) in *.
    unfold mact in *. destruct (mstep fs (fst a) (snd a) s) as [s'|] eqn:E; [|exact IH].
    destruct (leaves fs _ _ s s' e E IH) as [L|(snap & e' & r0 & r & A & B & C)]; [exact L|]. exfalso.
    pose proof (known_run fs (sch ++ sch') prog) as [K1 K2]. fold s in K1, K2.
    specialize (K2 (fst a)). rewrite B in K2. destruct K2 as [K2 K3].
    assert (e' = e).
    { eapply (count_two (ekey e) (registrations s)); auto. lia. }
    subst e'. pose proof (proj1 (conserved_run fs (sch ++ sch') prog) (fst a)) as T. fold s in T.
    rewrite (T _ _ _ _ B) in Ho. discriminate.
Qed.

(** ** Right choices *)
Definition from_prog (prog : nat -> list mop) (s : mux) : Prop :=
  (forall i, exists done, prog i = done ++ mtodo (mthreads s i))
  /\ forall e, In e (registrations s) -> exists i, In (OHandle (Some (ekey e)) (Some (ehandler e)) (eonce e)) (prog i).

Lemma from_prog_step fs prog i s s' : from_prog prog s -> mtrans fs i s s' -> from_prog prog s'.
Proof.
  intros [P1 P2] H. split.
  - intro j. destruct (P1 j) as [d Hd]. destruct H;
      match goal with Ht : mthreads s' = _ |- _ => at_thread j i Ht; cbn [mtodo]; [|exists d; exact Hd] end;
      try (exists d; exact Hd).
    + rewrite H0 in Hd. exists (d ++ [OServe r]). rewrite <- app_assoc. exact Hd.
    + rewrite H0 in Hd. exists (d ++ [OHandle m h once]). rewrite <- app_assoc. exact Hd.
  - intros e He. unfold registrations in *. destruct H;
      repeat match goal with H : mresults s' = _ |- _ => rewrite H in He; clear H end; auto;
      rewrite flat_map_app in He; apply in_app_or in He; destruct He as [He|He]; auto; cbn in He;
      try (destruct He; fail).
    destruct (register_ok _ _ _ _ _ _ _ H1) as [(e' & -> & -> & Hr & -> & -> & <-)|(-> & Hn)].
    + destruct He as [<-|[]]. destruct (P1 i) as [d Hd]. exists i. rewrite Hd, H0. apply in_or_app. right. left. reflexivity.
    + destruct x; try (destruct He; fail). exfalso. eapply Hn. reflexivity.
Qed.

Lemma from_prog_run fs sch prog : from_prog prog (mrun fs sch (mstart prog)).
Proof.
  apply mrun_inv; [|intros; eapply from_prog_step; eassumption].
  split; [intro i; exists []; reflexivity|intros e []].
Qed.

Definition right (fs : nat -> Request -> verdict) (s : mux) : Prop :=
  (forall i, match mat (mthreads s i) with
     | MScan snap rest r0 r => r = r0 /\ forall e, In e snap -> In e rest \/ ~ accepts fs e r0
     | MTaking snap e r0 r => r = r0 /\ In e snap /\ accepts fs e r0
     | MDead => False
     | MIdle => True end)
  /\ forall i r snap c r', In (i, Served r snap c r') (mresults s) -> r' = r /\ right_choice fs snap r c.

Lemma right_step fs prog i s s' : plain_prog fs prog -> known s -> from_prog prog s -> taking_once s ->
  right fs s -> mtrans fs i s s' -> right fs s'.
Proof.
  intros Hp [_ HK] [_ HF] HT [R1 R2] H.
  assert (P : forall e, In e (registrations s) -> forall r, exists b, match_of fs (ekey e) r = Says b r).
  { intros e He r. destruct (HF e He) as [j Hj]. exact (Hp j _ _ _ Hj r). }
  assert (New : forall x, mresults s' = mresults s ++ [x] ->
     (forall j r snap c r', x = (j, Served r snap c r') -> r' = r /\ right_choice fs snap r c) ->
     forall j r snap c r', In (j, Served r snap c r') (mresults s') -> r' = r /\ right_choice fs snap r c).
  { intros x Hx Hn j r snap c r' Hi. rewrite Hx in Hi. apply in_app_or in Hi. destruct Hi as [Hi|[Hi|[]]]; eauto. }
  pose proof (R1 i) as Ri. pose proof (HK i) as Ki. destruct H; rewrite H in Ri, Ki; split;
    try (intro j; match goal with Ht : mthreads s' = _ |- _ => at_thread j i Ht; cbn [mat]; [|apply R1] end; auto);
    try (match goal with H : mresults s' = mresults s |- _ => rewrite H; exact R2 end);
    try (eapply New; [eassumption|]; intros j' r1 snap1 c1 r1' E; injection E as <- <- <- <- <-).
  - (* registration *) eapply New; [eassumption|]. intros j' r1 snap1 c1 r1' E. discriminate.
  - (* none *) destruct Ri as [-> Ri]. split; [reflexivity|]. intros e He. destruct (Ri e He) as [[]|]; assumption.
  - (* panic *) destruct H0 as (e & He & Hm). destruct Ki as [K1 K2].
    destruct (P e (K1 e (K2 e He)) r) as [b Hb]. congruence.
  - (* next *) destruct Ri as [-> Ri], Ki as [K1 K2].
    assert (He : In e rest) by (eapply Permutation_in; [symmetry; eassumption|left; reflexivity]).
    destruct (P e (K1 e (K2 e He)) r0) as [b Hb]. rewrite Hb in H1. injection H1 as -> <-. split; [reflexivity|].
    intros x Hx. destruct (Ri x Hx) as [Hx'|]; [|right; assumption].
    eapply Permutation_in in Hx'; [|eassumption]. destruct Hx' as [<-|]; [|left; assumption].
    right. intros [r' Hr]. rewrite asked_eq in Hr. congruence.
  - (* found *) destruct Ri as [-> Ri], Ki as [K1 K2]. destruct (P e (K1 e (K2 e H0)) r0) as [b Hb]. rewrite Hb in H1.
    injection H1 as -> <-. split; [reflexivity|]. split; [auto|]. exists r0. exact Hb.
  - (* chosen *) destruct Ri as [-> Ri], Ki as [K1 K2]. destruct (P e (K1 e (K2 e H0)) r0) as [b Hb]. rewrite Hb in H1.
    injection H1 as -> <-. split; [reflexivity|]. split; [auto|]. exists r0. exact Hb.
  - destruct Ri as (-> & A & B). split; [reflexivity|]. split; assumption.
  - destruct Ri as (-> & A & B). split; [reflexivity|]. exists e. split; [exact A|]. split; [exact B|].
    eapply HT. eassumption.
Qed.

Lemma right_run fs prog sch : plain_prog fs prog -> right fs (mrun fs sch (mstart prog)).
Proof.
  intro Hp.
  assert (G : let s := mrun fs sch (mstart prog) in known s /\ from_prog prog s /\ conserved s /\ right fs s).
  { apply (mrun_inv fs (fun s => known s /\ from_prog prog s /\ conserved s /\ right fs s)).
    - split; [exact (known_run fs [] prog)|]. split; [exact (from_prog_run fs [] prog)|].
      split; [exact (conserved_run fs [] prog)|]. split; [intro; exact I|intros ? ? ? ? ? []].
    - intros i s s' (A & B & C & D) H. split; [eapply known_step; eassumption|].
      split; [eapply from_prog_step; eassumption|]. split; [eapply conserved_step; eassumption|].
      eapply right_step; try eassumption. exact (proj1 C). }
  apply G.
Qed.

(** The entries a lookup saw are those of the map at some earlier point. *)
Definition seen (fs : nat -> Request -> verdict) (prog : nat -> list mop) (sch : list (nat * nat)) (snap : list entry) : Prop :=
  exists a b, sch = a ++ b /\ snap = entries (mrun fs a (mstart prog)).

Lemma seen_more fs prog sch x snap : seen fs prog sch snap -> seen fs prog (sch ++ [x]) snap.
Proof. intros (a & b & -> & E). exists a, (b ++ [x]). split; [rewrite app_assoc; reflexivity|exact E]. Qed.

Lemma snapshots fs prog : forall sch, let s := mrun fs sch (mstart prog) in
  (forall i, match mat (mthreads s i) with
     | MScan snap _ _ _ => seen fs prog sch snap | MTaking snap _ _ _ => seen fs prog sch snap | _ => True end)
  /\ forall i r snap c r', In (i, Served r snap c r') (mresults s) -> seen fs prog sch snap.
Proof.
  induction sch as [|x sch IH] using rev_ind; cbn zeta in *.
  - split; [intro; exact I|intros ? ? ? ? ? []].
  - rewrite mrun_app. set (s := mrun fs sch (mstart prog)) in *. destruct IH as [A B].
    assert (A' : forall i, match mat (mthreads s i) with
       | MScan snap _ _ _ => seen fs prog (sch ++ [x]) snap | MTaking snap _ _ _ => seen fs prog (sch ++ [x]) snap | _ => True end).
    { intro i. specialize (A i). destruct (mat (mthreads s i)); auto using seen_more. }
    assert (B' : forall i r snap c r', In (i, Served r snap c r') (mresults s) -> seen fs prog (sch ++ [x]) snap).
    { intros. eapply seen_more, B. eassumption. }
    change (mrun fs [x] s) with (mact fs s x). unfold mact. destruct (mstep fs (fst x) (snd x) s) as [s'|] eqn:E; [|auto].
    apply mstep_trans in E. set (i := fst x) in *. pose proof (A' i) as Ai. split.
    + intro j. destruct E; rewrite H in Ai; match goal with Ht : mthreads s' = _ |- _ => at_thread j i Ht; cbn [mat]; [|apply A'] end; auto.
      exists sch, [x]. split; reflexivity.
    + intros j r1 snap1 c1 r1' Hi. destruct E; rewrite H in Ai;
        match goal with H : mresults s' = _ |- _ => rewrite H in Hi end;
        try (apply in_app_or in Hi; destruct Hi as [Hi|[Hi|[]]]); eauto; try discriminate; injection Hi as <- <- <- <- <-; exact Ai.
Qed.

Lemma dispatch fs prog sch i r snap c r' : plain_prog fs prog ->
  In (i, Served r snap c r') (mresults (mrun fs sch (mstart prog))) ->
  r' = r /\ right_choice fs snap r c
  /\ exists a b, sch = a ++ b /\ snap = entries (mrun fs a (mstart prog)).
Proof.
  intros Hp H. destruct (proj2 (right_run fs prog sch Hp) _ _ _ _ _ H) as [A B].
  split; [exact A|]. split; [exact B|]. exact (proj2 (snapshots fs prog sch) _ _ _ _ _ H).
Qed.

Lemma only_match fs prog sch i r snap c r' e : plain_prog fs prog ->
  In (i, Served r snap c r') (mresults (mrun fs sch (mstart prog))) ->
  In e snap -> eonce e = false -> accepts fs e r -> (forall e', In e' snap -> accepts fs e' r -> e' = e) ->
  c = Chosen e.
Proof.
  intros Hp H He Ho Ha Hu. destruct (dispatch fs prog sch i r snap c r' Hp H) as (_ & R & _). destruct c as [e'| |]; cbn in R.
  - f_equal. apply Hu; apply R.
  - exfalso. exact (R e He Ha).
  - destruct R as (e' & A & B & C). rewrite (Hu e' A B) in C. congruence.
Qed.

(** ** Routing by type *)
Lemma type_routing fs prog sch i r snap c r' :
  (forall i k h once, In (OHandle (Some k) h once) (prog i) -> exists t, k = KType t) ->
  In (i, Served r snap c r') (mresults (mrun fs sch (mstart prog))) ->
  r' = r /\
  match find (fun e => mkey_eqb (ekey e) (KType (Header_Type (Request_Header r)))) snap with
  | None => c = NoMatch
  | Some e => c = Chosen e \/ (eonce e = true /\ c = Lost)
  end.
Proof.
  intros Ht H.
  assert (Hp : plain_prog fs prog).
  { intros j k h once Hj q. destruct (Ht _ _ _ _ Hj) as [t ->]. eexists. reflexivity. }
  destruct (dispatch fs prog sch i r snap c r' Hp H) as (-> & R & a & b & _ & Hs). split; [reflexivity|].
  set (T := Header_Type (Request_Header r)) in *.
  destruct (from_prog_run fs a prog) as [_ F]. destruct (known_run fs a prog) as [K _].
  assert (Acc : forall e, In e snap -> accepts fs e r <-> ekey e = KType T).
  { intros e He. rewrite Hs in He. destruct (F e (K e He)) as [j Hj]. destruct (Ht _ _ _ _ Hj) as [t Et].
    unfold accepts. rewrite Et. cbn. unfold type_match. fold T. destruct (N.eqb_spec T t) as [E|E].
    - split; [congruence|eauto].
    - split; [intros [? ?]; discriminate|congruence]. }
  assert (C1 : count (KType T) snap <= 1) by (rewrite Hs; apply once_per_registration).
  destruct (find _ snap) as [e|] eqn:Hf.
  - apply find_some in Hf. destruct Hf as [He Hk]. destruct (mkey_eqb_spec (ekey e) (KType T)) as [E|]; [|discriminate].
    assert (U : forall e', In e' snap -> accepts fs e' r -> e' = e).
    { intros e' He' Ha. apply (count_two (KType T) snap); auto. apply Acc; assumption. }
    destruct c as [e'| |]; cbn in R.
    + left. f_equal. apply U; apply R.
    + exfalso. exact (R e He (proj2 (Acc e He) E)).
    + right. destruct R as (e' & A & B & C). rewrite (U e' A B) in C. auto.
  - assert (No : forall e, In e snap -> ~ accepts fs e r).
    { intros e He Ha. apply (find_none _ _ Hf) in He as Hk. apply Acc in Ha; [|exact He]. rewrite Ha, mkey_eqb_refl in Hk. discriminate. }
    destruct c as [e| |]; cbn in R; [|reflexivity|].
    + exfalso. exact (No e (proj1 R) (proj2 R)).
    + destruct R as (e & A & B & _). exfalso. exact (No e A B).
Qed.

(** ** Registration *)
Lemma registered_find k es : registered k es = match find (fun e => mkey_eqb (ekey e) k) es with Some _ => true | None => false end.
Proof. induction es as [|e es IH]; [reflexivity|]. cbn. destruct (mkey_eqb (ekey e) k); [reflexivity|exact IH]. Qed.

Lemma find_filter_none k l : registered k l = false -> find (fun e => mkey_eqb (ekey e) k) l = None.
Proof. rewrite registered_find. destruct (find _ l); [discriminate|reflexivity]. Qed.

Definition view (e : entry) : nat * bool := (ehandler e, eonce e).

Lemma register_all_map l : forall es k,
  option_map view (find (fun e => mkey_eqb (ekey e) k) (fst (register_all l es)))
  = match find (fun e => mkey_eqb (ekey e) k) es with Some e => Some (view e) | None => first_for k l end.
Proof.
  induction l as [|[[m h] once] l IH]; intros es k; cbn [register_all].
  - cbn. destruct (find _ es); reflexivity.
  - unfold register. destruct m as [k'|].
    2:{ specialize (IH es k). destruct (register_all l es) as [es' xs]. cbn [fst] in *. rewrite IH. reflexivity. }
    destruct h as [f|].
    2:{ specialize (IH es k). destruct (register_all l es) as [es' xs]. cbn [fst] in *. rewrite IH. reflexivity. }
    destruct (registered k' es) eqn:Hr.
    + specialize (IH es k). destruct (register_all l es) as [es' xs]. cbn [fst first_for] in *. rewrite IH.
      destruct (find (fun e => mkey_eqb (ekey e) k) es) as [e|] eqn:Hf; [reflexivity|].
      rewrite ?same_key_eq; destruct (mkey_eqb_spec k' k) as [E|E]; [|reflexivity]. subst k'. rewrite registered_find, Hf in Hr. discriminate.
    + specialize (IH (MkEntry k' f once (length es) :: es) k).
      destruct (register_all l (MkEntry k' f once (length es) :: es)) as [es' xs]. cbn [fst first_for find ekey] in *.
      rewrite IH. rewrite ?same_key_eq; destruct (mkey_eqb_spec k' k) as [E|E]; [|reflexivity]. subst k'.
      rewrite (find_filter_none k es Hr). reflexivity.
Qed.

Lemma register_all_app l1 : forall l2 es,
  register_all (l1 ++ l2) es =
  (fst (register_all l2 (fst (register_all l1 es))), snd (register_all l1 es) ++ snd (register_all l2 (fst (register_all l1 es)))).
Proof.
  induction l1 as [|[[m h] once] l1 IH]; intros l2 es; cbn [app register_all].
  - cbn. destruct (register_all l2 es); reflexivity.
  - destruct (register m h once (length es) es) as [es' x]. rewrite IH.
    destruct (register_all l1 es') as [es'' xs]. reflexivity.
Qed.

Lemma register_all_length l : forall es, length (snd (register_all l es)) = length l.
Proof.
  induction l as [|[[m h] once] l IH]; intro es; [reflexivity|]. cbn [register_all].
  destruct (register m h once (length es) es) as [es' x]. specialize (IH es'). destruct (register_all l es'). cbn in *. lia.
Qed.

(** The result of registration [x] after the registrations [l1]. *)
Lemma register_all_result l1 m h once l2 :
  let before := fst (register_all l1 []) in
  let after := fst (register_all (l1 ++ [(m, h, once)]) []) in
  let res := nth (length l1) (snd (register_all (l1 ++ (m, h, once) :: l2) [])) Duplicate in
  match m, h with
  | None, _ => res = NilMatcher /\ after = before
  | Some _, None => res = NilHandler /\ after = before
  | Some k, Some f =>
      match first_for k l1 with
      | Some _ => res = Duplicate /\ after = before
      | None => exists e, res = RegOk e /\ after = e :: before /\ ekey e = k /\ ehandler e = f /\ eonce e = once
      end
  end.
Proof.
  cbn zeta. rewrite !register_all_app. cbn [fst snd].
  pose proof (fun k => register_all_map l1 [] k) as M. set (es := fst (register_all l1 [])) in *. cbn [find] in M.
  rewrite app_nth2 by (rewrite register_all_length; lia). rewrite register_all_length, Nat.sub_diag.
  cbn [register_all]. unfold register. destruct m as [k|].
  2:{ destruct (register_all l2 es). auto. }
  destruct h as [f|].
  2:{ destruct (register_all l2 es). auto. }
  specialize (M k). rewrite registered_find. destruct (find _ es) as [e|] eqn:Hf; cbn in M; rewrite <- M.
  - destruct (register_all l2 es). auto.
  - destruct (register_all l2 _). cbn. eexists. repeat split; reflexivity.
Qed.

(** In the shared multiplexer a registration holds the lock for its own step only. *)
Lemma register_step fs i n s m h once l : mat (mthreads s i) = MIdle -> mtodo (mthreads s i) = OHandle m h once :: l ->
  readers s = [] ->
  exists s', mstep fs i n s = Some s' /\ readers s' = []
    /\ (entries s', mresults s') =
       (let '(es, x) := register m h once (nextid s) (entries s) in (es, mresults s ++ [(i, Registered x)])).
Proof.
  intros H1 H2 H3. unfold mstep. rewrite H1, H2, H3. destruct (register m h once (nextid s) (entries s)) as [es x].
  eexists. split; [reflexivity|]. auto.
Qed.

(** ** The lock *)
Definition held (s : mux) : Prop :=
  forall i, In i (readers s) <-> match mat (mthreads s i) with MScan _ _ _ _ => True | MDead => True | _ => False end.

Lemma drop_reader_in i j l : In j (drop_reader i l) <-> In j l /\ j <> i.
Proof.
  unfold drop_reader. rewrite filter_In. destruct (Nat.eqb_spec j i); cbn; split; intros [? ?]; split; auto; congruence.
Qed.

Lemma held_step fs i s s' : held s -> mtrans fs i s s' -> held s'.
Proof.
  intros H T j. pose proof (H i) as Hi. pose proof (H j) as Hj.
  destruct T; match goal with Hr : readers s' = _ |- _ => rewrite Hr end;
    match goal with Ha : mat (mthreads s i) = _ |- _ => rewrite Ha in Hi end;
    match goal with Ht : mthreads s' = _ |- _ => at_thread j i Ht; cbn [mat] end;
    rewrite ?drop_reader_in; cbn [In]; try tauto.
  - split; [intros [<-|X]; [congruence|tauto]|intro X; right; tauto].
  - rewrite <- Hj. match goal with Hr : readers s = [] |- _ => rewrite Hr end. cbn. tauto.
  - rewrite <- Hj. match goal with Hr : readers s = [] |- _ => rewrite Hr end. cbn. tauto.
  - rewrite <- Hj. match goal with Hr : readers s = [] |- _ => rewrite Hr end. cbn. tauto.
Qed.

Lemma held_run fs sch prog : held (mrun fs sch (mstart prog)).
Proof. apply mrun_inv; [|intros; eapply held_step; eassumption]. intro i. cbn. tauto. Qed.

Lemma mux_progress fs prog sch i : plain_prog fs prog -> let s := mrun fs sch (mstart prog) in
  mbusy s i -> exists j, mstep fs j 0 s <> None.
Proof.
  intros Hp s Hb. pose proof (held_run fs sch prog) as Hh. pose proof (proj1 (right_run fs prog sch Hp)) as R. fold s in Hh, R.
  destruct (readers s) as [|j rs] eqn:Hr.
  - exists i. unfold mstep. specialize (R i). pose proof (proj2 (Hh i)) as Hi. rewrite Hr in *.
    destruct (mat (mthreads s i)) as [|snap rest r0 r|snap e r0 r|] eqn:Ha.
    + destruct Hb as [Hb|Hb]; [|congruence]. destruct (mtodo (mthreads s i)) as [|[m h once|r] l]; [congruence| |discriminate].
      destruct (register _ _ _ _ _). discriminate.
    + destruct (Hi I).
    + destruct (registered (ekey e) (entries s)); discriminate.
    + destruct R.
  - exists j. unfold mstep. specialize (R j). pose proof (proj1 (Hh j)) as Hj. rewrite Hr in Hj. specialize (Hj (or_introl eq_refl)).
    destruct (mat (mthreads s j)) as [|snap rest r0 r|snap e r0 r|] eqn:Ha; try (destruct Hj; fail); try (destruct R; fail).
    destruct rest as [|e rest]; [discriminate|]. destruct (pick 0 e rest) as [x rest'].
    destruct (match_of fs (ekey x) r) as [[|] r'|]; [destruct (eonce x)| |]; discriminate.
Qed.

(** A matcher that panics leaves the read lock held for good: nothing is
    registered or disposed of any more. *)
Definition stuck_mux (i : nat) (s0 s : mux) : Prop :=
  mat (mthreads s i) = MDead /\ In i (readers s) /\ entries s = entries s0
  /\ exists new, mresults s = mresults s0 ++ new /\
     forall j o, In (j, o) new -> exists r snap c r', o = Served r snap c r' /\
       match c with NoMatch => True | Chosen e => eonce e = false | Lost => False end.

Lemma stuck_mux_step fs i j s0 s s' : stuck_mux i s0 s -> mtrans fs j s s' -> stuck_mux i s0 s'.
Proof.
  intros (D & R & E & new & N1 & N2) T.
  assert (Hij : i <> j) by (intros ->; destruct T; congruence).
  assert (Hr : readers s <> []) by (intro X; rewrite X in R; destruct R).
  destruct T; try congruence;
    (split; [match goal with Ht : mthreads s' = _ |- _ => rewrite Ht, mupd_other by assumption; exact D end|]);
    (split; [match goal with Ht : readers s' = _ |- _ => rewrite Ht end; rewrite ?drop_reader_in; try (right; assumption); auto|]);
    (split; [congruence|]);
    match goal with Ht : mresults s' = _ |- _ => rewrite Ht, N1 end; rewrite <- ?app_assoc;
    try (exists new; split; [reflexivity|exact N2]);
    (eexists; split; [reflexivity|]; intros j' o Hi; apply in_app_or in Hi; destruct Hi as [Hi|[Hi|[]]]; [eauto|];
     injection Hi as <- <-; do 4 eexists; split; [reflexivity|]; cbn; auto).
Qed.

Lemma panic_locks fs prog sch i : let s := mrun fs sch (mstart prog) in
  mat (mthreads s i) = MDead ->
  forall sch', let s' := mrun fs sch' s in
  entries s' = entries s /\ exists new, mresults s' = mresults s ++ new /\
     forall j o, In (j, o) new -> exists r snap c r', o = Served r snap c r' /\
       match c with NoMatch => True | Chosen e => eonce e = false | Lost => False end.
Proof.
  intros s H sch'; cbv zeta.
  assert (S0 : stuck_mux i s s).
  { split; [exact H|]. split; [apply held_run; fold s; rewrite H; exact I|]. split; [reflexivity|].
    exists []. rewrite app_nil_r. split; [reflexivity|intros ? ? []]. }
  assert (S1 : stuck_mux i s (mrun fs sch' s)) by (apply (mrun_inv fs (stuck_mux i s) s); [exact S0|intros; eapply stuck_mux_step; eassumption]).
  destruct S1 as (_ & _ & A & B). auto.
Qed.

(** ** Matchers *)
Lemma multi_plain ms : Forall plain ms -> forall r,
  multi_match ms r = Says (forallb (fun m => match m r with Says b _ => b | Panics => false end) ms) r.
Proof.
  induction 1 as [|m ms Hm _ IH]; intro r; [reflexivity|]. cbn [multi_match forallb].
  destruct (Hm r) as [b Hb]. rewrite Hb. destruct b; [apply IH|reflexivity].
Qed.

(** ** Cookies and bodies *)
Definition library_like (fs : nat -> Request -> verdict) : Prop :=
  forall p, plain (fs p) \/ exists decode want, forall r, fs p r = cookie_match decode want r.

Lemma cookie_buffer decode want r x : Request_Body r = BBuf x ->
  decode x <> inr EPanic ->
  cookie_match decode want r = Says (match decode x with inl c => (c =? want)%N | inr _ => false end) (set_body (BBuf []) r).
Proof. intros H P. unfold cookie_match. rewrite H. destruct (decode x) as [c|[]]; reflexivity || congruence. Qed.

Lemma cookie_buffer_says decode want r x b r' : Request_Body r = BBuf x ->
  cookie_match decode want r = Says b r' -> r' = set_body (BBuf []) r.
Proof. intro H. unfold cookie_match. rewrite H. destruct (decode x) as [c|[]]; congruence. Qed.

Definition buffered (r : Request) : Prop := exists x, Request_Body r = BBuf x.

Definition bodies (fs : nat -> Request -> verdict) (s : mux) : Prop :=
  (forall i r, In (OServe r) (mtodo (mthreads s i)) -> buffered r)
  /\ (forall i, match mat (mthreads s i) with
       | MScan _ _ r0 r => buffered r0 /\ buffered r
       | MTaking _ e r0 r => buffered r0 /\ buffered r
           /\ (forall p decode want, ekey e = KPtr p -> (forall q, fs p q = cookie_match decode want q) -> Request_Body r = BBuf [])
       | _ => True end)
  /\ forall i r snap e r', In (i, Served r snap (Chosen e) r') (mresults s) ->
     forall p decode want, ekey e = KPtr p -> (forall q, fs p q = cookie_match decode want q) -> Request_Body r' = BBuf [].

Lemma match_buffered fs k r b r' : library_like fs -> buffered r -> match_of fs k r = Says b r' -> buffered r'.
Proof.
  intros L [x Hx] H. destruct k as [t|p]; cbn in H.
  - injection H as _ <-. exists x. exact Hx.
  - destruct (L p) as [Hp|(d & w & Hd)].
    + destruct (Hp r) as [b' Hb]. rewrite Hb in H. injection H as _ <-. exists x. exact Hx.
    + rewrite Hd in H. apply (cookie_buffer_says d w r x) in H as ->; [exists []; reflexivity|exact Hx].
Qed.

Lemma match_cookie fs k r b r' p d w : buffered r -> match_of fs k r = Says b r' ->
  k = KPtr p -> (forall q, fs p q = cookie_match d w q) -> Request_Body r' = BBuf [].
Proof.
  intros [x Hx] H -> Hd. cbn in H. rewrite Hd in H.
  apply (cookie_buffer_says d w r x) in H as ->; [reflexivity|exact Hx].
Qed.

Lemma bodies_step fs i s s' : library_like fs -> bodies fs s -> mtrans fs i s s' -> bodies fs s'.
Proof.
  intros L (B1 & B2 & B3) T. pose proof (B2 i) as Bi. pose proof (B1 i) as Ti. split; [|split].
  - intros j r Hj. destruct T; rewrite H in Bi;
      match goal with Ht : mthreads s' = _ |- _ => revert Hj; at_thread j i Ht; cbn [mtodo]; [|apply B1] end; eauto;
      intro Hj; apply Ti; rewrite H0; right; exact Hj.
  - intro j. destruct T; rewrite H in Bi;
      match goal with Ht : mthreads s' = _ |- _ => at_thread j i Ht; cbn [mat]; [|apply B2] end; auto.
    + assert (buffered r) by (apply Ti; rewrite H0; left; reflexivity). auto.
    + destruct Bi as [A B]. split; [exact A|]. eapply match_buffered; eassumption.
    + destruct Bi as [A B]. split; [exact A|]. split; [eapply match_buffered; eassumption|].
      intros p d w Hk Hd. eapply match_cookie; eassumption.
  - intros j r1 snap1 e1 r1' Hi. destruct T; rewrite H in Bi;
      match goal with Ht : mresults s' = _ |- _ => rewrite Ht in Hi end;
      try (apply in_app_or in Hi; destruct Hi as [Hi|[Hi|[]]]); try (eapply B3; eassumption); try discriminate.
    + injection Hi as <- <- <- <- <-. intros p d w Hk Hd. eapply match_cookie; try eassumption. apply Bi.
    + injection Hi as <- <- <- <- <-. apply Bi.
Qed.

Lemma cookie_empties fs prog sch i r snap e r' p decode want : library_like fs ->
  (forall j q, In (OServe q) (prog j) -> exists x, Request_Body q = BBuf x) ->
  In (i, Served r snap (Chosen e) r') (mresults (mrun fs sch (mstart prog))) ->
  ekey e = KPtr p -> (forall q, fs p q = cookie_match decode want q) ->
  Request_Body r' = BBuf [].
Proof.
  intros L Hb Hi Hk Hd.
  assert (B : bodies fs (mrun fs sch (mstart prog))).
  { apply mrun_inv; [|intros; eapply bodies_step; eassumption]. split; [exact Hb|]. split; [intro; exact I|intros ? ? ? ? ? []]. }
  destruct B as (_ & _ & B). eapply B; eassumption.
Qed.

(** Other bodies are kept. *)
Lemma cookie_other decode want r : (forall x, Request_Body r <> BBuf x) -> Request_Body r <> BNil ->
  forall x, readall_body (Request_Body r) = (x, None) -> decode x <> inr EPanic ->
  cookie_match decode want r = Says (match decode x with inl c => (c =? want)%N | inr _ => false end) (set_body (BBuf x) r).
Proof.
  intros H1 H2 x Hx P. unfold cookie_match.
  destruct (Request_Body r) as [|w rb re o|y|rd]; try congruence; rewrite Hx; destruct (decode x) as [c|[]]; reflexivity || congruence.
Qed.
