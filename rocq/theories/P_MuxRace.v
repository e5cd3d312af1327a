(** C23, C24: the races for disposable handlers are possible in every situation. *)
From Verif Require Import MuxModel MuxSpec MuxFacts P_Mux.

Lemma pick_any e : forall l e0, In e (e0 :: l) -> exists n, fst (pick n e0 l) = e.
Proof.
  induction l as [|f l IH]; intros e0 H.
  - destruct H as [->|[]]. exists 0. reflexivity.
  - destruct H as [->|H]; [exists 0; reflexivity|]. destruct (IH f H) as [n Hn]. exists (S n). cbn. destruct (pick n f l) as [x rest]. exact Hn.
Qed.

(** Goroutine [i] searches and stops before the second lock section. *)
Lemma looked fs s i r l e : readers s = [] -> mthreads s i = MkMThread (OServe r :: l) MIdle ->
  In e (entries s) -> eonce e = true -> asked fs (ekey e) r = Says true r ->
  exists n, let s' := mrun fs [(i, 0); (i, n)] s in
  entries s' = entries s /\ readers s' = [] /\ nextid s' = nextid s /\ mresults s' = mresults s
  /\ mthreads s' i = MkMThread l (MTaking (entries s) e r r) /\ forall j, j <> i -> mthreads s' j = mthreads s j.
Proof.
  intros Hr Ht Hin Ho Ha. destruct (entries s) as [|e0 es] eqn:Es; [destruct Hin|]. destruct (pick_any e es e0 Hin) as [n Hn]. exists n.
  assert (S1 : mstep fs i 0 s = Some (MkMux (entries s) (i :: readers s) (nextid s)
      (mupd i (MkMThread l (MScan (entries s) (entries s) r r)) s) (mresults s))) by (unfold mstep; rewrite Ht; reflexivity).
  cbn [mrun fold_left]. unfold mact. cbn [fst snd]. rewrite S1. unfold mstep. cbn [mthreads entries readers nextid mresults].
  assert (U : forall t, mupd i t s i = t) by (intro t; unfold mupd; now rewrite Nat.eqb_refl).
  rewrite U. cbn [mat mtodo]. rewrite Es. destruct (pick n e0 es) as [x rest]. cbn in Hn. subst x.
  assert (M : match_of fs (ekey e) r = Says true r) by exact Ha. rewrite M, Ho. cbn [mthreads entries readers nextid mresults].
  rewrite Hr. unfold drop_reader. cbn [filter]. rewrite Nat.eqb_refl.
  repeat split; [unfold mupd; rewrite Nat.eqb_refl; reflexivity|].
  intros j N. unfold mupd. cbn [mthreads]. destruct (Nat.eqb_spec j i); [contradiction|]. reflexivity.
Qed.

(** The second lock section. *)
Lemma took fs s i l snap e r : readers s = [] -> mthreads s i = MkMThread l (MTaking snap e r r) ->
  let s' := mrun fs [(i, 0)] s in
  readers s' = [] /\ nextid s' = nextid s
  /\ mresults s' = mresults s ++ [(i, Served r snap (if registered (ekey e) (entries s) then Chosen e else Lost) r)]
  /\ entries s' = removed (ekey e) (entries s) /\ forall j, j <> i -> mthreads s' j = mthreads s j.
Proof.
  intros Hr Ht. cbn [mrun fold_left]. unfold mact. cbn [fst snd]. unfold mstep. rewrite Ht, Hr. cbn [mat mtodo].
  destruct (registered (ekey e) (entries s)) eqn:R; cbn; repeat split; try (intros j N; unfold mupd; destruct (Nat.eqb_spec j i); [contradiction|reflexivity]).
  symmetry. unfold registered, removed in *. induction (entries s) as [|x es IH]; [reflexivity|]. cbn [existsb filter] in *.
  destruct (mkey_eqb (ekey x) (ekey e)); [discriminate|]. cbn. f_equal. apply IH, R.
Qed.

Lemma in_registered e es : In e es -> registered (ekey e) es = true.
Proof. intro H. apply existsb_exists. exists e. split; [exact H|apply mkey_eqb_refl]. Qed.
Lemma not_registered k es : registered k (removed k es) = false.
Proof.
  unfold registered, removed. induction es as [|x es IH]; [reflexivity|]. cbn. destruct (mkey_eqb (ekey x) k) eqn:E; cbn; [exact IH|]. rewrite E. exact IH.
Qed.

Lemma mrun_app fs a b s : mrun fs (a ++ b) s = mrun fs b (mrun fs a s).
Proof. apply fold_left_app. Qed.

(** Whether the entries without the matcher of [e] are those left. *)
Definition without (k : mkey) (es : list entry) : list entry := filter (fun e => negb (same_key (ekey e) k)) es.

(** C24: whenever two goroutines serve a request that a disposable entry accepts and
    no search is going on, one of the requests can be discarded, whatever else is
    registered and stays registered. *)
Theorem C24_loser_dropped : forall fs s i j r l l' e, i <> j -> readers s = [] ->
  mthreads s i = MkMThread (OServe r :: l) MIdle -> mthreads s j = MkMThread (OServe r :: l') MIdle ->
  In e (entries s) -> eonce e = true -> asked fs (ekey e) r = Says true r ->
  exists sch, let s' := mrun fs sch s in
  mresults s' = mresults s ++ [(i, Served r (entries s) (Chosen e) r); (j, Served r (entries s) Lost r)]
  /\ entries s' = without (ekey e) (entries s).
Proof.
  intros fs s i j r l l' e N Hr Ti Tj Hin Ho Ha.
  destruct (looked fs s i r l e Hr Ti Hin Ho Ha) as (n & A1 & A2 & A3 & A4 & A5 & A6). set (s1 := mrun fs [(i, 0); (i, n)] s) in *.
  assert (Tj1 : mthreads s1 j = MkMThread (OServe r :: l') MIdle) by (rewrite A6; [exact Tj|congruence]). rewrite <- A1 in Hin.
  destruct (looked fs s1 j r l' e A2 Tj1 Hin Ho Ha) as (m & B1 & B2 & B3 & B4 & B5 & B6). set (s2 := mrun fs [(j, 0); (j, m)] s1) in *.
  assert (Ti2 : mthreads s2 i = MkMThread l (MTaking (entries s) e r r)) by (rewrite B6; [exact A5|congruence]).
  destruct (took fs s2 i l _ e r B2 Ti2) as (C1 & _ & C3 & C4 & C5). set (s3 := mrun fs [(i, 0)] s2) in *.
  assert (Tj3 : mthreads s3 j = MkMThread l' (MTaking (entries s1) e r r)) by (rewrite C5; [exact B5|congruence]).
  destruct (took fs s3 j l' _ e r C1 Tj3) as (_ & _ & D3 & D4 & _).
  exists ([(i, 0); (i, n)] ++ [(j, 0); (j, m)] ++ [(i, 0)] ++ [(j, 0)]). rewrite !mrun_app. fold s1. fold s2. fold s3. cbn zeta.
  rewrite D3, D4, C4, not_registered, C3, B4, A4, B1, in_registered, A1, <- app_assoc by exact Hin. split; [reflexivity|].
  unfold without, removed. rewrite same_key_eq. clear. induction (entries s) as [|x es IH]; [reflexivity|]. cbn.
  destruct (mkey_eqb (ekey x) (ekey e)) eqn:E; cbn; [exact IH|]. rewrite E. cbn. f_equal. exact IH.
Qed.
Print Assumptions C24_loser_dropped.

(** C23: and when a third goroutine is about to register the matcher again, the first
    entry can be chosen for both and the new registration, disposable or not, be
    removed without having been chosen. *)
Theorem C23_reregistration : forall fs s i j k r l l' l'' e h once, i <> j -> i <> k -> j <> k -> readers s = [] ->
  mthreads s i = MkMThread (OServe r :: l) MIdle -> mthreads s j = MkMThread (OServe r :: l') MIdle ->
  mthreads s k = MkMThread (OHandle (Some (ekey e)) (Some h) once :: l'') MIdle ->
  In e (entries s) -> eonce e = true -> asked fs (ekey e) r = Says true r ->
  exists sch, let s' := mrun fs sch s in
  mresults s' = mresults s ++ [(i, Served r (entries s) (Chosen e) r);
                               (k, Registered (RegOk (MkEntry (ekey e) h once (nextid s))));
                               (j, Served r (entries s) (Chosen e) r)]
  /\ entries s' = without (ekey e) (entries s).
Proof.
  intros fs s i j k r l l' l'' e h once N N1 N2 Hr Ti Tj Tk Hin Ho Ha.
  destruct (looked fs s i r l e Hr Ti Hin Ho Ha) as (n & A1 & A2 & A3 & A4 & A5 & A6). set (s1 := mrun fs [(i, 0); (i, n)] s) in *.
  assert (Tj1 : mthreads s1 j = MkMThread (OServe r :: l') MIdle) by (rewrite A6; [exact Tj|congruence]). rewrite <- A1 in Hin.
  destruct (looked fs s1 j r l' e A2 Tj1 Hin Ho Ha) as (m & B1 & B2 & B3 & B4 & B5 & B6). set (s2 := mrun fs [(j, 0); (j, m)] s1) in *.
  assert (Ti2 : mthreads s2 i = MkMThread l (MTaking (entries s) e r r)) by (rewrite B6; [exact A5|congruence]).
  destruct (took fs s2 i l _ e r B2 Ti2) as (C1 & C2 & C3 & C4 & C5). set (s3 := mrun fs [(i, 0)] s2) in *.
  assert (Tj3 : mthreads s3 j = MkMThread l' (MTaking (entries s1) e r r)) by (rewrite C5; [exact B5|congruence]).
  assert (Tk3 : mthreads s3 k = MkMThread (OHandle (Some (ekey e)) (Some h) once :: l'') MIdle)
    by (rewrite C5, B6, A6; [exact Tk|congruence..]).
  assert (R3 : registered (ekey e) (entries s3) = false) by (rewrite C4; apply not_registered).
  set (new := MkEntry (ekey e) h once (nextid s)).
  assert (E : let s4 := mrun fs [(k, 0)] s3 in readers s4 = [] /\ entries s4 = new :: entries s3
      /\ mresults s4 = mresults s3 ++ [(k, Registered (RegOk new))] /\ mthreads s4 j = mthreads s3 j).
  { clearbody s3. clearbody s2. clearbody s1. cbn [mrun fold_left]. unfold mact. cbn [fst snd]. unfold mstep. rewrite Tk3, C1. cbn [mat mtodo]. unfold register. rewrite R3. cbn.
    unfold new. rewrite <- A3, <- B3, <- C2. repeat split. unfold mupd. destruct (Nat.eqb_spec j k); [contradiction|reflexivity]. }
  cbn zeta in E. destruct E as (E1 & E2 & E3 & E4). set (s4 := mrun fs [(k, 0)] s3) in *. rewrite Tj3 in E4.
  destruct (took fs s4 j l' _ e r E1 E4) as (_ & _ & D3 & D4 & _).
  exists ([(i, 0); (i, n)] ++ [(j, 0); (j, m)] ++ [(i, 0)] ++ [(k, 0)] ++ [(j, 0)]). rewrite !mrun_app. fold s1. fold s2. fold s3. fold s4. cbn zeta.
  assert (R4 : registered (ekey e) (entries s4) = true) by (rewrite E2; apply (in_registered new); left; reflexivity).
  rewrite D3, D4, R4, E3, C3, B4, A4, B1, in_registered, A1, <- !app_assoc by exact Hin. split; [reflexivity|].
  rewrite E2, C4, B1, A1. unfold without, removed. rewrite same_key_eq. cbn [filter ekey new]. rewrite mkey_eqb_refl. cbn [negb].
  clear. induction (entries s) as [|x es IH]; [reflexivity|]. cbn. destruct (mkey_eqb (ekey x) (ekey e)) eqn:E; cbn; [exact IH|]. rewrite E. cbn. f_equal. exact IH.
Qed.
Print Assumptions C23_reregistration.

(** The hypotheses hold once goroutine 0 has registered; the request is also accepted
    by the handler that goroutine 4 has registered. *)
Example C24_loser_dropped_ex :
  let s := mrun demo [(4, 0); (0, 0)] (mstart once_prog) in
  readers s = [] /\ mthreads s 5 = MkMThread [OServe (req 2 100 [])] MIdle /\ mthreads s 6 = MkMThread [OServe (req 2 100 [])] MIdle
  /\ entries s = [MkEntry (KPtr 1) 11 true 1; MkEntry (KPtr 100) 14 false 0]
  /\ asked demo (KPtr 1) (req 2 100 []) = Says true (req 2 100 [])
  /\ asked demo (KPtr 100) (req 2 100 []) = Says true (req 2 100 []).
Proof. vm_compute. repeat split; reflexivity. Qed.

Example C23_reregistration_ex :
  let s := mrun demo [(0, 0)] (mstart once_prog) in
  readers s = [] /\ mthreads s 0 = MkMThread [OServe (req 2 1 [])] MIdle /\ mthreads s 1 = MkMThread [OServe (req 2 1 [])] MIdle
  /\ mthreads s 3 = MkMThread [OHandle (Some (KPtr 1)) (Some 13) false] MIdle
  /\ entries s = [MkEntry (KPtr 1) 11 true 0] /\ asked demo (KPtr 1) (req 2 1 []) = Says true (req 2 1 []).
Proof. vm_compute. repeat split; reflexivity. Qed.
