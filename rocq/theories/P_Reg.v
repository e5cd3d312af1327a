(** C118: registrations that are accepted although they cannot work. *)
From Verif Require Import RequestSpec MuxSpec MuxFacts ServerSpec ServerFacts CrashModel CrashSpec P_Crash RegModel.
From Coq Require Import Lia Permutation.

Lemma handle_register m h once id es :
  handle m h once id es
  = let '(es', x) := register (key_of m) (handler_of h) once id es in
    (es', match x with RegOk _ => Accepted | _ => Refused end).
Proof. destruct m, h; try reflexivity; cbn; destruct (registered _ es); reflexivity. Qed.

(** C118: refused are the nil interfaces, matchers that cannot be map keys, and
    matchers that are registered already, leaving everything as it was; everything
    else is accepted, functions that are nil included. *)
Theorem C118_refused : forall m h once id es,
  (snd (handle m h once id es) = Refused <->
     m = GNone \/ m = GUncomparable \/ h = HNone \/ exists e, In e es /\ key_of m = Some (ekey e))
  /\ (snd (handle m h once id es) = Refused -> fst (handle m h once id es) = es).
Proof.
  intros m h once id es.
  assert (R : forall k, registered k es = true <-> exists e, In e es /\ Some k = Some (ekey e)).
  { intro k. rewrite registered_spec. split; intros (e & A & B); exists e; split; congruence. }
  assert (Q : forall k, registered k es = false -> ~ exists e, In e es /\ Some k = Some (ekey e)).
  { intros k F X. apply R in X. congruence. }
  destruct m, h; cbn [handle key_of handler_of]; try (split; [split; auto 6; intro; congruence|reflexivity]);
    match goal with
    | |- context [registered ?k es] =>
        destruct (registered k es) eqn:E; cbn [fst snd];
        [split; [split; [intros _; do 3 right; apply R, E|reflexivity]|reflexivity]
        |split; [split; [discriminate|intros [X|[X|[X|X]]]; [discriminate..|destruct (Q _ E X)]]|discriminate]]
    | _ => split; [split; [intros _; auto|reflexivity]|reflexivity]
    end.
Qed.
Print Assumptions C118_refused.

(** C118: so HandleFunc never refuses a function: nil or not, it is accepted
    exactly when the same matcher with a function would be. *)
Theorem C118_nil_function_accepted : forall m f once id es,
  snd (handle m (func_handler f) once id es) = snd (handle m (HSome 0) once id es).
Proof. intros m f once id es. destruct m, f; cbn; try reflexivity; destruct (registered _ es); reflexivity. Qed.
Print Assumptions C118_nil_function_accepted.

Lemma in_as_mop (prog : nat -> list gop) i k h once : In (OHandle (Some k) (Some h) once) (map as_mop (prog i)) ->
  exists m h', In (GHandle m h' once) (prog i) /\ key_of m = Some k /\ handler_of h' = Some h.
Proof.
  intro H. apply in_map_iff in H. destruct H as ([m h' o|r] & E & I); [|discriminate E].
  injection E as E1 E2 ->. eauto.
Qed.

Definition type_of (r : Request) : N := Header_Type (Request_Header r).

(** C118: a multiplexer of types.  A request crashes the program only if a nil
    function was registered for its type, ... *)
Theorem C118_crash_only : forall funcs prog sch i r snap c r',
  (forall i m h once, In (GHandle m h once) (prog i) -> exists t, m = GType t) ->
  In (i, Served r snap c r') (mresults (mrun (matchers funcs) sch (gstart prog))) ->
  effect_of c = Crashes -> exists j once, In (GHandle (GType (type_of r)) HNilFunc once) (prog j).
Proof.
  intros funcs prog sch i r snap c r' Ht H C.
  assert (T : forall i k h once, In (OHandle (Some k) h once) (map as_mop (prog i)) -> exists t, k = KType t).
  { intros j k h once I. apply in_map_iff in I. destruct I as ([m h' o|q] & E & I); [|discriminate E].
    destruct (Ht _ _ _ _ I) as [t ->]. injection E as <- _ _. eauto. }
  destruct (type_routing _ _ sch i r snap c r' T H) as (_ & R).
  assert (P : plain_prog (matchers funcs) (fun i => map as_mop (prog i))).
  { intros j k h once I q. destruct (T _ _ _ _ I) as [t ->]. eexists. reflexivity. }
  destruct (dispatch _ _ sch i r snap c r' P H) as (_ & _ & a & b & _ & Hs).
  destruct (find _ snap) as [e|] eqn:F; [|subst c; discriminate C].
  destruct R as [->|[_ ->]]; [|discriminate C]. apply find_some in F. destruct F as [F K].
  destruct (mkey_eqb_spec (ekey e) (KType (Header_Type (Request_Header r)))) as [E|]; [|discriminate K].
  rewrite Hs in F. destruct (from_prog_run (matchers funcs) a (fun i => map as_mop (prog i))) as [_ FP].
  destruct (known_run (matchers funcs) a (fun i => map as_mop (prog i))) as [KN _].
  destruct (FP e (KN e F)) as [j J]. apply in_as_mop in J. destruct J as (m & h' & J & KM & KH).
  destruct (Ht _ _ _ _ J) as [t ->]. cbn in KM. rewrite E in KM. injection KM as ->.
  cbn in C. destruct h' as [| |h']; cbn in KH; [discriminate KH| |injection KH as KH; rewrite <- KH in C; discriminate C].
  exists j, (eonce e). exact J.
Qed.
Print Assumptions C118_crash_only.

(** ... and it does if that is the registration the request meets. *)
Theorem C118_crash : forall funcs prog sch i r snap c r' e,
  (forall i m h once, In (GHandle m h once) (prog i) -> exists t, m = GType t) ->
  In (i, Served r snap c r') (mresults (mrun (matchers funcs) sch (gstart prog))) ->
  In e snap -> ekey e = KType (type_of r) -> eonce e = false ->
  (forall j h once, In (GHandle (GType (type_of r)) h once) (prog j) -> h = HNilFunc) ->
  effect_of c = Crashes.
Proof.
  intros funcs prog sch i r snap c r' e Ht H I K O N.
  assert (T : forall i k h once, In (OHandle (Some k) h once) (map as_mop (prog i)) -> exists t, k = KType t).
  { intros j k h once J. apply in_map_iff in J. destruct J as ([m h' o|q] & E & J); [|discriminate E].
    destruct (Ht _ _ _ _ J) as [t ->]. injection E as <- _ _. eauto. }
  assert (P : plain_prog (matchers funcs) (fun i => map as_mop (prog i))).
  { intros j k h once J q. destruct (T _ _ _ _ J) as [t ->]. eexists. reflexivity. }
  destruct (dispatch _ _ sch i r snap c r' P H) as (_ & _ & a & b & _ & Hs).
  assert (X : forall x, In x snap -> ekey x = KType (type_of r) -> ehandler x = 0).
  { intros x Ix Kx. rewrite Hs in Ix.
    destruct (from_prog_run (matchers funcs) a (fun i => map as_mop (prog i))) as [_ FP].
    destruct (known_run (matchers funcs) a (fun i => map as_mop (prog i))) as [KN _].
    destruct (FP x (KN x Ix)) as [j J]. apply in_as_mop in J. destruct J as (m & h' & J & KM & KH).
    destruct (Ht _ _ _ _ J) as [t ->]. cbn in KM. rewrite Kx in KM. injection KM as ->.
    rewrite (N _ _ _ J) in KH. injection KH as <-. reflexivity. }
  destruct (type_routing _ _ sch i r snap c r' T H) as (_ & R).
  assert (C1 : count (KType (type_of r)) snap <= 1) by (rewrite Hs; apply once_per_registration).
  destruct (find _ snap) as [x|] eqn:F.
  - apply find_some in F. destruct F as [F E].
    destruct (mkey_eqb_spec (ekey x) (KType (Header_Type (Request_Header r)))) as [Ex|]; [|discriminate E].
    assert (x = e) by (apply (count_two _ snap x e C1 F I); assumption). subst x.
    destruct R as [->|[Y _]]; [|congruence]. cbn. rewrite (X e I K). reflexivity.
  - pose proof (find_none _ _ F e I) as Y. cbn in Y. unfold type_of in K. rewrite K, mkey_eqb_refl in Y. discriminate Y.
Qed.
Print Assumptions C118_crash.

(** ** A server whose multiplexer got its functions by HandleFunc *)
Definition registered_functions (regs : list (N * option nat)) : list entry :=
  fold_left (fun es x => fst (handle (GType (fst x)) (func_handler (snd x)) false (length es) es)) regs [].
Definition fatal_for (regs : list (N * option nat)) (q : Request) : bool :=
  match find (fun e => mkey_eqb (ekey e) (KType (type_of q))) (registered_functions regs) with
  | Some e => match effect_of (Chosen e) with Crashes => true | _ => false end
  | None => false
  end.

Definition found (t : N) (es : list entry) : option nat :=
  option_map ehandler (find (fun e => mkey_eqb (ekey e) (KType t)) es).

Lemma found_handle t u f id es :
  found t (fst (handle (GType u) (func_handler f) false id es))
  = match found t es with
    | Some h => Some h
    | None => if (u =? t)%N then handler_of (func_handler f) else None
    end.
Proof.
  unfold found. rewrite handle_register. unfold register. cbn [key_of].
  destruct (handler_of (func_handler f)) as [h|] eqn:H; [|destruct f; discriminate].
  destruct (registered (KType u) es) eqn:R; cbn [fst].
  - destruct (find _ es) as [e|] eqn:F; [reflexivity|]. cbn. destruct (N.eqb_spec u t) as [->|]; [|reflexivity].
    rewrite registered_find, F in R. discriminate R.
  - cbn [find ekey]. cbn [mkey_eqb]. destruct (N.eqb_spec u t) as [->|].
    + rewrite registered_find in R. destruct (find _ es); [discriminate R|reflexivity].
    + destruct (find _ es); reflexivity.
Qed.

Lemma found_all t regs : forall es,
  found t (fold_left (fun es x => fst (handle (GType (fst x)) (func_handler (snd x)) false (length es) es)) regs es)
  = match found t es with
    | Some h => Some h
    | None => match find (fun x => (fst x =? t)%N) regs with Some x => handler_of (func_handler (snd x)) | None => None end
    end.
Proof.
  induction regs as [|[u f] regs IH]; intro es; cbn [fold_left find fst snd]; [destruct (found t es); reflexivity|].
  rewrite IH, found_handle. destruct (found t es); [reflexivity|]. destruct (u =? t)%N; [|reflexivity].
  destruct f; reflexivity.
Qed.

(** The requests on which such a multiplexer crashes: those whose type got a nil
    function first. *)
Theorem C118_functions : forall regs q,
  fatal_for regs q = true <->
  exists a b, regs = a ++ (type_of q, None) :: b /\ ~ In (type_of q) (map fst a).
Proof.
  intros regs q. pose proof (found_all (type_of q) regs []) as F. unfold found in F. cbn [find option_map] in F.
  unfold fatal_for, registered_functions. cbn [effect_of].
  assert (E : forall o : option entry, match o with Some e => match effect_of (Chosen e) with Crashes => true | _ => false end
    | None => false end = match option_map ehandler o with Some 0 => true | _ => false end).
  { intros [e|]; [|reflexivity]. cbn. destruct (ehandler e); reflexivity. }
  rewrite E, F. clear E F.
  induction regs as [|[u f] regs IH]; cbn [find fst].
  - split; [discriminate|intros (a & b & H & _); destruct a; discriminate H].
  - destruct (N.eqb_spec u (type_of q)) as [->|D].
    + destruct f as [h|]; cbn.
      * split; [discriminate|]. intros ([|x a] & b & H & I); [discriminate H|]. injection H as <- _. destruct I. left. reflexivity.
      * split; [|reflexivity]. intros _. exists [], regs. split; [reflexivity|auto].
    + rewrite IH. split; intros (a & b & H & I).
      * exists ((u, f) :: a), b. rewrite H. split; [reflexivity|]. intros [X|X]; [exact (D X)|exact (I X)].
      * destruct a as [|x a]; [injection H as H _; congruence|]. injection H as <- ->. exists a, b. split; [reflexivity|].
        intro X. apply I. right. exact X.
Qed.
Print Assumptions C118_functions.

(** C118: the server serves as long as no peer sends a message of such a type, ... *)
Theorem C118_unnoticed : forall regs lim q n sch,
  peers_send (fun m => ~ In (type_of m, None) regs) sch ->
  prun (fatal_for regs) sch (sstart lim q n) = (srun sch (sstart lim q n), false).
Proof.
  intros regs lim q n sch P. apply C114_goes_on. eapply Forall_impl; [|exact P]. intros m H.
  destruct m as [k ms| | |]; auto. eapply Forall_impl; [|exact H]. intros r N. cbn in N.
  destruct (fatal_for regs r) eqn:E; [|reflexivity]. apply C118_functions in E. destruct E as (a & b & -> & _).
  destruct N. apply in_or_app. right. left. reflexivity.
Qed.
Print Assumptions C118_unnoticed.

(** ... and the first that does ends it for everybody. *)
Theorem C118_ends : forall regs q n sch s k m,
  NoDup (map fst regs) -> In (type_of m, None) regs ->
  prun (fatal_for regs) sch (sstart 0 q n) = (s, false) -> nth_error (loops s) k = Some LIdle ->
  exists sch' t, prun (fatal_for regs) (sch ++ sch') (sstart 0 q n) = (t, true)
    /\ sent (length (cns s)) t [m]
    /\ forall c, c < length (cns s) -> story c t = story c s /\ forall ms, sent c t ms <-> sent c s ms.
Proof.
  intros regs q n sch s k m D I P K. apply (C114_any_time _ q n sch s k m); [|exact P|exact K].
  apply C118_functions. apply in_split in I. destruct I as (a & b & ->). exists a, b. split; [reflexivity|].
  rewrite map_app in D. cbn in D. apply NoDup_remove_2 in D. intro X. apply D. apply in_or_app. left. exact X.
Qed.
Print Assumptions C118_ends.

(** ** Matchers without function *)
Definition unchanging (fs : nat -> Request -> verdict) : Prop :=
  forall k q b q', match_of fs k q = Says b q' -> q' = q.
Definition broken (fs : nat -> Request -> verdict) (e : entry) : Prop := forall q, match_of fs (ekey e) q = Panics.

Lemma broken_nil funcs m h once id : m = GNilFunc \/ (exists p, m = GFunc p /\ funcs p = None) ->
  forall k, key_of m = Some k -> broken (matchers funcs) (MkEntry k h once id).
Proof.
  intros [->|(p & -> & E)] k K q; injection K as <-; cbn; [reflexivity|]. rewrite E. reflexivity.
Qed.

Record pending_broken fs (s : mux) : Prop := MkPB {
  pb_thread : forall i, match mat (mthreads s i) with
    | MScan snap rest r0 r => r = r0 /\ incl rest snap /\ forall e, In e snap -> broken fs e -> In e rest
    | MTaking snap e r0 r => r = r0 /\ In e snap /\ match_of fs (ekey e) r0 = Says true r0
    | _ => True end;
  pb_result : forall i r snap c r', In (i, Served r snap c r') (mresults s) -> 
    r' = r /\ ((exists e, In e snap /\ broken fs e) -> exists x, In x snap /\ (c = Chosen x \/ c = Lost) /\ match_of fs (ekey x) r = Says true r) }.

Lemma pending_broken_step fs i s s' : unchanging fs -> pending_broken fs s -> mtrans fs i s s' -> pending_broken fs s'.
Proof.
  intros U [PT PR] H. pose proof (PT i) as Pi. split.
  - intro j. destruct H; match goal with Ht : mthreads s' = _ |- _ => at_thread j i Ht; cbn [mat]; [|apply PT] end; auto;
      match goal with Ha : mat (mthreads s i) = _ |- _ => rewrite Ha in Pi end.
    + repeat split; auto. apply incl_refl.
    + destruct Pi as (-> & A & B). match goal with M : match_of _ _ _ = _ |- _ => rename M into MM end.
      pose proof (U _ _ _ _ MM) as ->. split; [reflexivity|]. split.
      * intros x Hx. apply A. eapply Permutation_in; [symmetry; eassumption|right; exact Hx].
      * intros x Hx Bx. specialize (B x Hx Bx).
        match goal with P : Permutation _ _ |- _ => apply (Permutation_in x P) in B end.
        destruct B as [<-|B]; [|exact B]. rewrite Bx in MM. discriminate MM.
    + destruct Pi as (-> & A & B). match goal with M : match_of _ _ _ = _ |- _ => rename M into MM end.
      pose proof (U _ _ _ _ MM) as ->. auto.
  - intros j q snap' c q' Hin. destruct H;
      match goal with Hr : mresults s' = _ |- _ => rewrite Hr in Hin end; eauto;
      apply in_app_or in Hin; destruct Hin as [Hin|[Hin|[]]]; eauto; try discriminate Hin; injection Hin as <- <- <- <- <-;
      match goal with Ha : mat (mthreads s i) = _ |- _ => rewrite Ha in Pi end.
    + destruct Pi as (-> & A & B). split; [reflexivity|]. intros (e & E1 & E2). destruct (B e E1 E2).
    + destruct Pi as (-> & A & B). match goal with M : match_of _ _ _ = _ |- _ => rename M into MM end.
      pose proof (U _ _ _ _ MM) as ->. split; [reflexivity|]. intros _. exists e. auto.
    + destruct Pi as (-> & A & B). split; [reflexivity|]. intros _. exists e. auto.
    + destruct Pi as (-> & A & B). split; [reflexivity|]. intros _. exists e. auto.
Qed.

(** C118: while a broken matcher is registered, a request is served only by another
    entry that accepts it; none is discarded for want of a match. *)
Theorem C118_broken_matcher : forall fs prog sch i r snap c r' e, unchanging fs ->
  In (i, Served r snap c r') (mresults (mrun fs sch (mstart prog))) -> In e snap -> broken fs e ->
  exists x, In x snap /\ x <> e /\ (c = Chosen x \/ c = Lost) /\ match_of fs (ekey x) r = Says true r.
Proof.
  intros fs prog sch i r snap c r' e U H I B.
  assert (P : pending_broken fs (mrun fs sch (mstart prog))).
  { apply mrun_inv; [|intros; eapply pending_broken_step; eassumption]. split; [intro; exact Logic.I|intros ? ? ? ? ? []]. }
  destruct (pb_result _ _ P _ _ _ _ _ H) as (_ & X). destruct (X (ex_intro _ e (conj I B))) as (x & X1 & X2 & X3).
  exists x. repeat split; auto. intros ->. rewrite B in X3. discriminate X3.
Qed.
Print Assumptions C118_broken_matcher.

(** C118: a request that no other entry accepts ends the goroutine that serves it, in
    whatever order the entries are visited. *)
Theorem C118_broken_matcher_ends : forall fs s i snap rest r0 r e, unchanging fs ->
  mat (mthreads s i) = MScan snap rest r0 r -> In e rest -> broken fs e ->
  (forall x, In x rest -> match_of fs (ekey x) r <> Says true r) ->
  forall order, length order = length rest ->
  mat (mthreads (mrun fs (map (pair i) order) s) i) = MDead
  /\ readers (mrun fs (map (pair i) order) s) = readers s.
Proof.
  intros fs s i snap rest r0 r e U. intros Ha I B N order L.
  assert (D : forall l s, mat (mthreads s i) = MDead -> mrun fs (map (pair i) l) s = s).
  { induction l as [|n l IH]; intros s1 H1; [reflexivity|]. cbn. unfold mact, mstep. cbn. rewrite H1. apply IH, H1. }
  revert s rest Ha I N L. induction order as [|n order IH]; intros s rest Ha I N L.
  { destruct rest; [destruct I|discriminate L]. }
  destruct rest as [|e0 rest0]; [destruct I|]. cbn [map].
  change (mrun fs ((i, n) :: map (pair i) order) s) with (mrun fs (map (pair i) order) (mact fs s (i, n))).
  unfold mact, mstep. cbn [fst snd]. rewrite Ha.
  pose proof (pick_perm n e0 rest0) as P. destruct (pick n e0 rest0) as [x rest]. cbn [fst snd] in P.
  assert (Hx : In x (e0 :: rest0)) by (eapply Permutation_in; [symmetry; exact P|left; reflexivity]).
  destruct (match_of fs (ekey x) r) as [[|] r'|] eqn:M.
  - pose proof (U _ _ _ _ M) as ->. destruct (N x Hx M).
  - pose proof (U _ _ _ _ M) as ->. 
    match goal with |- context [mrun _ _ ?s1] => specialize (IH s1 rest) end. apply IH.
    + cbn [mthreads]. rewrite mupd_same. reflexivity.
    + apply (Permutation_in e P) in I. destruct I as [->|I]; [|exact I]. rewrite B in M. discriminate M.
    + intros y Hy. apply N. eapply Permutation_in; [symmetry; exact P|right; exact Hy].
    + apply Permutation_length in P. cbn in P, L |- *. lia.
  - match goal with |- context [mrun _ _ ?s1] => rewrite (D order s1) end.
    + cbn [mthreads readers]. rewrite mupd_same. auto.
    + cbn [mthreads]. rewrite mupd_same. reflexivity.
Qed.
Print Assumptions C118_broken_matcher_ends.

(** C118: a conjunction (MultiMatcher) with a member that cannot be called crashes
    exactly for the requests all members before it accept. *)
Theorem C118_conjunction : forall before (bad : Request -> verdict) behind r,
  (forall m q, In m before -> exists b, m q = Says b q) -> (forall q, bad q = Panics) ->
  (multi_match (before ++ bad :: behind) r = Panics <-> forall m, In m before -> m r = Says true r)
  /\ (multi_match (before ++ bad :: behind) r <> Panics -> multi_match (before ++ bad :: behind) r = Says false r).
Proof.
  intros before bad behind r H B. induction before as [|m l IH]; cbn [app multi_match].
  - rewrite B. split; [split; [intros _ m []|reflexivity]|congruence].
  - destruct (H m r (or_introl eq_refl)) as [b E]. rewrite E.
    destruct IH as [I1 I2]; [intros; apply H; right; assumption|]. destruct b.
    + split; [|exact I2]. rewrite I1. split; intros X m' Hm; [destruct Hm as [<-|Hm]; auto|apply X; right; exact Hm].
    + split; [|reflexivity]. split; [discriminate|]. intro X. rewrite (X m (or_introl eq_refl)) in E. discriminate E.
Qed.
Print Assumptions C118_conjunction.

(** ** Concrete cases *)
Definition of_type (t : N) : Request := MkRequest (MkHeader 4 t 8 1) (BBuf []) 1 3 0.

(** A nil function for echo requests (type 2) beside a function for hellos (type 0). *)
Definition echo_nil : list (N * option nat) := [(0%N, Some 7); (2%N, None)].
Definition one_request (t : N) : list move := repeat (MLoop 0 [of_type t]) 5.

Example C118_refused_ex :
  handle (GFunc 3) HNilFunc false 0 [] = ([MkEntry (KPtr 4) 0 false 0], Accepted)
  /\ snd (handle GNilFunc (HSome 1) false 0 []) = Accepted
  /\ snd (handle GUncomparable (HSome 1) false 0 []) = Refused
  /\ snd (handle (GFunc 3) HNone false 0 []) = Refused
  /\ snd (handle (GFunc 3) (HSome 1) false 1 [MkEntry (KPtr 4) 0 false 0]) = Refused.
Proof. repeat split. Qed.

Example C118_nil_function_ex :
  snd (handle (GType 2) (func_handler None) false 0 []) = Accepted.
Proof. reflexivity. Qed.

(** Registered by one goroutine; served by another: the echo request crashes. *)
Example C118_crash_ex :
  let prog i := match i with
    | 0 => [GHandle (GType 0) (HSome 7) false; GHandle (GType 2) HNilFunc false]
    | 1 => [GServe (of_type 0); GServe (of_type 2); GServe (of_type 3)] | _ => [] end in
  let s := mrun (matchers (fun _ => None)) [(0,0); (0,0); (1,0); (1,0); (1,0); (1,0); (1,0); (1,0); (1,0); (1,0); (1,0); (1,0)] (gstart prog) in
  flat_map (fun x => match snd x with Served _ _ c _ => [effect_of c] | _ => [] end) (mresults s) = [Calls 7; Crashes; Discards].
Proof. vm_compute. reflexivity. Qed.

Example C118_functions_ex :
  fatal_for echo_nil (of_type 2) = true /\ fatal_for echo_nil (of_type 0) = false /\ fatal_for echo_nil (of_type 3) = false.
Proof. repeat split. Qed.

Example C118_ends_ex :
  let sch t := one_request t ++ [MRecv 0; MServe 0; MServe 0; MServe 0] in
  snd (prun (fatal_for echo_nil) (sch 0%N) (sstart 0 true 1)) = false
  /\ nth_error (loops (fst (prun (fatal_for echo_nil) (sch 0%N) (sstart 0 true 1)))) 0 = Some LIdle
  /\ snd (prun (fatal_for echo_nil) (sch 2%N) (sstart 0 true 1)) = true.
Proof. vm_compute. repeat split; reflexivity. Qed.

(** The order of iteration over the map decides between serving and crashing. *)
Example C118_broken_matcher_ex :
  let prog i := match i with
    | 0 => [GHandle (GType 2) (HSome 7) false; GHandle GNilFunc (HSome 8) false]
    | 1 => [GServe (of_type 2)] | _ => [] end in
  let s n := mrun (matchers (fun _ => None)) [(0,0); (0,0); (1,0); (1,n); (1,n)] (gstart prog) in
  mat (mthreads (s 0) 1) = MDead /\ readers (s 0) = [1]
  /\ map (fun x => match snd x with Served _ _ c _ => Some (effect_of c) | _ => None end) (mresults (s 1)) = [None; None; Some (Calls 7)].
Proof. vm_compute. repeat split; reflexivity. Qed.

Example C118_broken_matcher_ends_ex :
  let prog i := match i with
    | 0 => [GHandle (GType 2) (HSome 7) false; GHandle (GFunc 5) (HSome 8) false]
    | 1 => [GServe (of_type 3)] | _ => [] end in
  let s := mrun (matchers (fun _ => None)) [(0,0); (0,0); (1,0)] (gstart prog) in
  exists snap rest r0 r e, mat (mthreads s 1) = MScan snap rest r0 r /\ In e rest /\ broken (matchers (fun _ => None)) e
    /\ length rest = 2 /\ forall x, In x rest -> match_of (matchers (fun _ => None)) (ekey x) r <> Says true r.
Proof.
  do 5 eexists. split; [reflexivity|]. split; [left; reflexivity|]. split; [intro q; reflexivity|]. split; [reflexivity|].
  intros x [<-|[<-|[]]]; discriminate.
Qed.

Example C118_conjunction_ex :
  multi_match [type_match 2; fun _ => Panics; type_match 3] (of_type 2) = Panics
  /\ multi_match [type_match 2; fun _ => Panics; type_match 3] (of_type 3) = Says false (of_type 3).
Proof. split; reflexivity. Qed.
