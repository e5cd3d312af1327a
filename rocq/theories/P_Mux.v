(** C21 - C27, C29, C63, C64: multiplexers and matchers. *)
From Verif Require Import MuxFacts.

Definition req (t x : N) (b : bytes) : Request := MkRequest (MkHeader 4 t (8 + lenN b) x) (BBuf b) 1 3 (Z.of_nat (length b)).
Definition by_tx (x : N) (r : Request) : verdict := Says (Header_Transaction (Request_Header r) =? x)%N r.
(** Pointer matcher [p] accepts transactions [p] and 100. *)
Definition demo (p : nat) (r : Request) : verdict :=
  let x := Header_Transaction (Request_Header r) in Says ((x =? N.of_nat p) || (x =? 100))%N r.

(** C21: under every interleaving and every order of map iteration, a lookup
    chooses an accepting entry of the map as it was at some moment, the default
    handler only when none accepts, and leaves the request alone. *)
Theorem C21_dispatch : forall fs prog sch i r snap c r', plain_prog fs prog ->
  In (i, Served r snap c r') (mresults (mrun fs sch (mstart prog))) ->
  r' = r /\ right_choice fs snap r c
  /\ exists a b, sch = a ++ b /\ snap = entries (mrun fs a (mstart prog)).
Proof. exact dispatch. Qed.
Print Assumptions C21_dispatch.

(** C21: a permanent handler that is the only match is chosen. *)
Theorem C21_only_match : forall fs prog sch i r snap c r' e, plain_prog fs prog ->
  In (i, Served r snap c r') (mresults (mrun fs sch (mstart prog))) ->
  In e snap -> eonce e = false -> accepts fs e r -> (forall e', In e' snap -> accepts fs e' r -> e' = e) ->
  c = Chosen e.
Proof. exact only_match. Qed.
Print Assumptions C21_only_match.

(** C21: a permanent handler stays registered, as long as its matcher is not
    registered a second time. *)
Theorem C21_permanent_stays : forall fs prog sch e, eonce e = false -> In e (entries (mrun fs sch (mstart prog))) ->
  forall sch', let s' := mrun fs (sch ++ sch') (mstart prog) in
  count (ekey e) (registrations s') <= 1 -> In e (entries s').
Proof. exact permanent_stays. Qed.
Print Assumptions C21_permanent_stays.

(** C21: an entry leaves the map only when a disposable handler of the same matcher is chosen. *)
Theorem C21_others_stay : forall fs prog sch i n s' e, let s := mrun fs sch (mstart prog) in
  mstep fs i n s = Some s' -> In e (entries s) ->
  In e (entries s') \/ exists snap e' r0 r, mresults s' = mresults s ++ [(i, Served r0 snap (Chosen e') r)]
    /\ eonce e' = true /\ ekey e' = ekey e.
Proof. exact others_stay. Qed.
Print Assumptions C21_others_stay.

(** Three registrations, three requests: permanent, disposable, none. *)
Example C21_dispatch_ex :
  let prog i := match i with
    | 0 => [OHandle (Some (KPtr 1)) (Some 11) false; OHandle (Some (KPtr 2)) (Some 12) true; OHandle (Some (KType 9)) (Some 13) false]
    | 1 => [OServe (req 2 1 []); OServe (req 2 2 []); OServe (req 2 2 [])] | _ => [] end in
  let s := mrun demo (repeat (0, 0) 3 ++ repeat (1, 1) 14) (mstart prog) in
  plain_prog demo prog
  /\ map (fun x => match snd x with Served _ _ c _ => Some c | _ => None end) (skipn 3 (mresults s))
     = [Some (Chosen (MkEntry (KPtr 1) 11 false 0)); Some (Chosen (MkEntry (KPtr 2) 12 true 1)); Some NoMatch]
  /\ map ehandler (entries s) = [13; 11].
Proof.
  split; [|vm_compute; split; reflexivity].
  intros i k h once _ r. destruct k; eexists; reflexivity.
Qed.

(** C22: at every moment the selections of disposable handlers of a matcher
    plus its entry in the map equal the number of its registrations. *)
Theorem C22_once_per_registration : forall fs prog sch k, let s := mrun fs sch (mstart prog) in
  count k (disposed s) + count k (entries s) = count k (registrations s) /\ count k (entries s) <= 1.
Proof. exact once_per_registration. Qed.
Print Assumptions C22_once_per_registration.

(** C22: a matcher registered once is used up by at most one request. *)
Theorem C22_once_at_most_once : forall fs prog sch k, let s := mrun fs sch (mstart prog) in
  count k (registrations s) <= 1 ->
  count k (disposed s) <= 1 /\ (count k (disposed s) = 1 -> registered k (entries s) = false).
Proof. exact once_at_most_once. Qed.
Print Assumptions C22_once_at_most_once.

(** Two goroutines find the same disposable handler; one gets it. *)
Definition once_prog (i : nat) : list mop :=
  match i with
  | 0 => [OHandle (Some (KPtr 1)) (Some 11) true; OServe (req 2 1 [])]
  | 1 => [OServe (req 2 1 [])]
  | 2 => [OHandle (Some (KPtr 1)) (Some 12) true]
  | 3 => [OHandle (Some (KPtr 1)) (Some 13) false]
  | 4 => [OHandle (Some (KPtr 100)) (Some 14) false]
  | 5 => [OServe (req 2 100 [])]
  | 6 => [OServe (req 2 100 [])]
  | _ => []
  end.
Definition choices (s : mux) : list (nat * choice) :=
  flat_map (fun x => match snd x with Served _ _ c _ => [(fst x, c)] | _ => [] end) (mresults s).

Example C22_once_at_most_once_ex :
  let s := mrun demo [(0,0); (0,0); (1,0); (0,0); (1,0); (0,0); (1,0)] (mstart once_prog) in
  count (KPtr 1) (registrations s) = 1
  /\ choices s = [(0, Chosen (MkEntry (KPtr 1) 11 true 0)); (1, Lost)] /\ entries s = [].
Proof. vm_compute. repeat split; reflexivity. Qed.

(** C23: with one re-registration between the two lock sections the first
    registration serves two requests and the second is removed unused ... *)
Theorem C23_reregistration_refuted : exists sch,
  let s := mrun demo sch (mstart once_prog) in
  map (fun e => (ehandler e, eid e)) (registrations s) = [(11, 0); (12, 1)]
  /\ choices s = [(0, Chosen (MkEntry (KPtr 1) 11 true 0)); (1, Chosen (MkEntry (KPtr 1) 11 true 0))]
  /\ entries s = [].
Proof.
  exists [(0,0); (0,0); (1,0); (0,0); (1,0); (0,0); (2,0); (1,0)]. vm_compute. repeat split; reflexivity.
Qed.
Print Assumptions C23_reregistration_refuted.

(** ... also when the second registration is a permanent one. *)
Theorem C23_permanent_removed_refuted : exists sch,
  let s := mrun demo sch (mstart once_prog) in
  map (fun e => (ehandler e, eonce e)) (registrations s) = [(11, true); (13, false)]
  /\ choices s = [(0, Chosen (MkEntry (KPtr 1) 11 true 0)); (1, Chosen (MkEntry (KPtr 1) 11 true 0))]
  /\ entries s = [].
Proof.
  exists [(0,0); (0,0); (1,0); (0,0); (1,0); (0,0); (3,0); (1,0)]. vm_compute. repeat split; reflexivity.
Qed.
Print Assumptions C23_permanent_removed_refuted.

(** C24: a request that matches a permanent handler registered throughout is
    discarded after losing the race for a disposable one. *)
Theorem C24_loser_dropped_refuted : exists sch,
  let s := mrun demo sch (mstart once_prog) in
  choices s = [(5, Chosen (MkEntry (KPtr 1) 11 true 1)); (6, Lost)]
  /\ entries s = [MkEntry (KPtr 100) 14 false 0]
  /\ accepts demo (MkEntry (KPtr 100) 14 false 0) (req 2 100 []).
Proof.
  exists [(4,0); (0,0); (5,0); (6,0); (5,0); (6,0); (5,0); (6,0)]. vm_compute.
  split; [reflexivity|]. split; [reflexivity|eexists; reflexivity].
Qed.
Print Assumptions C24_loser_dropped_refuted.

(** C25: the result and effect of a registration after any registrations. *)
Theorem C25_register_result : forall l1 m h once l2,
  let before := fst (register_all l1 []) in
  let after := fst (register_all (l1 ++ [(m, h, once)]) []) in
  let res := nth (length l1) (snd (register_all (l1 ++ (m, h, once) :: l2) [])) Duplicate in
  match m, h with
  | None, _ => res = NilMatcher /\ after = before
  | Some _, None => res = NilHandler /\ after = before
  | Some k, Some f =>
      match first_for k l1 with
      | Some _ => res = Duplicate /\ after = before
      | None => exists e, res = RegOk e /\ after = e :: before /\ ekey e = k /\ ehandler e = f /\ eonce e = once
      end
  end.
Proof. exact register_all_result. Qed.
Print Assumptions C25_register_result.

(** C25: the map holds for every matcher its first well-formed registration. *)
Theorem C25_first_kept : forall l es k,
  option_map view (find (fun e => same_key (ekey e) k) (fst (register_all l es)))
  = match find (fun e => same_key (ekey e) k) es with Some e => Some (view e) | None => first_for k l end.
Proof. exact register_all_map. Qed.
Print Assumptions C25_first_kept.

(** C25: in the shared multiplexer the lock is free after it, panic or not. *)
Theorem C25_lock_released : forall fs i n s m h once l,
  mat (mthreads s i) = MIdle -> mtodo (mthreads s i) = OHandle m h once :: l -> readers s = [] ->
  exists s', mstep fs i n s = Some s' /\ readers s' = []
    /\ (entries s', mresults s') =
       (let '(es, x) := register m h once (nextid s) (entries s) in (es, mresults s ++ [(i, Registered x)])).
Proof. exact register_step. Qed.
Print Assumptions C25_lock_released.

Example C25_register_result_ex :
  let l := [(Some (KType 2), Some 5, false); (Some (KType 2), Some 6, true); (None, Some 1, false);
            (Some (KPtr 3), None, false); (Some (KPtr 3), Some 7, true)] in
  snd (register_all l []) = [RegOk (MkEntry (KType 2) 5 false 0); Duplicate; NilMatcher; NilHandler; RegOk (MkEntry (KPtr 3) 7 true 1)]
  /\ map ehandler (fst (register_all l [])) = [7; 5].
Proof. vm_compute. split; reflexivity. Qed.

(** C26: with type matchers only, the outcome is determined by the type. *)
Theorem C26_type_routing : forall fs prog sch i r snap c r',
  (forall i k h once, In (OHandle (Some k) h once) (prog i) -> exists t, k = KType t) ->
  In (i, Served r snap c r') (mresults (mrun fs sch (mstart prog))) ->
  r' = r /\
  match find (fun e => same_key (ekey e) (KType (Header_Type (Request_Header r)))) snap with
  | None => c = NoMatch
  | Some e => c = Chosen e \/ (eonce e = true /\ c = Lost)
  end.
Proof. exact type_routing. Qed.
Print Assumptions C26_type_routing.

Example C26_type_routing_ex :
  let prog i := match i with
    | 0 => [OHandle (Some (KType 2)) (Some 11) false; OHandle (Some (KType 3)) (Some 12) false; OServe (req 3 0 []); OServe (req 7 0 [])]
    | _ => [] end in
  forall n m, n < 3 -> m < 3 ->
  choices (mrun demo ([(0,0); (0,0); (0,0); (0,n); (0,m)] ++ repeat (0, n) 5) (mstart prog))
  = [(0, Chosen (MkEntry (KType 3) 12 false 1)); (0, NoMatch)].
Proof. intros prog [|[|[|n]]] [|[|[|m]]] H1 H2; try lia; vm_compute; reflexivity. Qed.

(** C27 *)
Theorem C27_type_matcher : forall t r, exists b, type_match t r = Says b r
  /\ (b = true <-> Header_Type (Request_Header r) = t).
Proof. intros t r. eexists. split; [reflexivity|]. apply N.eqb_eq. Qed.
Print Assumptions C27_type_matcher.

Theorem C27_multi_matcher : forall ms, Forall plain ms -> forall r,
  multi_match ms r = Says (forallb (fun m => match m r with Says b _ => b | Panics => false end) ms) r.
Proof. exact multi_plain. Qed.
Print Assumptions C27_multi_matcher.

Theorem C27_transaction_matcher : forall draw h, let '(h', m) := transaction_matcher draw h in
  (Header_Transaction h <> 0%N -> h' = h)
  /\ (Header_Transaction h = 0%N -> h' = MkHeader (Header_Version h) (Header_Type h) (Header_Length h) draw)
  /\ forall r, exists b, m r = Says b r /\ (b = true <-> Header_Transaction (Request_Header r) = Header_Transaction h').
Proof.
  intros draw h. unfold transaction_matcher. destruct h as [v t l x]. cbn [Header_Transaction].
  destruct (N.eqb_spec x 0) as [E|E]; (split; [congruence|]; split; [auto; congruence|]);
    intro r; eexists; (split; [reflexivity|]); apply N.eqb_eq.
Qed.
Print Assumptions C27_transaction_matcher.

Example C27_matchers_ex :
  multi_match [type_match 2; by_tx 7] (req 2 7 []) = Says true (req 2 7 [])
  /\ multi_match [type_match 2; by_tx 7] (req 2 8 []) = Says false (req 2 8 [])
  /\ multi_match [] (req 2 8 []) = Says true (req 2 8 [])
  /\ fst (transaction_matcher 55 (MkHeader 4 2 8 0)) = MkHeader 4 2 8 55.
Proof. vm_compute. repeat split; reflexivity. Qed.

(** C29: a cookie matcher empties the body of a received request, whatever it decides; ... *)
Theorem C29_cookie_buffer : forall decode want r x, Request_Body r = BBuf x -> decode x <> inr EPanic ->
  cookie_match decode want r
  = Says (match decode x with inl c => (c =? want)%N | inr _ => false end) (set_body (BBuf []) r).
Proof. exact cookie_buffer. Qed.
Print Assumptions C29_cookie_buffer.

(** ... so a handler selected by a cookie matcher is given an empty body, in
    every multiplexer of plain and cookie matchers, under every interleaving. *)
Theorem C29_handler_body_empty : forall fs prog sch i r snap e r' p decode want, library_like fs ->
  (forall j q, In (OServe q) (prog j) -> exists x, Request_Body q = BBuf x) ->
  In (i, Served r snap (Chosen e) r') (mresults (mrun fs sch (mstart prog))) ->
  ekey e = KPtr p -> (forall q, fs p q = cookie_match decode want q) ->
  Request_Body r' = BBuf [].
Proof. exact cookie_empties. Qed.
Print Assumptions C29_handler_body_empty.

(** Bodies that are not buffers are read and put back. *)
Theorem C29_other_body_kept : forall decode want r,
  (forall x, Request_Body r <> BBuf x) -> Request_Body r <> BNil ->
  forall x, readall_body (Request_Body r) = (x, None) -> decode x <> inr EPanic ->
  cookie_match decode want r = Says (match decode x with inl c => (c =? want)%N | inr _ => false end) (set_body (BBuf x) r).
Proof. exact cookie_other. Qed.
Print Assumptions C29_other_body_kept.

(** So a request made by NewRequest from a payload can be matched by cookie and
    still be sent or decoded; a payload that fails after writing
    something is not accepted (but see C29_failed_payload in P_Cookie.v). *)
Theorem C29_new_request : forall decode want t w,
  (perr w = None -> decode (pbytes w) <> inr EPanic ->
   exists r', cookie_match decode want (new_request t (Some w))
     = Says (match decode (pbytes w) with inl c => (c =? want)%N | inr _ => false end) r'
     /\ Request_Body r' = BBuf (pbytes w) /\ Request_Header r' = Request_Header (new_request t (Some w)))
  /\ (perr w <> None -> pbytes w <> [] ->
      exists r', cookie_match decode want (new_request t (Some w)) = Says false r').
Proof.
  intros decode want t w. split.
  - intros E P. rewrite (cookie_other decode want (new_request t (Some w)) ltac:(discriminate) ltac:(discriminate) (pbytes w)); [|
      |exact P]. { eexists. repeat split; reflexivity. }
    cbn [new_request Request_Body readall_body copy_write]. rewrite E. destruct (pbytes w); reflexivity.
  - intros E P. unfold cookie_match. cbn [new_request Request_Body readall_body copy_write].
    destruct (perr w); [|congruence]. destruct (pbytes w); [congruence|]. eexists. reflexivity.
Qed.
Print Assumptions C29_new_request.


Definition first8 (x : bytes) : N + err := if length x <? 8 then inr UnexpectedEOF else inl (be_dec (firstn 8 x)).
Definition cookies (p : nat) : Request -> verdict := cookie_match first8 (N.of_nat p).
Definition cookie_prog (i : nat) : list mop :=
  match i with
  | 0 => [OHandle (Some (KPtr 1)) (Some 11) false; OHandle (Some (KPtr 2)) (Some 12) false;
          OServe (req 11 0 (be_enc 8 1 ++ [xaa]))]
  | _ => [] end.

(** Without any race, the same request is accepted or discarded depending on
    the order in which the map is visited; when accepted its body is gone. *)
Theorem C29_order_dependent_refuted : exists o1 o2,
  let s1 := mrun cookies o1 (mstart cookie_prog) in let s2 := mrun cookies o2 (mstart cookie_prog) in
  choices s1 = [(0, Chosen (MkEntry (KPtr 1) 11 false 0))] /\ choices s2 = [(0, NoMatch)]
  /\ map snd (skipn 2 (mresults s1))
     = [Served (req 11 0 (be_enc 8 1 ++ [xaa])) (entries s1) (Chosen (MkEntry (KPtr 1) 11 false 0))
               (set_body (BBuf []) (req 11 0 (be_enc 8 1 ++ [xaa])))].
Proof.
  exists [(0,0); (0,0); (0,0); (0,1)], [(0,0); (0,0); (0,0); (0,0); (0,0); (0,0)].
  vm_compute. repeat split; reflexivity.
Qed.
Print Assumptions C29_order_dependent_refuted.

(** C63: the multiplexer never deadlocks while matchers return. *)
Theorem C63_mux_progress : forall fs prog sch i, plain_prog fs prog -> let s := mrun fs sch (mstart prog) in
  mbusy s i -> exists j, mstep fs j 0 s <> None.
Proof. exact mux_progress. Qed.
Print Assumptions C63_mux_progress.

Example C63_mux_progress_ex :
  let s := mrun demo [(0,0); (0,0); (1,0)] (mstart once_prog) in
  readers s = [1; 0] /\ mbusy s 2 /\ mstep demo 2 0 s = None /\ mstep demo 0 0 s <> None.
Proof. vm_compute. split; [reflexivity|]. split; [left; discriminate|]. split; [reflexivity|discriminate]. Qed.

(** C64: a matcher that panics leaves the multiplexer read-locked: from then on
    nothing is registered and no disposable handler is selected. *)
Theorem C64_panic_locks : forall fs prog sch i, let s := mrun fs sch (mstart prog) in
  mat (mthreads s i) = MDead ->
  forall sch', let s' := mrun fs sch' s in
  entries s' = entries s /\ exists new, mresults s' = mresults s ++ new /\
     forall j o, In (j, o) new -> exists r snap c r', o = Served r snap c r' /\
       match c with NoMatch => True | Chosen e => eonce e = false | Lost => False end.
Proof. exact panic_locks. Qed.
Print Assumptions C64_panic_locks.

(** A cookie matcher panics on a request without body. *)
Example C64_panic_locks_ex :
  let prog i := match i with
    | 0 => [OHandle (Some (KPtr 1)) (Some 11) false; OServe (set_body BNil (req 11 0 []))]
    | 1 => [OHandle (Some (KPtr 2)) (Some 12) false] | _ => [] end in
  let s := mrun cookies [(0,0); (0,0); (0,0)] (mstart prog) in
  mat (mthreads s 0) = MDead /\ readers s = [0] /\ mstep cookies 1 0 s = None.
Proof. vm_compute. repeat split; reflexivity. Qed.
