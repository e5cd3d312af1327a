(** C126: MultiMatchers with CookieMatchers. *)
From Coq Require Import Permutation.
From Verif Require Import MuxModel MuxSpec MuxFacts CookieModel MultiSpec P_MuxRace.

Lemma multi_app a b r : multi_match (a ++ b) r = match multi_match a r with Says true r' => multi_match b r' | x => x end.
Proof.
  revert r. induction a as [|m a IH]; intro r; [reflexivity|]. cbn [app multi_match]. destruct (m r) as [[]|]; [apply IH|reflexivity..].
Qed.

Lemma multi_header ms r : Forall by_header ms -> multi_match ms r = Says (forallb (fun m => yes m r) ms) r.
Proof.
  induction 1 as [|m ms [f Hf] _ IH]; [reflexivity|]. cbn [multi_match forallb]. unfold yes at 1. rewrite Hf. destruct (f (Request_Header r)); [exact IH|reflexivity].
Qed.

Lemma yes_header ms r q : Forall by_header ms -> Request_Header q = Request_Header r ->
  forallb (fun m => yes m q) ms = forallb (fun m => yes m r) ms.
Proof. intros H E. induction H as [|m ms [f Hf] _ IH]; [reflexivity|]. cbn [forallb]. unfold yes at 1 3. rewrite !Hf, E, IH. reflexivity. Qed.

Lemma part_buffer m x r b r' : part m -> Request_Body r = BBuf x -> m r = Says b r' -> r' = r \/ r' = set_body (BBuf []) r.
Proof.
  intros [[f Hf]|(d & w & Hd)] Hx H.
  - rewrite Hf in H. injection H as _ <-. now left.
  - rewrite Hd in H. right. exact (cookie_buffer_says d w r x b r' Hx H).
Qed.

Lemma parts_buffer ms : forall x r b r', Forall part ms -> Request_Body r = BBuf x -> multi_match ms r = Says b r' ->
  Request_Body r' = BBuf x \/ Request_Body r' = BBuf [].
Proof.
  induction ms as [|m ms IH]; intros x r b r' F Hx H; [injection H as _ <-; now left|]. inversion F as [|? ? Pm Pms]; subst. cbn [multi_match] in H.
  destruct (m r) as [[] q|] eqn:E; [|injection H as _ <-|discriminate].
  - destruct (part_buffer m x r _ _ Pm Hx E) as [->| ->]; [apply (IH x r b r' Pms Hx H)|].
    right. destruct (IH [] (set_body (BBuf []) r) b r' Pms eq_refl H); assumption.
  - destruct (part_buffer m x r _ _ Pm Hx E) as [->| ->]; [left; exact Hx|right; reflexivity].
Qed.

Lemma reads_nothing d : library_reader d -> d [] = inr EOF.
Proof. intros [<-|[<-|[<-|[<-|[<-|[<-|[]]]]]]]; vm_compute; reflexivity. Qed.

Lemma cookie_nothing d w r : library_reader d -> Request_Body r = BBuf [] -> cookie_match d w r = Says false (set_body (BBuf []) r).
Proof. intros L H. unfold cookie_match. rewrite H, (reads_nothing d L). reflexivity. Qed.

(** C126: with two CookieMatchers among its parts a MultiMatcher accepts no received
    request. *)
Theorem C126_two_cookies : forall front d w middle d' w' back r x, Forall part front -> Forall part middle ->
  library_reader d' -> Request_Body r = BBuf x ->
  forall r', multi_match (front ++ cookie_match d w :: middle ++ cookie_match d' w' :: back) r <> Says true r'.
Proof.
  intros front d w middle d' w' back r x Ff Fm L Hx r'. rewrite multi_app. destruct (multi_match front r) as [[] q|] eqn:E; try discriminate.
  assert (Hq : exists y, Request_Body q = BBuf y) by (destruct (parts_buffer _ _ _ _ _ Ff Hx E); eauto). destruct Hq as [y Hq].
  cbn [multi_match]. destruct (cookie_match d w q) as [[] q1|] eqn:E1; try discriminate. apply (cookie_buffer_says d w q y) in E1 as ->; [|exact Hq].
  rewrite multi_app. destruct (multi_match middle (set_body (BBuf []) q)) as [[] q2|] eqn:E2; try discriminate.
  assert (H2 : Request_Body q2 = BBuf []) by (destruct (parts_buffer middle [] (set_body (BBuf []) q) true q2 Fm eq_refl E2); assumption).
  cbn [multi_match]. rewrite (cookie_nothing d' w' q2 L H2). discriminate.
Qed.
Print Assumptions C126_two_cookies.

(** C126: with one CookieMatcher it accepts what all parts accept, wherever the
    CookieMatcher stands; the body stays if a part before it rejects. *)
Theorem C126_one_cookie : forall front d w back r x, Forall by_header front -> Forall by_header back ->
  Request_Body r = BBuf x -> d x <> inr EPanic ->
  multi_match (front ++ cookie_match d w :: back) r
  = if forallb (fun m => yes m r) front
    then Says ((match d x with inl c => (c =? w)%N | inr _ => false end) && forallb (fun m => yes m r) back) (set_body (BBuf []) r)
    else Says false r.
Proof.
  intros front d w back r x Ff Fb Hx Np. rewrite multi_app, (multi_header front r Ff). destruct (forallb (fun m => yes m r) front); [|reflexivity].
  cbn [multi_match]. rewrite (cookie_buffer d w r x Hx Np). destruct (match d x with inl c => (c =? w)%N | inr _ => false end); [|reflexivity].
  rewrite (multi_header back _ Fb). cbn [andb]. f_equal. apply yes_header; [exact Fb|reflexivity].
Qed.
Print Assumptions C126_one_cookie.

(** A request without data is rejected by every entry that tracks a cookie. *)
Lemma tracks_nothing fs e front d w back r : tracks fs e front d w back -> Request_Body r = BBuf [] ->
  exists r', match_of fs (ekey e) r = Says false r' /\ (r' = r \/ r' = set_body (BBuf []) r).
Proof.
  intros (p & -> & L & Ff & Fb & H) Hx. cbn [match_of]. rewrite H. assert (Np : d [] <> inr EPanic) by (rewrite (reads_nothing d L); discriminate).
  rewrite (C126_one_cookie front d w back r [] Ff Fb Hx Np), (reads_nothing d L). destruct (forallb (fun m => yes m r) front); eauto.
Qed.

Lemma set_body_twice b b' r : set_body b (set_body b' r) = set_body b r.
Proof. reflexivity. Qed.

(** The search goes on over an emptied request to its end. *)
Lemma swept fs i r0 snap l q : (forall f, In f l -> exists front d w back, tracks fs f front d w back) -> Request_Body q = BBuf [] -> set_body (BBuf []) q = q ->
  forall s, mat (mthreads s i) = MScan snap l r0 q ->
  exists n, mresults (mrun fs (repeat (i, 0) n) s) = mresults s ++ [(i, Served r0 snap NoMatch q)].
Proof.
  induction l as [|e l IH]; intros H Hq Eq s Hs.
  - exists 1. cbn [repeat mrun fold_left]. unfold mact. cbn [fst snd]. unfold mstep. rewrite Hs. reflexivity.
  - destruct (H e (or_introl eq_refl)) as (front & d & w & back & T). destruct (tracks_nothing _ _ _ _ _ _ q T Hq) as (q' & M & Q).
    assert (q' = q) as -> by (destruct Q; congruence).
    destruct (IH (fun f Hf => H f (or_intror Hf)) Hq Eq (mact fs s (i, 0))) as [n Hn].
    + unfold mact. cbn [fst snd]. unfold mstep. rewrite Hs. assert (P : pick 0 e l = (e, l)) by reflexivity. rewrite P, M. cbn. unfold mupd. rewrite Nat.eqb_refl. reflexivity.
    + exists (S n). cbn [repeat]. change (mrun fs ((i, 0) :: repeat (i, 0) n) s) with (mrun fs (repeat (i, 0) n) (mact fs s (i, 0))). rewrite Hn. f_equal.
      unfold mact. cbn [fst snd]. unfold mstep. rewrite Hs. assert (P : pick 0 e l = (e, l)) by reflexivity. rewrite P, M. reflexivity.
Qed.

(** C126: if the entries all track cookies, a received request can reach the default
    handler whatever cookie it has, as soon as one entry tracks another cookie. *)
Theorem C126_missed : forall fs s i r x l e front d w back,
  mthreads s i = MkMThread (OServe r :: l) MIdle -> Request_Body r = BBuf x ->
  (forall f, In f (entries s) -> exists front' d' w' back', tracks fs f front' d' w' back') ->
  In e (entries s) -> tracks fs e front d w back -> (forall m, In m front -> yes m r = true) -> d x <> inr EPanic -> d x <> inl w ->
  exists sch, mresults (mrun fs sch s) = mresults s ++ [(i, Served r (entries s) NoMatch (set_body (BBuf []) r))].
Proof.
  intros fs s i r x l e front d w back Ht Hx All Hin T Yes Np Nw. pose proof T as (p & Ek & L & Ff & Fb & H).
  destruct (entries s) as [|e0 es] eqn:Es; [destruct Hin|]. destruct (pick_any e es e0 Hin) as [n Hn].
  destruct (pick n e0 es) as [e' rest] eqn:P. cbn in Hn. subst e'.
  assert (S1 : mstep fs i 0 s = Some (MkMux (entries s) (i :: readers s) (nextid s)
      (mupd i (MkMThread l (MScan (entries s) (entries s) r r)) s) (mresults s))) by (unfold mstep; rewrite Ht; reflexivity).
  set (s1 := MkMux _ _ _ _ _) in S1.
  assert (A1 : mat (mthreads s1 i) = MScan (entries s) (entries s) r r) by (unfold s1; cbn; unfold mupd; rewrite Nat.eqb_refl; reflexivity).
  assert (M : match_of fs (ekey e) r = Says false (set_body (BBuf []) r)).
  { rewrite Ek. cbn [match_of]. rewrite H, (C126_one_cookie front d w back r x Ff Fb Hx Np).
    assert (Y : forallb (fun m => yes m r) front = true) by (apply forallb_forall; exact Yes). rewrite Y.
    destruct (d x) as [c|] eqn:Ed; [|reflexivity]. destruct (N.eqb_spec c w) as [->|]; [congruence|reflexivity]. }
  assert (S2 : exists s2, mstep fs i n s1 = Some s2 /\ mresults s2 = mresults s /\ mat (mthreads s2 i) = MScan (entries s) rest r (set_body (BBuf []) r)).
  { unfold mstep. rewrite A1, Es, P, M. eexists. split; [reflexivity|]. split; [reflexivity|]. cbn. unfold mupd. rewrite Nat.eqb_refl. reflexivity. }
  destruct S2 as (s2 & S2 & R2 & A2).
  assert (Sub : forall f, In f rest -> exists front' d' w' back', tracks fs f front' d' w' back').
  { intros f Hf. apply All. pose proof (pick_perm n e0 es) as Pm. rewrite P in Pm. cbn in Pm. eapply Permutation_in; [symmetry; exact Pm|]. now right. }
  destruct (swept fs i r (entries s) rest (set_body (BBuf []) r) Sub eq_refl eq_refl s2 A2) as [k Hk].
  exists ((i, 0) :: (i, n) :: repeat (i, 0) k). cbn [mrun fold_left]. unfold mact at 2 3. cbn [fst snd]. rewrite S1, S2.
  fold (mrun fs (repeat (i, 0) k) s2). rewrite Hk, R2, Es. reflexivity.
Qed.
Print Assumptions C126_missed.

Definition right_on (fs : nat -> Request -> verdict) (R : Request) (s : mux) : Prop :=
  (forall i, match mat (mthreads s i) with
     | MScan snap rest r0 r => r0 = R -> r = R /\ forall e, In e snap -> In e rest \/ ~ accepts fs e R
     | MTaking snap e r0 r => r0 = R -> r = R /\ In e snap /\ accepts fs e R
     | _ => True end)
  /\ forall i snap c r', In (i, Served R snap c r') (mresults s) -> r' = R /\ right_choice fs snap R c.

Lemma right_on_step fs prog R i s s' : untouched_by fs prog R -> known s -> from_prog prog s -> taking_once s ->
  right_on fs R s -> mtrans fs i s s' -> right_on fs R s'.
Proof.
  intros Hp [_ HK] [_ HF] HT [R1 R2] H.
  assert (P : forall e, In e (registrations s) -> exists b, match_of fs (ekey e) R = Says b R).
  { intros e He. destruct (HF e He) as [j Hj]. exact (Hp j _ _ _ Hj). }
  assert (New : forall x, mresults s' = mresults s ++ [x] ->
     (forall j snap c r', x = (j, Served R snap c r') -> r' = R /\ right_choice fs snap R c) ->
     forall j snap c r', In (j, Served R snap c r') (mresults s') -> r' = R /\ right_choice fs snap R c).
  { intros x Hx Hn j snap c r' Hi. rewrite Hx in Hi. apply in_app_or in Hi. destruct Hi as [Hi|[Hi|[]]]; eauto. }
  pose proof (R1 i) as Ri. pose proof (HK i) as Ki. destruct H; rewrite H in Ri, Ki; split;
    try (intro j; match goal with Ht : mthreads s' = _ |- _ => at_thread j i Ht; cbn [mat]; [|apply R1] end; auto);
    try (match goal with H : mresults s' = mresults s |- _ => rewrite H; exact R2 end);
    try (eapply New; [eassumption|]; intros j' snap1 c1 r1' E; injection E as <- ER <- <- <-; subst).
  - eapply New; [eassumption|]. intros j' snap1 c1 r1' E. discriminate.
  - destruct (Ri eq_refl) as [-> Rs]. split; [reflexivity|]. intros e He. destruct (Rs e He) as [[]|]; assumption.
  - intros ->. destruct (Ri eq_refl) as [-> Rs]. destruct Ki as [K1 K2].
    assert (He : In e rest) by (eapply Permutation_in; [symmetry; eassumption|left; reflexivity]).
    destruct (P e (K1 e (K2 e He))) as [b Hb]. rewrite Hb in H1. injection H1 as -> <-. split; [reflexivity|].
    intros x Hx. destruct (Rs x Hx) as [Hx'|]; [|right; assumption].
    eapply Permutation_in in Hx'; [|eassumption]. destruct Hx' as [<-|]; [|left; assumption].
    right. intros [r' Hr]. rewrite asked_eq in Hr. congruence.
  - intros ->. destruct (Ri eq_refl) as [-> Rs], Ki as [K1 K2]. destruct (P e (K1 e (K2 e H0))) as [b Hb]. rewrite Hb in H1.
    injection H1 as -> <-. split; [reflexivity|]. split; [auto|]. exists R. exact Hb.
  - destruct (Ri eq_refl) as [-> Rs], Ki as [K1 K2]. destruct (P e (K1 e (K2 e H0))) as [b Hb]. rewrite Hb in H1.
    injection H1 as -> <-. split; [reflexivity|]. split; [auto|]. exists R. exact Hb.
  - destruct (Ri eq_refl) as (-> & A & B). split; [reflexivity|]. split; assumption.
  - destruct (Ri eq_refl) as (-> & A & B). split; [reflexivity|]. exists e. split; [exact A|]. split; [exact B|]. eapply HT. eassumption.
Qed.

(** C126: a request that no registered matcher touches is dispatched as promised and
    with its body, whatever the matchers do to other requests. *)
Theorem C126_untouched : forall fs prog sch i r snap c r', untouched_by fs prog r ->
  In (i, Served r snap c r') (mresults (mrun fs sch (mstart prog))) ->
  r' = r /\ right_choice fs snap r c /\ exists a b, sch = a ++ b /\ snap = entries (mrun fs a (mstart prog)).
Proof.
  intros fs prog sch i r snap c r' Hp H.
  assert (G : let s := mrun fs sch (mstart prog) in known s /\ from_prog prog s /\ conserved s /\ right_on fs r s).
  { apply (mrun_inv fs (fun s => known s /\ from_prog prog s /\ conserved s /\ right_on fs r s)).
    - split; [exact (known_run fs [] prog)|]. split; [exact (from_prog_run fs [] prog)|].
      split; [exact (conserved_run fs [] prog)|]. split; [intro; exact I|intros ? ? ? ? []].
    - intros j s s' (A & B & C & D) T. split; [eapply known_step; eassumption|].
      split; [eapply from_prog_step; eassumption|]. split; [eapply conserved_step; eassumption|].
      eapply right_on_step; try eassumption. exact (proj1 C). }
  destruct G as (_ & _ & _ & _ & G). destruct (G _ _ _ _ H) as [A B]. split; [exact A|]. split; [exact B|]. exact (proj2 (snapshots fs prog sch) _ _ _ _ _ H).
Qed.
Print Assumptions C126_untouched.

(** C126: in particular matchers whose first parts reject the request by its header. *)
Theorem C126_guarded : forall fs p front d w back r, Forall by_header front ->
  (forall q, fs p q = multi_match (front ++ cookie_match d w :: back) q) -> (exists m, In m front /\ yes m r = false) ->
  asked fs (KPtr p) r = Says false r.
Proof.
  intros fs p front d w back r Ff H (m & Hm & Y). cbn [asked]. rewrite H, multi_app, (multi_header front r Ff).
  replace (forallb (fun m => yes m r) front) with false; [reflexivity|]. symmetry. apply not_true_is_false. intro F.
  rewrite forallb_forall in F. specialize (F m Hm). congruence.
Qed.
Print Assumptions C126_guarded.

(** Two flows are tracked by their cookies; a flow-removed message of the second one. *)
Definition flow (c : N) : bytes := enc_FlowRemoved (MkFlowRemoved c 2 3 4 5 6 7 8 9 10 (MkMatch 1 [MkXM 32768 0 [x00; x00; x00; x03] []])).
Definition flows (p : nat) : Request -> verdict := multi_match ([type_match 11] ++ cookie_match cookie_FlowRemoved (N.of_nat p) :: []).
Definition removal (t c : N) : Request := MkRequest (MkHeader 4 t 0 0) (BBuf (flow c)) 1 3 0.
Definition flow_prog (i : nat) : list mop :=
  match i with 0 => [OHandle (Some (KPtr 1)) (Some 1) true; OHandle (Some (KPtr 2)) (Some 2) true; OServe (removal 11 2); OServe (removal 9 2)] | _ => [] end.

Lemma type_by_header t : by_header (type_match t).
Proof. exists (fun h => (Header_Type h =? t)%N). reflexivity. Qed.

Example C126_missed_ex :
  let s := mrun flows [(0, 0); (0, 0)] (mstart flow_prog) in
  entries s = [MkEntry (KPtr 2) 2 true 1; MkEntry (KPtr 1) 1 true 0]
  /\ (forall f, In f (entries s) -> tracks flows f [type_match 11] cookie_FlowRemoved (N.of_nat (ehandler f)) [])
  /\ yes (type_match 11) (removal 11 2) = true
  /\ cookie_FlowRemoved (flow 2) = inl 2%N
  /\ map (fun x => match snd x with Served _ _ c _ => Some c | _ => None end) (skipn 2 (mresults (mrun flows (repeat (0, 0) 3) s)))
     = [Some (Chosen (MkEntry (KPtr 2) 2 true 1))]
  /\ map (fun x => match snd x with Served _ _ c _ => Some c | _ => None end) (skipn 2 (mresults (mrun flows (repeat (0, 1) 4) s))) = [Some NoMatch].
Proof.
  cbn zeta. split; [vm_compute; reflexivity|]. split; [|vm_compute; repeat split; reflexivity].
  intros f Hf. vm_compute in Hf. destruct Hf as [<-|[<-|[]]].
  - exists 2. split; [reflexivity|]. split; [right; right; right; left; reflexivity|]. split; [constructor; [apply type_by_header|constructor]|]. split; [constructor|reflexivity].
  - exists 1. split; [reflexivity|]. split; [right; right; right; left; reflexivity|]. split; [constructor; [apply type_by_header|constructor]|]. split; [constructor|reflexivity].
Qed.

(** A request of another type is untouched by them. *)
Example C126_untouched_ex : untouched_by flows flow_prog (removal 9 2)
  /\ In (0, Served (removal 9 2) [MkEntry (KPtr 1) 1 true 0] NoMatch (removal 9 2)) (mresults (mrun flows (repeat (0, 0) 9) (mstart flow_prog))).
Proof.
  split; [|vm_compute; auto 9]. intros i k h once H. destruct i as [|i]; [|destruct H]. cbn in H.
  destruct H as [H|[H|[H|[H|[]]]]]; try discriminate; injection H as <- _ _; exists false; vm_compute; reflexivity.
Qed.

Example C126_two_cookies_ex :
  multi_match ([] ++ cookie_match cookie_FlowRemoved 2 :: [] ++ cookie_match cookie_FlowRemoved 2 :: []) (removal 11 2)
    = Says false (set_body (BBuf []) (removal 11 2))
  /\ multi_match [cookie_match cookie_FlowRemoved 2] (removal 11 2) = Says true (set_body (BBuf []) (removal 11 2)).
Proof. vm_compute. split; reflexivity. Qed.
