(** C114: a request on which a handler panics ends the service of all connections. *)
From Verif Require Import ServerSpec ServerFacts CrashModel CrashFacts CrashSpec SafetyFacts PortsModel P_Safety P_Server.
From Coq Require Import Lia Permutation.

(** A run goes as it would if no handler ever panicked, up to the first call of
    a handler that does; then it is over. *)
Theorem C114_first_panic : forall d lim q n sch t over, prun d sch (sstart lim q n) = (t, over) ->
  (exists sch1 sch2, sch = sch1 ++ sch2 /\ t = srun sch1 (sstart lim q n) /\ (over = false -> sch2 = []))
  /\ (over = true <-> exists m, In m (calls (trace t)) /\ d m = true)
  /\ (over = true -> forall more, prun d (sch ++ more) (sstart lim q n) = (t, true)).
Proof.
  intros d lim q n sch t over P. destruct (prun_spec d sch (sstart lim q n) t over eq_refl P) as (A & B). split; [exact A|]. split.
  - rewrite B, fatal_calls. apply existsb_exists.
  - intros -> more. rewrite prun_app, P. reflexivity.
Qed.
Print Assumptions C114_first_panic.

(** Without a limit: as soon as any peer sends such a request, the server does not
    come to the end of its work for anybody. *)
Theorem C114_work_unfinished : forall d q n sch t c ms m, prun d sch (sstart 0 q n) = (t, false) ->
  sent c t ms -> In m ms -> d m = true -> ~ settled t.
Proof.
  intros d q n sch t c ms m P S I D Q.
  destruct (C114_first_panic d 0 q n sch t false P) as ((l1 & l2 & E & T & O) & F & _).
  specialize (O eq_refl). subst t.
  pose proof (C65_exactly_once q n l1 c ms Q S) as PM. apply Permutation_sym in PM.
  assert (X : In m (calls (story c (srun l1 (sstart 0 q n))))) by (exact (Permutation_in m PM I)).
  assert (Y : false = true); [|discriminate Y].
  apply F. exists m. split; [|exact D]. unfold story, calls in X. apply in_flat_map in X. destruct X as (e & Y & Z).
  apply filter_In in Y. apply in_flat_map. exists e. tauto.
Qed.
Print Assumptions C114_work_unfinished.

(** Whatever the server has done so far, and whoever is connected: one more peer
    with one such request ends it, without anything more for the others. *)
Theorem C114_any_time : forall d q n sch s k m, d m = true ->
  prun d sch (sstart 0 q n) = (s, false) -> nth_error (loops s) k = Some LIdle ->
  exists sch' t, prun d (sch ++ sch') (sstart 0 q n) = (t, true)
    /\ sent (length (cns s)) t [m]
    /\ forall c, c < length (cns s) -> story c t = story c s /\ forall ms, sent c t ms <-> sent c s ms.
Proof.
  intros d q n sch s k m D P K.
  destruct (prun_spec d sch (sstart 0 q n) s false eq_refl P) as ((l1 & l2 & _ & T & _) & _).
  assert (L : limit s = 0%Z) by (subst s; apply limit_run; reflexivity).
  destruct s as [lim q0 ctr ls cs hs tr]. cbn [limit loops cns] in *. subst lim.
  destruct (newcomer_run d q0 ctr ls cs hs tr k m D K) as (t & ev & R & TR & OW & _ & x & X & XM).
  exists (newcomer q0 k (length cs) (length hs) m), t. split; [rewrite prun_app, P; exact R|]. split.
  - exists x. split; [rewrite X; apply nth_last|exact XM].
  - intros c C. split.
    + unfold story. cbn [trace]. rewrite TR, filter_app.
      replace (filter (fun e => conn_of e =? c) ev) with (@nil event); [apply app_nil_r|].
      clear - OW C. induction OW as [|e l H OW IH]; [reflexivity|]. cbn [filter].
      destruct (Nat.eqb_spec (conn_of e) c); [lia|exact IH].
    + intros ms. unfold sent. cbn [cns]. rewrite X, nth_error_app1 by exact C. reflexivity.
Qed.
Print Assumptions C114_any_time.

(** Requests that fulfil [ok], wherever they are. *)
Record holds (ok : Request -> Prop) (s : server) : Prop := MkHolds {
  ho_cns : Forall (fun x => Forall ok (cmsgs x) /\ Forall ok (cleft x) /\ (forall q, crcv x = ROffer (Some q) -> ok q)
                    /\ (forall q st, cserve x = VReq q st -> ok q)) (cns s);
  ho_hands : Forall (fun h : nat * Request * option stage => ok (snd (fst h))) (hands s);
  ho_trace : Forall ok (calls (trace s)) }.

Lemma Forall_setnth {A} (P : A -> Prop) l : forall k x, Forall P l -> P x -> Forall P (setnth k x l).
Proof. induction l as [|a l IH]; intros [|k] x H X; cbn [setnth]; inversion H; subst; constructor; auto. Qed.
Lemma Forall_nth {A} (P : A -> Prop) l k x : Forall P l -> nth_error l k = Some x -> P x.
Proof. intros H E. apply nth_error_In in E. rewrite Forall_forall in H. auto. Qed.
Lemma calls_app a b : calls (a ++ b) = calls a ++ calls b. Proof. apply flat_map_app. Qed.
Lemma serve_req_call (ok : Request -> Prop) c q st : ok q -> Forall ok (calls [fst (serve_req c q st)]).
Proof. intros H. destruct st; cbn; auto. Qed.

Lemma holds_step ok m s : (match m with MLoop _ ms => Forall ok ms | _ => True end) -> holds ok s -> holds ok (sact s m).
Proof.
  intros M [HC HH HT]. unfold sact. destruct (sstep m s) as [t|] eqn:E; [|constructor; assumption].
  destruct m as [k ms|c|c|j]; cbn [sstep] in E.
  - unfold loop_step in E. destruct (nth_error (loops s) k) as [[|c|c|c z|c|c|c]|]; try discriminate;
      [injection E as <-..| |injection E as <-|injection E as <-|].
    + constructor; cbn; auto. apply Forall_app. split; [exact HC|]. constructor; [|constructor]. cbn. repeat split; auto; discriminate.
    + constructor; cbn; auto. rewrite calls_app. apply Forall_app. split; [exact HT|constructor].
    + constructor; cbn; auto.
    + destruct (negb (limit s =? 0)%Z && (wrap32 (limit s) <=? z)%Z); injection E as <-; constructor; cbn; auto.
    + constructor; cbn; auto. rewrite calls_app. apply Forall_app. split; [exact HT|constructor].
    + constructor; cbn; auto. rewrite calls_app. apply Forall_app. split; [exact HT|constructor].
    + destruct (nth_error (cns s) c) as [x|] eqn:X; [|discriminate]. injection E as <-. constructor; cbn; auto.
      apply Forall_setnth; [exact HC|]. pose proof (Forall_nth _ _ _ _ HC X) as (A & B & _). cbn. repeat split; auto; discriminate.
  - unfold recv_step in E. destruct (nth_error (cns s) c) as [[ms lf r v]|] eqn:X; [|discriminate].
    pose proof (Forall_nth _ _ _ _ HC X) as (A & B & R & V). cbn [cmsgs cleft crcv cserve] in *.
    destruct r; try discriminate. destruct lf as [|q l]; injection E as <-; constructor; cbn; auto; apply Forall_setnth; auto; cbn;
      repeat split; auto; try discriminate.
    + inversion B; auto.
    + intros q' [= <-]. inversion B; auto.
  - unfold serve_step in E. destruct (nth_error (cns s) c) as [[ms lf r v]|] eqn:X; [|discriminate].
    pose proof (Forall_nth _ _ _ _ HC X) as (A & B & R & V). cbn [cmsgs cleft crcv cserve] in *.
    destruct v as [| |q st| | | |]; try discriminate.
    + destruct r as [| |[q|]|]; try discriminate.
      * destruct (sequential s); injection E as <-; constructor; cbn; auto; try (apply Forall_setnth; auto; cbn); repeat split; auto; try discriminate.
        -- intros q' st [= <- _]. auto.
        -- apply Forall_app. split; [exact HH|]. constructor; [cbn; auto|constructor].
      * injection E as <-. constructor; cbn; auto. apply Forall_setnth; auto. cbn. repeat split; auto; discriminate.
    + destruct (serve_req c q st) as [e st'] eqn:SR. injection E as <-. constructor; cbn; auto.
      * apply Forall_setnth; auto. cbn. repeat split; auto. destruct st'; [|discriminate]. intros q' y [= <- _]. eauto.
      * rewrite calls_app. apply Forall_app. split; [exact HT|].
        pose proof (serve_req_call ok c q st (V q st eq_refl)) as G. rewrite SR in G. exact G.
    + injection E as <-. constructor; cbn; auto. apply Forall_setnth; auto. cbn. repeat split; auto; discriminate.
    + injection E as <-. constructor; cbn; auto.
      * apply Forall_setnth; auto. cbn. repeat split; auto; discriminate.
      * rewrite calls_app. apply Forall_app. split; [exact HT|constructor].
    + injection E as <-. constructor; cbn; auto.
      * apply Forall_setnth; auto. cbn. repeat split; auto; discriminate.
      * rewrite calls_app. apply Forall_app. split; [exact HT|constructor].
  - unfold hand_step in E. destruct (nth_error (hands s) j) as [[[c q] [st|]]|] eqn:X; try discriminate.
    pose proof (Forall_nth _ _ _ _ HH X) as A. cbn in A.
    destruct (serve_req c q st) as [e st'] eqn:SR. injection E as <-. constructor; cbn; auto.
    + apply Forall_setnth; auto.
    + rewrite calls_app. apply Forall_app. split; [exact HT|].
      pose proof (serve_req_call ok c q st A) as G. rewrite SR in G. exact G.
Qed.

Lemma holds_run ok sch : forall s, peers_send ok sch -> holds ok s -> holds ok (srun sch s).
Proof.
  induction sch as [|m l IH]; intros s P H; [exact H|]. inversion P; subst. apply IH; [assumption|]. apply holds_step; assumption.
Qed.

(** A program in which the handlers panic on no request that is sent goes on. *)
Theorem C114_goes_on : forall d lim q n sch, peers_send (fun m => d m = false) sch ->
  prun d sch (sstart lim q n) = (srun sch (sstart lim q n), false).
Proof.
  intros d lim q n sch P. destruct (prun d sch (sstart lim q n)) as [t over] eqn:R.
  destruct (C114_first_panic d lim q n sch t over R) as ((l1 & l2 & E & T & O) & F & _).
  destruct over.
  - destruct (proj1 F eq_refl) as (m & I & D). subst sch t.
    assert (H : holds (fun m => d m = false) (srun l1 (sstart lim q n))).
    { apply holds_run; [apply Forall_app in P; apply P|]. constructor; constructor. }
    destruct H as [_ _ H]. rewrite Forall_forall in H. rewrite (H m I) in D. discriminate.
  - rewrite (O eq_refl), app_nil_r in E. subst. reflexivity.
Qed.
Print Assumptions C114_goes_on.

(** Handlers that read message bodies with the library: the program goes on as
    long as no body holds the type of a pop PBB action. *)
Theorem C114_library_handlers : forall reads lim q n sch,
  (forall t A rd z, reads t = Some (Decoding A rd z) ->
     (exists k, Decoder A rd = Decoder _ (dec k)) \/ In (Decoder A rd) (plain_readers ++ action_readers)) ->
  peers_send harmless sch ->
  prun (dies reads) sch (sstart lim q n) = (srun sch (sstart lim q n), false).
Proof.
  intros reads lim q n sch L P. apply C114_goes_on.
  eapply Forall_impl; [|exact P]. intros m H. destruct m as [k ms| | |]; auto. eapply Forall_impl; [|exact H].
  intros r HR. unfold dies. destruct (reads (Header_Type (Request_Header r))) as [[A rd z]|] eqn:E; [|reflexivity].
  destruct (Request_Body r) as [|w rb re o|b|rr] eqn:B; try reflexivity.
  assert (NP : fail (rd z b) <> Some EPanic).
  { destruct (L _ _ _ _ E) as [(kd & K)|I].
    - assert (O : orderly (Decoder A rd)) by (rewrite K; apply C89_fixed). destruct (O z b) as (_ & [X|(e & X & R)]); rewrite X; [discriminate|].
      destruct R as [->|[->|(t & ->)]]; discriminate.
    - apply in_app_or in I. destruct I as [I|I].
      + pose proof (proj1 (Forall_forall _ _) C89_plain _ I z b) as (_ & [X|(e & X & R)]); rewrite X; [discriminate|].
        destruct R as [->|[->|(t & ->)]]; discriminate.
      + apply (C89_no_mention A rd I z b). exact (HR b B). }
  destruct (fail (rd z b)) as [[]|]; try reflexivity. elim NP. reflexivity.
Qed.
Print Assumptions C114_library_handlers.

(** A flow modification of OpenFlow 1.3 whose only action is pop PBB, as a frame. *)
Definition flow_pop : bytes := [x04; x0e; x00; x48; x00; x00; x00; x07] ++ zeros 40 ++ any_match ++ apply_pop.
Definition reads_flows (t : N) : option decoding :=
  if (t =? 14)%N then Some (Decoding _ dec_FlowMod zero_FlowMod) else None.

(** Connections do not influence each other (C110)?  One frame of 72 bytes from one
    peer, for a handler that reads flow modifications, and no peer gets anything
    any more, whatever it sent before or sends later. *)
Theorem C114_isolation_refuted : exists frame m r,
  receive (MkReader frame [] EOF false) = (inl m, r)
  /\ forall q ms, exists sch, forall more,
       let '(t, over) := prun (dies reads_flows) (sch ++ more) (sstart 0 q 1) in
       over = true /\ sent 0 t ms /\ sent 1 t [m] /\ calls (story 0 t) = [].
Proof.
  destruct (receive (MkReader flow_pop [] EOF false)) as [[m|e] r] eqn:R; [|vm_compute in R; discriminate R].
  exists flow_pop, m, r. split; [exact R|].
  assert (D : dies reads_flows m = true).
  { assert (M : inl m = fst (receive (MkReader flow_pop [] EOF false))) by (rewrite R; reflexivity).
    assert (M2 : fst (receive (MkReader flow_pop [] EOF false))
               = inl (MkRequest (MkHeader 4 14 72 7) (BBuf (skipn 8 flow_pop)) 1 3 64)) by (vm_compute; reflexivity).
    rewrite M2 in M. injection M as ->. vm_compute. reflexivity. }
  intros q ms.
  set (s := srun (come 0 ms) (sstart 0 q 1)).
  assert (P : prun (dies reads_flows) (come 0 ms) (sstart 0 q 1) = (s, false)) by reflexivity.
  destruct (C114_any_time (dies reads_flows) q 1 (come 0 ms) s 0 m D P eq_refl) as (sch' & t & A & B & C).
  exists (come 0 ms ++ sch'). intros more.
  rewrite (proj2 (proj2 (C114_first_panic _ _ _ _ _ _ _ A)) eq_refl more).
  destruct (C 0) as (C1 & C2); [cbn; lia|].
  split; [reflexivity|]. split; [apply C2; exists (MkCn ms ms RReading VWait); split; reflexivity|]. split; [exact B|].
  rewrite C1. reflexivity.
Qed.
Print Assumptions C114_isolation_refuted.

(** A run that goes on: a flow modification without actions, then an echo request. *)
Definition flow_plain : Request := MkRequest (MkHeader 4 14 56 7) (BBuf (zeros 40 ++ any_match)) 1 3 48.
Example C114_ex :
  let sch := come 0 [flow_plain; echo] ++ [MRecv 0; MServe 0; MServe 0; MServe 0] in
  harmless flow_plain /\ harmless echo
  /\ snd (prun (dies reads_flows) sch (sstart 0 true 1)) = false
  /\ calls (trace (fst (prun (dies reads_flows) sch (sstart 0 true 1)))) = [flow_plain]
  /\ nth_error (loops (fst (prun (dies reads_flows) sch (sstart 0 true 1)))) 0 = Some LIdle.
Proof.
  split.
  - intros b B (p & q & E). assert (F : BBuf (zeros 40 ++ any_match) = BBuf b) by exact B. clear B.
    assert (I : In x1b b) by (rewrite E; apply in_or_app; right; right; left; reflexivity).
    clear E. injection F as <-.
    vm_compute in I. repeat (destruct I as [I|I]; [discriminate I|]). destruct I.
  - split; [intros b E; discriminate E|]. vm_compute. repeat split; reflexivity.
Qed.
