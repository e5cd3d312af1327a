(** C86: a served connection from the bytes of the peer to the bytes of the replies. *)
From Coq Require Import ZifyBool ZifyNat ZifyN.
From Verif Require Import HandlerFacts ConnSeqFacts RequestFacts MuxSpec MuxFacts ServerFacts P_Handler SessionModel ServerSpec.
Ltac Zify.zify_post_hook ::= Z.div_mod_to_equations.

(** A connection that works and has nothing pending. *)
Definition fine (c : conn) : Prop := failure c = None /\ ontime (cbw c) /\ unsent c = [].

(** Replies as (header, body); those fit in a message. *)
Definition plain_reply (hp : Header * option payload) : Prop :=
  exists x, content (BCopy (snd hp) [] None false) = (x, None) /\ (lenN x <= 65527)%N.
(** Frame [e] is the reply [hp] to a request of version [v]. *)
Definition reply_as (v : N) (hp : Header * option payload) (e : bytes) : Prop :=
  is_frame e (if (Header_Version (fst hp) =? 0)%N then v else Header_Version (fst hp))
    (Header_Type (fst hp)) (Header_Transaction (fst hp)) (fst (content (BCopy (snd hp) [] None false))).

Lemma fine_okc c : fine c -> okc c.
Proof. intros (_ & _ & U). unfold okc. rewrite U. cbn. lia. Qed.

Lemma respond_fine v hp c : fine c -> plain_reply hp ->
  exists e c', reply_as v hp e /\ c_respond v (fst hp) (snd hp) c = (None, c')
    /\ on_wire c' = on_wire c ++ e /\ fine c'.
Proof.
  intros F (x & C & L). pose proof (fine_okc c F) as O. destruct F as (F & T & U).
  destruct (response_all v (fst hp) (snd hp) x C) as (e & E1 & E2).
  rewrite uwrap_len in E2 by exact L. destruct (force_ontime e c T O) as (c' & C1 & C2 & C3 & C4).
  exists e, c'. unfold reply_as. rewrite C. cbn [fst]. split; [apply frame_eq; exact E2|].
  unfold c_respond. rewrite E1. split; [exact C1|]. rewrite C2, U. split; [reflexivity|].
  split; [apply C4|]. auto.
Qed.

Lemma writes_fine v l : Forall plain_reply l -> forall c, fine c ->
  exists es, Forall2 (reply_as v) l es
    /\ let c' := fold_left (fun c hp => snd (c_respond v (fst hp) (snd hp) c)) l c in
       on_wire c' = on_wire c ++ concat es /\ fine c'.
Proof.
  induction 1 as [|hp l P _ IH]; intros c F.
  - exists []. cbn. rewrite app_nil_r. auto.
  - destruct (respond_fine v hp c F P) as (e & c1 & R & E & W & F1). cbn [fold_left]. rewrite E. cbn [snd].
    destruct (IH c1 F1) as (es & A & B & D). exists (e :: es). split; [constructor; assumption|].
    cbn [concat]. split; [rewrite B, W, <- app_assoc; reflexivity|exact D].
Qed.

Lemma flush_fine c : fine c -> on_wire (snd (c_flush c)) = on_wire c /\ fine (snd (c_flush c)).
Proof.
  intros (F & T & U). unfold c_flush, bw_flush. unfold unsent in U. unfold failure in F. rewrite F, U. cbn [snd].
  destruct c as [[b e t] w]. cbn in *. subst. split; [reflexivity|]. unfold fine, failure, unsent. cbn. auto.
Qed.

(** What a handler that writes replies [f q] leaves on the wire for the requests
    [qs], one after the other. *)
Definition replies_to (f : Request -> list (Header * option payload)) (qs : list Request) (es : list bytes) : Prop :=
  exists ess, es = concat ess
    /\ Forall2 (fun q x => Forall2 (reply_as (Header_Version (Request_Header q))) (f q) x) qs ess.

(** [h] behaves on received requests like a handler that writes [f q]. *)
Definition acts_as (h : handler conn) (f : Request -> list (Header * option payload)) (q : Request) : Prop :=
  forall rw c, h rw q c = writes f rw q c.

(** The calls carry the request's version. *)
Definition faithful_call (e : event) : Prop :=
  match e with ECall _ w q => wversion w = Header_Version (Request_Header q) | _ => True end.

Lemma enacts_fine h f l : Forall faithful_call l ->
  Forall (fun q => acts_as h f q /\ Forall plain_reply (f q)) (calls l) -> forall c, fine c ->
  exists es, replies_to f (calls l) es /\ on_wire (enacts h l c) = on_wire c ++ concat es /\ fine (enacts h l c).
Proof.
  induction 1 as [|e l FC _ IH]; intros Q c F.
  - exists []. cbn. rewrite app_nil_r. split; [exists []; split; [reflexivity|constructor]|auto].
  - assert (G : forall c1, calls (e :: l) = calls l -> on_wire c1 = on_wire c -> fine c1 -> enact h c e = c1 ->
       exists es, replies_to f (calls (e :: l)) es /\ on_wire (enacts h (e :: l) c) = on_wire c ++ concat es
                  /\ fine (enacts h (e :: l) c)).
    { intros c1 E W F1 EN. rewrite E in Q |- *. destruct (IH Q c1 F1) as (es & A & B & D).
      exists es. split; [exact A|]. change (enacts h (e :: l) c) with (enacts h l (enact h c e)).
      rewrite EN, B, W. auto. }
    destruct e as [k x|k w q|k q|k|k]; try (apply (G c); auto; fail).
    + clear G. change (calls (ECall k w q :: l)) with (q :: calls l) in *.
      inversion Q as [|a b (HA & P) Q']. subst a b.
      destruct (writes_fine (wversion w) (f q) P c F) as (es1 & A1 & B1 & D1).
      destruct (IH Q' _ D1) as (es2 & (ess & -> & A2) & B2 & D2).
      assert (EN : enact h c (ECall k w q)
                   = fold_left (fun c hp => snd (c_respond (wversion w) (fst hp) (snd hp) c)) (f q) c)
        by (cbn [enact]; rewrite HA; reflexivity).
      exists (es1 ++ concat ess). change (enacts h (ECall k w q :: l) c) with (enacts h l (enact h c (ECall k w q))).
      rewrite EN, B2, B1. split.
      * exists (es1 :: ess). split; [reflexivity|]. constructor; [|exact A2].
        cbn [faithful_call] in FC. rewrite <- FC. exact A1.
      * rewrite concat_app, <- app_assoc. auto.
    + destruct (flush_fine c F) as [W F1]. apply (G (snd (c_flush c))); auto.
Qed.

Lemma begins_faithful c a ms : begins a (served_story c ms) -> Forall faithful_call a.
Proof.
  intros [t E]. assert (X : Forall faithful_call (a ++ t)).
  { rewrite E. unfold served_story. constructor; [exact I|]. apply Forall_app. split; [|repeat constructor].
    clear E. induction ms as [|q ms IH]; [constructor|]. cbn [flat_map]. apply Forall_app. split; [repeat constructor|exact IH]. }
  apply Forall_app in X. apply X.
Qed.

Lemma begins_firstn {A} (a b : list A) : begins a b -> a = firstn (length a) b.
Proof. intros [t <-]. rewrite firstn_app, Nat.sub_diag, firstn_all, firstn_O, app_nil_r. reflexivity. Qed.

Lemma story_facts lim n sch c ms : let s := srun sch (sstart lim true n) in sent c s ms ->
  Forall faithful_call (story c s) /\ calls (story c s) = firstn (length (calls (story c s))) ms.
Proof.
  intros s (x & Hx & Hm). destruct (story_or lim n sch c) as [(ms' & (x' & Hx' & Hm') & B)|B]; fold s in B.
  - fold s in Hx'. rewrite Hx in Hx'. injection Hx' as <-. rewrite Hm in Hm'. subst ms'.
    split; [eapply begins_faithful; exact B|]. apply begins_firstn.
    apply begins_calls in B. rewrite served_calls in B. exact B.
  - destruct B as [t E]. assert (X : Forall faithful_call (story c s ++ t)) by (rewrite E; repeat constructor).
    apply Forall_app in X. split; [apply X|].
    assert (Y : calls (story c s ++ t) = []) by (rewrite E; reflexivity). rewrite calls_app in Y.
    apply app_eq_nil in Y. destruct Y as [-> _]. reflexivity.
Qed.

(** However the connections of a server are scheduled: what a peer has been sent
    is the replies to its first so many requests, complete frames, in the order
    of the requests and of the writes. *)
Theorem C86_replies : forall h f lim n sch k ms c,
  let s := srun sch (sstart lim true n) in sent k s ms ->
  Forall (fun q => acts_as h f q /\ Forall plain_reply (f q)) ms -> fine c -> on_wire c = [] ->
  let c' := enacts h (story k s) c in
  exists es, replies_to f (firstn (length (calls (story k s))) ms) es /\ on_wire c' = concat es
    /\ failure c' = None /\ unsent c' = [].
Proof.
  intros h f lim n sch k ms c s S P F W c'. destruct (story_facts lim n sch k ms S) as (FC & E). fold s in FC, E.
  destruct (enacts_fine h f (story k s) FC) with (c := c) as (es & A & B & D).
  - rewrite E. clear - P. rewrite Forall_forall in *. intros q I. apply P.
    rewrite <- (firstn_skipn (length (calls (story k s))) ms). apply in_or_app. left. exact I.
  - exact F.
  - exists es. split; [rewrite <- E; exact A|]. fold c' in B, D. rewrite B, W. destruct D as (D1 & D2 & D3). auto.
Qed.
Print Assumptions C86_replies.

(** Without a connection limit, once the server has come to rest, every request
    has been answered. *)
Theorem C86_all_answered : forall h f n sch k ms c,
  let s := srun sch (sstart 0 true n) in sent k s ms -> settled s ->
  Forall (fun q => acts_as h f q /\ Forall plain_reply (f q)) ms -> fine c -> on_wire c = [] ->
  exists es, replies_to f ms es /\ on_wire (enacts h (story k s) c) = concat es.
Proof.
  intros h f n sch k ms c s S Q P F W.
  destruct (C86_replies h f 0 n sch k ms c S P F W) as (es & A & B & _). fold s in A, B.
  assert (E : calls (story k s) = ms) by (unfold s; rewrite (story_settled_all n sch k ms Q S); apply served_calls).
  rewrite E, firstn_all in A. exists es. auto.
Qed.
Print Assumptions C86_all_answered.

(** ** The documented controller *)
(** What it answers to a message (version, type, transaction, body): hello with
    hello in its own version, echo request with echo reply, both under the same
    transaction; nothing to anything else. *)
Definition answer (version : N) (m : N * N * N * bytes) : list (N * N * N * bytes) :=
  let '(v, t, x, b) := m in
  match t with
  | 0%N => [(if (version =? 0)%N then v else version, 0%N, x, [])]
  | 2%N => [(v, 3%N, x, b)]
  | _ => []
  end.

(** The two registrations. *)
Definition controller_mux : list entry :=
  fst (register_all [(Some (KType 0), Some 0, false); (Some (KType 2), Some 1, false)] []).
Definition controller (version : N) : handler conn := type_serve (controller_handlers version) controller_mux.

Definition controller_writes (version : N) (q : Request) : list (Header * option payload) :=
  match Header_Type (Request_Header q) with
  | 0%N => [(set_Header_Version version (Request_Header q), None)]
  | 2%N => [(set_Header_Type 3 (Request_Header q), Some (MkPayload (fst (content (Request_Body q))) None))]
  | _ => []
  end.

Lemma controller_acts version m q : received_as m q -> acts_as (controller version) (controller_writes version) q.
Proof.
  destruct m as [[[v t] x] b]. intros (H & B & _) rw c. unfold controller, type_serve, writes, controller_writes.
  rewrite H. cbn [Header_Type].
  destruct t as [|[[p|p|]|[p|p|]|]]; try reflexivity.
  - change (hello_handler version None rw q c = snd (rw (set_Header_Version version (MkHeader v 0 (8 + lenN b) x)) None c)).
    unfold hello_handler. rewrite H. reflexivity.
  - change (match echo_handler None rw q c with Some c' => c' | None => c end
            = snd (rw (set_Header_Type 3 (MkHeader v 2 (8 + lenN b) x)) (Some (MkPayload (fst (content (Request_Body q))) None)) c)).
    rewrite (echo_received None rw q b c B), H, B. reflexivity.
Qed.

Lemma controller_plain version m q : msg_ok m -> received_as m q -> Forall plain_reply (controller_writes version q).
Proof.
  destruct m as [[[v t] x] b]. intros (_ & L) (H & B & _). unfold controller_writes. rewrite H, B. cbn [Header_Type content fst].
  assert (P0 : forall h, plain_reply (h, None)) by (intro h; exists []; split; [reflexivity|discriminate]).
  assert (P2 : forall h, plain_reply (h, Some (MkPayload b None))) by (intro h; exists b; split; [reflexivity|exact L]).
  destruct t as [|[[p|p|]|[p|p|]|]]; repeat constructor; auto.
Qed.

Lemma controller_answers version m q es : received_as m q ->
  Forall2 (reply_as (Header_Version (Request_Header q))) (controller_writes version q) es ->
  Forall2 frame_of es (answer version m).
Proof.
  destruct m as [[[v t] x] b]. intros (H & B & _) F. unfold controller_writes in F. rewrite H, B in F.
  cbn [Header_Type Header_Version content fst] in F.
  destruct t as [|[[p|p|]|[p|p|]|]]; cbn [answer]; try solve [inversion F; constructor].
  - inversion F as [|hp0 e0 l0 l0' R F']; subst. inversion F'; subst. constructor; [|constructor]. exact R.
  - inversion F as [|hp0 e0 l0 l0' R F']; subst. inversion F'; subst. constructor; [|constructor].
    unfold reply_as in R. cbn in R |- *. destruct (v =? 0)%N; exact R.
Qed.

Lemma answer_ok version m : fits 1 version -> msg_ok m -> Forall msg_ok (answer version m).
Proof.
  destruct m as [[[v t] x] b]. intros V ((R1 & R2 & R3) & L).
  destruct t as [|[[p|p|]|[p|p|]|]]; cbn [answer]; try solve [constructor].
  - constructor; [|constructor]. split; [|discriminate]. split; [destruct (version =? 0)%N; assumption|]. split; [reflexivity|assumption].
  - constructor; [|constructor]. split; [|exact L]. split; [assumption|]. split; [reflexivity|assumption].
Qed.

(** From bytes to bytes: whatever a peer sends, in whatever pieces it arrives,
    among whatever other connections: once the server is at rest, the peer has
    been sent exactly the answers to its messages, in their order, and reads
    them as such. *)
Theorem C86_controller : forall version msgs es sched ms e r n sch k, fits 1 version ->
  Forall msg_ok msgs -> Forall2 frame_of es msgs ->
  receive_all (S (length msgs)) (MkReader (concat es) sched EOF false) = (ms, e, r) ->
  let s := srun sch (sstart 0 true n) in sent k s ms -> settled s ->
  let wire := on_wire (enacts (controller version) (story k s) (new_conn 0 (MkTr [] [] 0 None))) in
  let answers := flat_map (answer version) msgs in
  e = Some EOF
  /\ (exists out, Forall2 frame_of out answers /\ wire = concat out)
  /\ forall sched', exists qs r', receive_all (S (length answers)) (MkReader wire sched' EOF false) = (qs, Some EOF, r')
       /\ Forall2 received_as answers qs.
Proof.
  intros version msgs es sched ms e r n sch k V OK FR RC s SE Q wire answers.
  destruct (receive_stream msgs OK es FR sched) as (qs0 & r0 & RC0 & RA & _).
  rewrite RC in RC0. injection RC0 as -> -> ->. split; [reflexivity|].
  assert (P : Forall (fun q => acts_as (controller version) (controller_writes version) q
                               /\ Forall plain_reply (controller_writes version q)) qs0).
  { clear - OK RA. revert OK. induction RA as [|m q msgs qs H _ IH]; intro OK; constructor; inversion OK; subst.
    - split; [eapply controller_acts; exact H|eapply controller_plain; eassumption].
    - apply IH. assumption. }
  destruct (C86_all_answered _ _ n sch k qs0 (new_conn 0 (MkTr [] [] 0 None)) SE Q P) as (out & (ess & -> & RT) & W).
  { split; [reflexivity|]. split; [|reflexivity]. split; [reflexivity|]. split; [reflexivity|]. intros d X. discriminate X. }
  { reflexivity. }
  fold s in W. fold wire in W.
  assert (FO : Forall2 frame_of (concat ess) answers).
  { unfold answers. clear - RA RT. revert ess RT. induction RA as [|m q msgs qs H _ IH]; intros ess RT; inversion RT; subst; [constructor|].
    cbn [concat flat_map]. apply Forall2_app; [eapply controller_answers; eassumption|apply IH; assumption]. }
  split; [exists (concat ess); auto|]. intro sched'. rewrite W.
  assert (AO : Forall msg_ok answers).
  { unfold answers. clear - OK V. induction OK as [|m msgs H _ IH]; [constructor|]. cbn [flat_map]. apply Forall_app.
    split; [apply answer_ok; assumption|exact IH]. }
  destruct (receive_stream answers AO (concat ess) FO sched') as (qs & r' & E1 & E2 & _). exists qs, r'. auto.
Qed.
Print Assumptions C86_controller.

(** With the default runner, a goroutine per request, answers may overtake each
    other. *)
Theorem C86_default_order_refuted : exists msgs es ms sch,
  Forall msg_ok msgs /\ Forall2 frame_of es msgs
  /\ fst (fst (receive_all (S (length msgs)) (MkReader (concat es) [] EOF false))) = ms
  /\ let s := srun sch (sstart 0 false 1) in sent 0 s ms
  /\ on_wire (enacts (controller 4) (story 0 s) (new_conn 0 (MkTr [] [] 0 None)))
     = [x04; x03; x00; x09; x00; x00; x00; x02; xbb] ++ [x04; x03; x00; x09; x00; x00; x00; x01; xaa].
Proof.
  exists [(4, 2, 1, [xaa]); (4, 2, 2, [xbb])]%N,
    [[x04; x02; x00; x09; x00; x00; x00; x01; xaa]; [x04; x02; x00; x09; x00; x00; x00; x02; xbb]],
    [MkRequest (MkHeader 4 2 9 1) (BBuf [xaa]) 1 3 1; MkRequest (MkHeader 4 2 9 2) (BBuf [xbb]) 1 3 1],
    (repeat (MLoop 0 [MkRequest (MkHeader 4 2 9 1) (BBuf [xaa]) 1 3 1; MkRequest (MkHeader 4 2 9 2) (BBuf [xbb]) 1 3 1]) 5
     ++ [MRecv 0; MServe 0; MRecv 0; MServe 0; MHand 1; MHand 1; MHand 1; MHand 0; MHand 0]).
  split; [repeat constructor; discriminate|].
  split; [constructor; [apply frame_eq; vm_compute; reflexivity|constructor; [apply frame_eq; vm_compute; reflexivity|constructor]]|].
  split; [vm_compute; reflexivity|]. split; [eexists; split; vm_compute; reflexivity|vm_compute; reflexivity].
Qed.
Print Assumptions C86_default_order_refuted.

(** A peer says hello, asks twice for an echo and once for something unknown,
    while a second peer is served; the bytes arrive in odd pieces. *)
Example C86_ex :
  let es := [[x01; x00; x00; x08; x00; x00; x00; x07]; [x04; x02; x00; x0a; x00; x00; x00; x08; xaa; xab];
             [x04; x14; x00; x08; x00; x00; x00; x09]; [x04; x02; x00; x08; x00; x00; x00; x0a]] in
  let msgs := [(1, 0, 7, []); (4, 2, 8, [xaa; xab]); (4, 20, 9, []); (4, 2, 10, [])]%N in
  let ms := fst (fst (receive_all 5 (MkReader (concat es) [3; 1; 7; 2] EOF false))) in
  let other := [MkRequest (MkHeader 4 0 8 1) (BBuf []) 1 3 0] in
  let s := srun (repeat (MLoop 0 other) 5 ++ repeat (MLoop 0 ms) 5 ++ [MRecv 0; MServe 0; MServe 0]
    ++ flat_map (fun _ => [MRecv 1; MServe 1; MServe 1; MServe 1; MServe 1; MServe 1; MServe 1]) (repeat tt 4)
    ++ repeat (MServe 0) 4 ++ [MRecv 0; MRecv 1] ++ repeat (MServe 0) 4 ++ repeat (MServe 1) 4) (sstart 0 true 1) in
  Forall msg_ok msgs /\ Forall2 frame_of es msgs /\ sent 1 s ms
  /\ map cserve (cns s) = [VGone; VGone] /\ loops s = [LIdle] /\ map crcv (cns s) = [REnd; REnd] /\ hands s = []
  /\ on_wire (enacts (controller 4) (story 1 s) (new_conn 0 (MkTr [] [] 0 None)))
     = [x04; x00; x00; x08; x00; x00; x00; x07] ++ [x04; x03; x00; x0a; x00; x00; x00; x08; xaa; xab]
       ++ [x04; x03; x00; x08; x00; x00; x00; x0a].
Proof.
  cbv zeta. split; [repeat constructor; discriminate|].
  split; [repeat (constructor; [apply frame_eq; vm_compute; reflexivity|]); constructor|].
  split; [eexists; split; vm_compute; reflexivity|]. do 4 (split; [vm_compute; reflexivity|]). vm_compute. reflexivity.
Qed.
