(** C77: Receive under a read deadline. *)
From Coq Require Import ZifyBool ZifyNat ZifyN.
From Verif Require Import DeadlineModel RequestFacts.
Ltac Zify.zify_post_hook ::= Z.div_mod_to_equations.

(** ** Specification *)

(** All bytes of a list of arrivals. *)
Definition flat (l : list (N * bytes)) : bytes := concat (map snd l).

(** All of these arrivals are in time for a Receive called at [now]. *)
Definition punctual (rt now : N) (l : list (N * bytes)) : Prop :=
  rt <> 0%N -> Forall (fun a => (fst a <= now + rt)%N) l.

(** What comes next (or the end of the stream) is too late for it. *)
Definition too_late (rt now : N) (l : list (N * bytes)) (close : N) : Prop :=
  rt <> 0%N /\ (now + rt < match l with [] => close | a :: _ => fst a end)%N.

(** ** Lemmas *)
Lemma flat_app a b : flat (a ++ b) = flat a ++ flat b.
Proof. unfold flat. rewrite map_app. apply concat_app. Qed.

Definition dl (rt now : N) : option N := if (rt =? 0)%N then None else Some (now + rt)%N.

Lemma arrive_punctual rt now pre post : punctual rt now pre ->
  exists mid post', post = mid ++ post' /\ arrive (dl rt now) (pre ++ post) = (flat pre ++ flat mid, post')
    /\ punctual rt now mid.
Proof.
  intro P. induction pre as [|[t b] pre IH]; cbn [app].
  - clear P. induction post as [|[t b] post IH]; cbn [arrive].
    + exists [], []. repeat split. intros _. constructor.
    + destruct (in_time (dl rt now) t) eqn:I.
      * destruct IH as (mid & post' & -> & -> & P). exists ((t, b) :: mid), post'. repeat split.
        intro Z. constructor; [|exact (P Z)]. unfold dl, in_time in I. cbn [fst].
        destruct (N.eqb_spec rt 0); [contradiction|]. lia.
      * exists [], ((t, b) :: post). repeat split. intros _. constructor.
  - destruct IH as (mid & post' & -> & E & P').
    { intro Z. specialize (P Z). inversion P. assumption. }
    exists mid, post'. split; [reflexivity|]. split; [|exact P'].
    cbn [arrive]. rewrite E.
    replace (in_time (dl rt now) t) with true.
    + unfold flat. cbn [map concat snd]. rewrite app_assoc. reflexivity.
    + unfold dl, in_time. destruct (N.eqb_spec rt 0) as [|Z]; [reflexivity|].
      specialize (P Z). inversion P as [|? ? P1 _]. cbn [fst] in P1. lia.
Qed.

Lemma arrive_late rt now pre post close : punctual rt now pre -> too_late rt now post close ->
  arrive (dl rt now) (pre ++ post) = (flat pre, post)
  /\ (post = [] -> in_time (dl rt now) close = false).
Proof.
  intros P (Z & L). split.
  - induction pre as [|[t b] pre IH]; cbn [app].
    + destruct post as [|[t b] post]; [reflexivity|]. cbn [arrive fst] in *.
      replace (in_time (dl rt now) t) with false; [reflexivity|].
      unfold dl, in_time. destruct (N.eqb_spec rt 0); [contradiction|]. lia.
    + cbn [arrive]. rewrite IH by (intro Z'; specialize (P Z'); inversion P; assumption).
      replace (in_time (dl rt now) t) with true; [reflexivity|].
      unfold dl, in_time. destruct (N.eqb_spec rt 0); [contradiction|].
      specialize (P Z). inversion P as [|? ? P1 _]. cbn [fst] in P1. lia.
  - intros ->. unfold dl, in_time. destruct (N.eqb_spec rt 0); [contradiction|]. lia.
Qed.

Lemma receive_at_eq rt now frag s vis later :
  arrive (dl rt now) (coming s) = (vis, later) ->
  receive_at rt now frag s =
  (let '(res, r) := receive (MkReader (inbuf s ++ vis) frag
     (match later with [] => if in_time (dl rt now) (closing s) then EOF else ETimeout | _ => ETimeout end) false) in
   (res, MkLine (data r) later (closing s))).
Proof. intro E. unfold receive_at. fold (dl rt now). rewrite E. reflexivity. Qed.

Lemma receive_short e v t x b : is_frame e v t x b -> ranges v t x -> (lenN b <= 65527)%N ->
  forall c s f, c < length e ->
  exists r, receive (MkReader (firstn c e) s f false) = (inr (cut_err f (if c <? 8 then c else 0)), r) /\ data r = [].
Proof.
  intros He Hr HL c s f Hc. pose proof (frame_length _ _ _ _ _ He) as Hl.
  set (r := MkReader (firstn c e) s f false).
  assert (Hd : length (data r) = c) by (cbn; rewrite firstn_length; lia).
  assert (G : forall a r', after (length (data r)) a r' -> data a = data r -> data r' = []).
  { intros a r' (D & _) E. rewrite D, E. apply skipn_all. }
  unfold receive. destruct (Nat.ltb_spec c 8) as [C|C].
  - destruct (read_from_header_short zero_Request r ltac:(lia)) as (A & _ & D). rewrite A, Hd.
    eexists. split; [reflexivity|]. exact (G _ _ D eq_refl).
  - assert (Hh : header_at (data r) = MkHeader v t (8 + lenN b) x).
    { cbn [data r]. apply frame_eq in He. subst e. rewrite firstn_app, enc_Header_length.
      rewrite firstn_all2 by (rewrite enc_Header_length; lia).
      apply header_at_enc. destruct Hr as (Hv & Ht & Hx).
      repeat split; cbn [Header_Version Header_Type Header_Length Header_Transaction]; auto.
      unfold fits. change (256 ^ N.of_nat 2)%N with 65536%N. lia. }
    destruct (read_from_body_fail zero_Request r ltac:(lia)) as (A & _ & D).
    + rewrite Hh. cbn [Header_Length]. unfold lenN. lia.
    + left. rewrite Hh. cbn [Header_Length]. unfold lenN. lia.
    + rewrite A. eexists. split; [|exact (G _ _ D eq_refl)].
      cbn [fin r]. destruct f; reflexivity.
Qed.

(** ** Theorems *)

(** A message whose bytes are all there before the deadline is received,
    however the bytes were split up on their way, however the reads are split
    up and whatever follows; nothing behind it is lost. *)
Theorem C77_in_time : forall e v t x b, is_frame e v t x b -> ranges v t x -> (lenN b <= 65527)%N ->
  forall rt now frag s pre post tl,
  coming s = pre ++ post -> punctual rt now pre -> inbuf s ++ flat pre = e ++ tl ->
  exists q s' mid, receive_at rt now frag s = (inl q, s') /\ received v t x b q
    /\ post = mid ++ coming s' /\ inbuf s' = tl ++ flat mid /\ closing s' = closing s.
Proof.
  intros e v t x b He Hr HL rt now frag s pre post tl Hc P Hb.
  destruct (arrive_punctual rt now pre post P) as (mid & post' & -> & E & _).
  rewrite <- Hc in E. rewrite (receive_at_eq _ _ frag _ _ _ E).
  rewrite app_assoc, Hb, <- app_assoc.
  set (f := match post' with [] => _ | _ => _ end).
  destruct (receive_frame _ _ _ _ _ He Hr HL zero_Request (tl ++ flat mid) frag f false (or_introl eq_refl))
    as (A & _ & R & D & _).
  unfold receive. rewrite A. do 3 eexists. split; [reflexivity|]. cbn [inbuf coming closing].
  rewrite D. auto.
Qed.
Print Assumptions C77_in_time.

(** A message that is only partly there when the deadline passes: the timeout
    is reported and the bytes that had come are gone. *)
Theorem C77_timeout_eats : forall e v t x b, is_frame e v t x b -> ranges v t x -> (lenN b <= 65527)%N ->
  forall rt now frag s pre post c, c < length e ->
  coming s = pre ++ post -> punctual rt now pre -> too_late rt now post (closing s) ->
  inbuf s ++ flat pre = firstn c e ->
  receive_at rt now frag s = (inr ETimeout, MkLine [] post (closing s)).
Proof.
  intros e v t x b He Hr HL rt now frag s pre post c Hl Hc P L Hb.
  destruct (arrive_late rt now pre post _ P L) as (E & F). rewrite <- Hc in E.
  rewrite (receive_at_eq _ _ frag _ _ _ E), Hb.
  replace (match post with [] => if in_time (dl rt now) (closing s) then EOF else ETimeout | _ => ETimeout end)
    with ETimeout by (destruct post; [rewrite F by reflexivity|]; reflexivity).
  destruct (receive_short _ _ _ _ _ He Hr HL c frag ETimeout Hl) as (r & -> & ->).
  reflexivity.
Qed.
Print Assumptions C77_timeout_eats.

(** Without a ReadTimeout Receive waits for the message however long it takes. *)
Theorem C77_no_timeout : forall e v t x b, is_frame e v t x b -> ranges v t x -> (lenN b <= 65527)%N ->
  forall now frag s tl, inbuf s ++ flat (coming s) = e ++ tl ->
  exists q s', receive_at 0 now frag s = (inl q, s') /\ received v t x b q /\ inbuf s' ++ flat (coming s') = tl.
Proof.
  intros e v t x b He Hr HL now frag s tl Hb.
  destruct (C77_in_time e v t x b He Hr HL 0%N now frag s (coming s) [] tl) as (q & s' & mid & A & R & M & I & _).
  - symmetry. apply app_nil_r.
  - intro Z. contradiction.
  - exact Hb.
  - exists q, s'. split; [exact A|]. split; [exact R|].
    symmetry in M. apply app_eq_nil in M. destruct M as (-> & M). rewrite M, I. cbn. rewrite !app_nil_r. reflexivity.
Qed.
Print Assumptions C77_no_timeout.

(** Messages that arrive one after the other, each complete by the deadline of
    the Receive meant for it, are all received in order: the deadline is
    renewed for each message.  [(now, frag, group, e, m)]: the call, the pieces
    in which message [m] with bytes [e] arrives. *)
Definition good_turn (rt : N) (a : (N * list nat) * list (N * bytes) * (N * N * N * bytes)) : Prop :=
  let '(now, frag, g, m) := a in
  exists e, frame_of e m /\ msg_ok m /\ flat g = e /\ punctual rt now g.

Lemma split_both {A} : forall (a b c d : list A), a ++ b = c ++ d ->
  (exists k, c = a ++ k /\ b = k ++ d) \/ (exists k, a = c ++ k /\ d = k ++ b).
Proof.
  induction a as [|x a IH]; intros b c d H; cbn in H.
  - left. exists c. auto.
  - destruct c as [|y c]; cbn in H.
    + right. exists (x :: a). auto.
    + injection H as -> H. destruct (IH _ _ _ H) as [(k & -> & ->)|(k & -> & ->)]; [left|right]; exists k; auto.
Qed.

Lemma turns_received rt : forall turns, Forall (good_turn rt) turns ->
  forall s mid, concat (map (fun a => snd (fst a)) turns) = mid ++ coming s -> inbuf s = flat mid ->
  exists qs s', receives_at rt (map (fun a => fst (fst a)) turns) s = (map inl qs, s')
    /\ Forall2 received_as (map snd turns) qs /\ inbuf s' = [] /\ coming s' = [].
Proof.
  induction 1 as [|[[[now frag] g] m] turns (e & Fr & Ok & Fl & P) _ IH]; intros s mid Hs Hi.
  - cbn in Hs. symmetry in Hs. apply app_eq_nil in Hs. destruct Hs as (-> & Hc).
    exists [], s. repeat split; auto. constructor.
  - cbn [map concat fst snd] in *. destruct m as [[[v t] x] b]. cbn in Fr, Ok. destruct Ok as (Hr & HL).
    cbn [receives_at].
    destruct (split_both _ _ _ _ Hs) as [(k & -> & Hk)|(k & -> & Hk)].
    + (* the whole group is in the buffer *)
      destruct (C77_in_time _ _ _ _ _ Fr Hr HL rt now frag s [] (coming s) (flat k)) as (q & s' & m' & A & R & M & I & _).
      * reflexivity.
      * intro Z. constructor.
      * rewrite Hi, flat_app, Fl. cbn. rewrite app_nil_r. reflexivity.
      * rewrite A. destruct (IH s' (k ++ m')) as (qs & s2 & -> & F2 & B1 & B2).
        { rewrite Hk, M. apply app_assoc. }
        { rewrite I, flat_app. reflexivity. }
        exists (q :: qs), s2. repeat split; auto.
    + destruct (C77_in_time _ _ _ _ _ Fr Hr HL rt now frag s k (concat (map (fun a => snd (fst a)) turns)) []) as (q & s' & m' & A & R & M & I & _).
      * exact Hk.
      * intro Z. specialize (P Z). apply Forall_app in P. apply P.
      * rewrite Hi, <- flat_app, Fl, app_nil_r. reflexivity.
      * rewrite A. destruct (IH s' m' M I) as (qs & s2 & -> & F2 & B1 & B2).
        exists (q :: qs), s2. repeat split; auto.
Qed.

Theorem C77_each_in_time : forall rt turns close, Forall (good_turn rt) turns ->
  exists qs s', receives_at rt (map (fun a => fst (fst a)) turns)
      (MkLine [] (concat (map (fun a => snd (fst a)) turns)) close) = (map inl qs, s')
    /\ Forall2 received_as (map snd turns) qs /\ inbuf s' = [] /\ coming s' = [].
Proof. intros rt turns close H. apply (turns_received rt turns H _ []); reflexivity. Qed.
Print Assumptions C77_each_in_time.

(** A timeout that strikes between two messages is harmless: the next Receive
    gets the message that was waited for. *)
Theorem C77_between_harmless : forall e v t x b, is_frame e v t x b -> ranges v t x -> (lenN b <= 65527)%N ->
  forall rt n1 f1 n2 f2 g post close,
  flat g = e -> too_late rt n1 (g ++ post) close -> punctual rt n2 g ->
  exists q s', receives_at rt [(n1, f1); (n2, f2)] (MkLine [] (g ++ post) close) = ([inr ETimeout; inl q], s')
    /\ received v t x b q.
Proof.
  intros e v t x b He Hr HL rt n1 f1 n2 f2 g post close Hg L P.
  pose proof (frame_length _ _ _ _ _ He) as Hl. cbn [receives_at].
  rewrite (C77_timeout_eats _ _ _ _ _ He Hr HL rt n1 f1 (MkLine [] (g ++ post) close) [] (g ++ post) 0);
    [|lia|reflexivity|intro Z; constructor|exact L|reflexivity].
  cbn [closing].
  destruct (C77_in_time _ _ _ _ _ He Hr HL rt n2 f2 (MkLine [] (g ++ post) close) g post [])
    as (q & s' & m & A & R & _); [reflexivity|exact P|cbn [inbuf app]; rewrite Hg, app_nil_r; reflexivity|].
  rewrite A. do 2 eexists. split; [reflexivity|exact R].
Qed.
Print Assumptions C77_between_harmless.

(** One that strikes inside a message is not: whatever message a peer carries
    inside the body of another one, a timeout after the outer header makes the
    next Receive deliver the inner one, which nobody sent as a message. *)
Theorem C77_smuggled : forall inner v t x b, is_frame inner v t x b -> ranges v t x -> (lenN b <= 65519)%N ->
  forall outer v' t' x', is_frame outer v' t' x' inner -> ranges v' t' x' ->
  forall rt n1 f1 n2 f2 t1 t2 post close, rt <> 0%N ->
  (t1 <= n1 + rt)%N -> (n1 + rt < t2)%N -> (t2 <= n2 + rt)%N ->
  exists q s', receives_at rt [(n1, f1); (n2, f2)]
      (MkLine [] ((t1, firstn 8 outer) :: (t2, skipn 8 outer) :: post) close) = ([inr ETimeout; inl q], s')
    /\ received v t x b q.
Proof.
  intros inner v t x b Hi Hr HL outer v' t' x' Ho Hr' rt n1 f1 n2 f2 t1 t2 post close Z H1 H2 H3.
  pose proof (frame_length _ _ _ _ _ Hi) as Li. pose proof (frame_length _ _ _ _ _ Ho) as Lo.
  assert (HL' : (lenN inner <= 65527)%N) by (unfold lenN in *; lia).
  cbn [receives_at].
  rewrite (C77_timeout_eats _ _ _ _ _ Ho Hr' HL' rt n1 f1 _ [(t1, firstn 8 outer)] ((t2, skipn 8 outer) :: post) 8).
  2: lia.
  2: reflexivity.
  2: { intros _. repeat constructor. exact H1. }
  2: { split; [exact Z|exact H2]. }
  2: { cbn. apply app_nil_r. }
  cbn [closing].
  destruct (C77_in_time _ _ _ _ _ Hi Hr ltac:(lia) rt n2 f2 (MkLine [] ((t2, skipn 8 outer) :: post) close)
     [(t2, skipn 8 outer)] post []) as (q & s' & m & A & R & _).
  - reflexivity.
  - intros _. repeat constructor. exact H3.
  - unfold flat. cbn [map snd concat inbuf app]. rewrite !app_nil_r. apply frame_eq in Ho. rewrite Ho.
    apply skipn_app_len. apply enc_Header_length.
  - rewrite A. do 2 eexists. split; [reflexivity|exact R].
Qed.
Print Assumptions C77_smuggled.

(** Going on after a timeout is therefore not safe in general. *)
Theorem C77_retry_refuted : exists rt calls s m,
  msg_ok m /\ frame_of (inbuf s ++ flat (coming s)) m
  /\ exists q, fst (receives_at rt calls s) = [inr ETimeout; inl q]
       /\ ~ received_as m q /\ Request_Header q = MkHeader 4 14 8 9.
Proof.
  exists 5%N, [(0%N, [1]); (6%N, [])],
    (MkLine [] [(1%N, [x04; x02; x00; x10; x00; x00; x00; x07]); (7%N, [x04; x0e; x00; x08; x00; x00; x00; x09])] 100),
    (4%N, 2%N, 7%N, [x04; x0e; x00; x08; x00; x00; x00; x09]).
  split; [|split].
  - vm_compute. repeat split; congruence.
  - apply frame_eq. vm_compute. reflexivity.
  - eexists. split; [vm_compute; reflexivity|]. split; [|reflexivity].
    intros (H & _). vm_compute in H. discriminate.
Qed.
Print Assumptions C77_retry_refuted.

Example C77_ex :
  let hello := [x04; x00; x00; x08; x00; x00; x00; x01] in
  let echo := [x04; x02; x00; x0a; x00; x00; x00; x02; xaa; xbb] in
  let turns := [((0%N, [2]), [(1%N, firstn 3 hello); (4%N, skipn 3 hello)], (4%N, 0%N, 1%N, []));
                ((4%N, []), [(9%N, echo)], (4%N, 2%N, 2%N, [xaa; xbb]))] in
  Forall (good_turn 5) turns
  /\ map (fun r => match r with inl q => Header_Transaction (Request_Header q) | inr _ => 99%N end)
       (fst (receives_at 5 [(0%N, [2]); (4%N, [])] (MkLine [] (concat (map (fun a => snd (fst a)) turns)) 50))) = [1%N; 2%N]
  /\ fst (receive_at 5 4 [] (MkLine [] [(10%N, echo)] 50)) = inr ETimeout
  /\ too_late 5 4 [(10%N, echo)] 50.
Proof.
  cbv zeta. split; [|split; [|split]].
  - repeat constructor.
    + exists [x04; x00; x00; x08; x00; x00; x00; x01]. split; [apply frame_eq; vm_compute; reflexivity|].
      split; [vm_compute; repeat split; congruence|]. split; [reflexivity|].
      intros _. repeat constructor; cbn; lia.
    + exists [x04; x02; x00; x0a; x00; x00; x00; x02; xaa; xbb]. split; [apply frame_eq; vm_compute; reflexivity|].
      split; [vm_compute; repeat split; congruence|]. split; [reflexivity|].
      intros _. repeat constructor; cbn; lia.
  - vm_compute. reflexivity.
  - vm_compute. reflexivity.
  - split; [discriminate|cbn; lia].
Qed.
