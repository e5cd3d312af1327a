(** Facts about ReadTimeout: the phases a connection goes through. *)
From Coq Require Import Lia.
From Verif Require Import WaitModel WaitSpec.

Ltac old_names := change delay with think in *; change effort with work in *.

Definition in_time (c : talk) (t : nat) : Prop := limit c = 0 \/ t <= limit c.
Definition past (c : talk) (i : nat) : Prop := forall j, j < i -> in_time c (gap c j) /\ (single c = true \/ in_time c (work c j)).
Definition time_left (c : talk) (l : option nat) (e : nat) : Prop :=
  match l with None => limit c = 0 | Some t => t + e = limit c /\ limit c <> 0 end.

Inductive phase (c : talk) : moment -> Prop :=
| Thinking i k l : i < length (rounds c) -> k <= think c i -> time_left c l (gap c i - k) -> past c i ->
    phase c (MkMoment i (Some k) false (Reading l) [] false (seq 0 i))
| Asked i l : i < length (rounds c) -> time_left c l (gap c i) -> past c i ->
    phase c (MkMoment (S i) None true (Reading l) [] false (seq 0 i))
| Held i : i < length (rounds c) -> past c i -> in_time c (gap c i) ->
    phase c (MkMoment (S i) None false (Holding i) [] false (seq 0 i))
| Working i l w : i < length (rounds c) -> w <= work c i -> time_left c l (work c i - w) -> past c i -> in_time c (gap c i) ->
    phase c (MkMoment (S i) None false (Reading l) [(i, w)] false (seq 0 i))
| Finished l : (forall t, l = Some t -> limit c <> 0) -> past c (length (rounds c)) ->
    phase c (MkMoment (length (rounds c)) None false (Reading l) [] false (seq 0 (length (rounds c))))
| Dropped i a p q r b : i <= length (rounds c) -> (forall k, p = Some k -> a < length (rounds c)) -> (r = Failing \/ r = Gone) -> past c i -> limit c <> 0 ->
    (i = length (rounds c) \/ limit c <= gap c i) ->
    phase c (MkMoment a p q r [] b (seq 0 i))
| Overdue i w : i < length (rounds c) -> w <= work c i -> limit c <= work c i - w -> limit c <> 0 ->
    (single c = true \/ limit c = work c i - w) -> past c i -> in_time c (gap c i) ->
    phase c (MkMoment (S i) None false Failing [(i, w)] false (seq 0 i))
| Cut i b : i < length (rounds c) -> single c = false -> limit c <= work c i -> limit c <> 0 -> past c i ->
    phase c (MkMoment (S i) None false Gone b true (seq 0 i)).

Lemma phase_accepted c : phase c (accepted c).
Proof.
  unfold accepted, pause_before, fresh. destruct (Nat.ltb_spec 0 (length (rounds c))) as [L|L].
  - apply (Thinking c 0 (think c 0)); auto.
    + unfold gap, time_left; old_names. cbn [Nat.add]. destruct (Nat.eqb_spec (limit c) 0); lia.
    + intros j H. lia.
  - assert (E : length (rounds c) = 0) by lia.
    pose proof (Finished c (if limit c =? 0 then None else Some (limit c))) as F. rewrite E in F. cbn [seq] in F. apply F.
    + intros t. destruct (Nat.eqb_spec (limit c) 0); [discriminate|auto].
    + intros j H. lia.
Qed.

Lemma past_S c i : past c i -> in_time c (gap c i) -> (single c = true \/ in_time c (work c i)) -> past c (S i).
Proof. intros P G W j H. destruct (Nat.eq_dec j i) as [->|D]; [auto|]. apply P. lia. Qed.

(** After a reply. *)
Lemma phase_reply c i l : i < length (rounds c) -> time_left c l (work c i) -> past c (S i) ->
  phase c (MkMoment (S i) (pause_before c (S i)) false (Reading l) [] false (seq 0 i ++ [i])).
Proof.
  intros L T P. change [i] with [0 + i]. rewrite <- seq_S. unfold pause_before. destruct (Nat.ltb_spec (S i) (length (rounds c))) as [M|M].
  - apply Thinking; auto. unfold gap; old_names. replace (work c i + think c (S i) - think c (S i)) with (work c i) by lia. exact T.
  - assert (E : S i = length (rounds c)) by lia. rewrite E in *. apply Finished; [|exact P].
    intros t ->. cbn in T. tauto.
Qed.

Lemma phase_late c i a p q r : i < length (rounds c) -> (forall k, p = Some k -> a < length (rounds c)) -> (r = Failing \/ r = Gone) -> past c (S i) -> limit c <> 0 -> limit c <= work c i ->
  forall b, phase c (MkMoment a p q r [] b (seq 0 i ++ [i])).
Proof.
  intros L A R P Z W b. change [i] with [0 + i]. rewrite <- seq_S. apply Dropped; auto.
  destruct (Nat.eq_dec (S i) (length (rounds c))); [now left|right]. unfold gap; old_names. lia.
Qed.

Ltac inst H := cbn [instant asked pause pipe rcv busy shut answered] in H.

Lemma phase_instant c s e s' : phase c s -> instant c s e = Some s' -> phase c s'.
Proof.
  intros P H. destruct P as [i k l L K T P|i l L T P|i L P G|i l w L W T P G|l Z P|i a p q r b L A R P Z G|i w L W M Z D P G|i b L D M Z P];
    destruct e; inst H; try discriminate.
  - (* Thinking, Ask *) destruct k; [|discriminate]. injection H as <-. cbn [negb]. apply Asked; auto. now rewrite Nat.sub_0_r in T.
  - (* Thinking, Expire *) destruct l as [[|t]|]; try discriminate. injection H as <-. destruct T as [T1 T2].
    apply Dropped; auto; try lia; try (right; lia); intros; congruence.
  - (* Asked, Read *) injection H as <-. cbn [pred]. apply Held; auto. destruct l; [right; destruct T; lia|left; exact T].
  - (* Asked, Expire *) destruct l as [[|t]|]; try discriminate. injection H as <-. destruct T. apply Dropped; auto; try lia; try (right; lia); intros; congruence.
  - (* Held, Hand *) destruct (ready c _); [|discriminate]. injection H as <-. cbn [app]. unfold fresh.
    apply Working; auto. rewrite Nat.sub_diag. unfold time_left. destruct (Nat.eqb_spec (limit c) 0); lia.
  - (* Working, Expire *) destruct l as [[|t]|]; try discriminate. injection H as <-. destruct T. apply Overdue; auto; lia.
  - (* Working, Reply *) destruct w; [|discriminate]. injection H as <-. rewrite Nat.sub_0_r in T. apply phase_reply; auto.
    apply past_S; auto. right. destruct l; [right; destruct T; lia|left; exact T].
  - (* Finished, Expire *) destruct l as [[|t]|]; try discriminate. injection H as <-. apply Dropped; auto; [intros; congruence|]. eapply Z; eauto.
  - (* Dropped *) destruct p as [[|p]|]; try discriminate. injection H as <-. apply Dropped; auto; intros; congruence.
  - destruct r; destruct R; try discriminate; destruct q; discriminate.
  - destruct r; destruct R; try discriminate.
  - destruct r; destruct R; try discriminate; destruct (ready c _); discriminate.
  - destruct r; destruct R; try discriminate; destruct (ready c _); try discriminate. injection H as <-. apply Dropped; auto.
  - (* Overdue, Close *) unfold ready in H. cbn [busy] in H. destruct (single c) eqn:S; [discriminate|]. injection H as <-.
    apply Cut; auto. destruct D; [discriminate|lia].
  - (* Overdue, Reply *) destruct w; [|discriminate]. injection H as <-. rewrite Nat.sub_0_r in *. apply phase_late; auto.
    { intros k E. unfold pause_before in E. destruct (Nat.ltb_spec (S i) (length (rounds c))); [assumption|discriminate]. }
    apply past_S; auto. destruct D as [D|D]; [now left|right; right; lia].
  - (* Cut, Reply *) destruct b as [|[j [|w]] b]; try discriminate. injection H as <-. apply Cut; auto.
Qed.

Lemma phase_pass c s : phase c s -> nothing_urgent c s = true -> phase c (pass s).
Proof.
  intros P U. unfold nothing_urgent in U. rewrite forallb_forall in U.
  assert (Q : forall e s', In e [Ask; Read; Expire; Hand; Close; Reply] -> instant c s e = Some s' -> False).
  { intros e s' I E. specialize (U e I). now rewrite E in U. }
  clear U. destruct P as [i k l L K T P|i l L T P|i L P G|i l w L W T P G|l Z P|i a p q r b L A R P Z G|i w L W M Z D P G|i b L D M Z P];
    unfold pass; cbn [asked pause pipe rcv busy shut answered map less fst snd pred].
  - destruct k; [exfalso; eapply (Q Ask); [cbn; tauto|reflexivity]|]. apply Thinking; auto; [cbn; lia|].
    destruct l as [[|t]|]; cbn [less pred].
    + exfalso; eapply (Q Expire); [cbn; tauto|reflexivity].
    + unfold time_left in *. assert (think c i <= gap c i) by (unfold gap; old_names; destruct i; lia). lia.
    + exact T.
  - exfalso; eapply (Q Read); [cbn; tauto|reflexivity].
  - exfalso; eapply (Q Hand); [cbn; tauto|]. inst Q. cbn [instant rcv]. unfold ready. cbn [busy]. rewrite orb_true_r. reflexivity.
  - destruct w; [exfalso; eapply (Q Reply); [cbn; tauto|reflexivity]|]. apply Working; auto; [cbn; lia|].
    destruct l as [[|t]|]; cbn [less pred].
    + exfalso; eapply (Q Expire); [cbn; tauto|reflexivity].
    + unfold time_left in *. lia.
    + exact T.
  - apply Finished; auto. intros t E. destruct l as [t'|]; [|discriminate]. eapply Z; eauto.
  - destruct r; destruct R as [R|R]; try discriminate; apply Dropped; auto; intros k E; destruct p; try discriminate; eapply A; reflexivity.
  - destruct w; [exfalso; eapply (Q Reply); [cbn; tauto|reflexivity]|]. destruct (single c) eqn:S.
    + apply Overdue; auto; try (cbn; lia).
    + exfalso. eapply (Q Close); [cbn; tauto|]. cbn [instant rcv]. unfold ready. rewrite S. reflexivity.
  - apply Cut; auto.
Qed.

Lemma phase_history c l : forall s, phase c s -> phase c (history c l s).
Proof.
  induction l as [|e l IH]; intros s P; [exact P|]. cbn [history]. apply IH. destruct (happen c s e) as [s'|] eqn:H; [|exact P].
  destruct e; cbn [happen] in H; try (eapply phase_instant; [exact P|exact H]).
  destruct (nothing_urgent c s) eqn:U; [|discriminate]. injection H as <-. now apply phase_pass.
Qed.

Lemma reached c l : phase c (history c l (accepted c)).
Proof. apply phase_history, phase_accepted. Qed.

(** The replies that have arrived belong to the first requests, all in time. *)
Lemma answered_shape c s : phase c s -> answered s = seq 0 (length (answered s)) /\ length (answered s) <= length (rounds c) /\ past c (length (answered s)).
Proof. intros []; cbn [answered]; rewrite seq_length; (split; [reflexivity|]); (split; [lia|]); assumption. Qed.

(** What is left to happen. *)
Definition fsum (l : list nat) : nat := fold_right Nat.add 0 l.
Definition thinks (c : talk) (i : nat) : nat := fsum (map fst (skipn i (rounds c))).
Definition works (c : talk) (i : nat) : nat := fsum (map snd (skipn i (rounds c))).
Definition remaining (c : talk) (s : moment) : nat :=
  4 * (length (rounds c) - asked s) + (if pipe s then 3 else 0)
  + match rcv s with Reading _ => 2 | Holding _ => 4 | Failing => 1 | Gone => 0 end
  + length (busy s) + fsum (map snd (busy s))
  + match pause s with Some k => k + thinks c (S (asked s)) | None => thinks c (asked s) end
  + works c (asked s)
  + (if pipe s then work c (pred (asked s)) else 0) + match rcv s with Holding i => work c i | _ => 0 end.

Lemma skipn_cons {X} (d : X) i : forall l, i < length l -> skipn i l = nth i l d :: skipn (S i) l.
Proof. induction i as [|i IH]; intros [|x l] H; cbn [length] in H; try lia; [reflexivity|]. cbn [skipn nth]. apply IH. lia. Qed.

Lemma thinks_S c i : i < length (rounds c) -> thinks c i = think c i + thinks c (S i).
Proof. intro H. unfold thinks, think. now rewrite (skipn_cons (0, 0) i) by assumption. Qed.
Lemma works_S c i : i < length (rounds c) -> works c i = work c i + works c (S i).
Proof. intro H. unfold works, work. now rewrite (skipn_cons (0, 0) i) by assumption. Qed.

Lemma remaining_reply c i : i <= length (rounds c) ->
  match pause_before c i with Some k => k + thinks c (S i) | None => thinks c i end = thinks c i.
Proof.
  intro H. unfold pause_before. destruct (Nat.ltb_spec i (length (rounds c))); [|reflexivity]. now rewrite (thinks_S c i).
Qed.

Ltac remain := unfold remaining; cbn [asked pause pipe rcv busy shut answered length map fsum fold_right snd fst pred negb app].

Lemma remaining_instant c s e s' : phase c s -> instant c s e = Some s' -> remaining c s' < remaining c s.
Proof.
  intros P H. destruct P as [i k l L K T P|i l L T P|i L P G|i l w L W T P G|l Z P|i a p q r b L A R P Z G|i w L W M Z D P G|i b L D M Z P];
    destruct e; inst H; try discriminate.
  - destruct k; [|discriminate]. injection H as <-. remain. rewrite (works_S c i L). lia.
  - destruct l as [[|t]|]; try discriminate. injection H as <-. remain. lia.
  - injection H as <-. remain. lia.
  - destruct l as [[|t]|]; try discriminate. injection H as <-. remain. lia.
  - destruct (ready c _); [|discriminate]. injection H as <-. unfold fresh. remain. lia.
  - destruct l as [[|t]|]; try discriminate. injection H as <-. remain. lia.
  - destruct w; [|discriminate]. injection H as <-. remain. rewrite remaining_reply by lia. lia.
  - destruct l as [[|t]|]; try discriminate. injection H as <-. remain. lia.
  - destruct p as [[|p]|]; try discriminate. injection H as <-. specialize (A 0 eq_refl). remain. rewrite (works_S c a A).
    destruct r; destruct R; try discriminate; destruct q, b; cbn [negb]; lia.
  - destruct r; destruct R; try discriminate; destruct q; discriminate.
  - destruct r; destruct R; try discriminate.
  - destruct r; destruct R; try discriminate; destruct (ready c _); discriminate.
  - destruct r; destruct R; try discriminate; destruct (ready c _); try discriminate. injection H as <-. remain. lia.
  - unfold ready in H. cbn [busy] in H. destruct (single c) eqn:S; [discriminate|]. injection H as <-. remain. lia.
  - destruct w; [|discriminate]. injection H as <-. remain. rewrite remaining_reply by lia. lia.
  - destruct b as [|[j [|w]] b]; try discriminate. injection H as <-. remain. lia.
Qed.

Lemma settled_dec s : {settled s} + {~ settled s}.
Proof.
  unfold settled. destruct (pause s); [right; intros [E _]; discriminate|]. destruct (busy s); [|right; intros (_ & E & _); discriminate].
  destruct (rcv s); [destruct (pipe s)|..]; (left; repeat split; tauto) || (right; intros (_ & _ & E); tauto || discriminate).
Qed.

Lemma urgent c s e s' : nothing_urgent c s = true -> instant c s e = Some s' -> False.
Proof.
  unfold nothing_urgent. rewrite forallb_forall. intros U E. assert (I : In e [Ask; Read; Expire; Hand; Close; Reply]).
  { destruct e; cbn; try tauto. discriminate E. }
  specialize (U e I). now rewrite E in U.
Qed.

Lemma sum_pred l : fsum (map snd (map (fun h : nat * nat => (fst h, pred (snd h))) l)) <= fsum (map snd l).
Proof. induction l as [|[i w] l IH]; [reflexivity|]. cbn [map snd fst fsum fold_right] in *. unfold fsum in *. lia. Qed.

Lemma remaining_pass c s : nothing_urgent c s = true -> ~ settled s -> remaining c (pass s) < remaining c s.
Proof.
  intros U N. assert (Q := fun e s' => urgent c s e s' U).
  destruct s as [a p q r h b w]. unfold pass. unfold remaining. cbn [asked pause pipe rcv busy shut answered].
  rewrite map_length. pose proof (sum_pred h) as H1.
  assert (H2 : h <> [] -> fsum (map snd (map (fun h : nat * nat => (fst h, pred (snd h))) h)) < fsum (map snd h)).
  { intro NE. destruct h as [|[j [|k]] h]; [contradiction| |].
    - exfalso. destruct b; (eapply (Q Reply); reflexivity).
    - pose proof (sum_pred h) as H2. cbn [map snd fst fsum fold_right pred]. unfold fsum in *. lia. }
  destruct p as [[|k]|]; cbn [less].
  - exfalso. eapply (Q Ask). reflexivity.
  - destruct r; cbn [pred]; lia.
  - destruct h as [|x h].
    + exfalso. destruct r as [l|j| |]; [|exfalso; eapply (Q Hand)|..].
      * destruct q; [eapply (Q Read); reflexivity|]. apply N. repeat split.
      * cbn [instant rcv]. unfold ready. cbn [busy]. rewrite orb_true_r. reflexivity.
      * apply N. repeat split.
      * apply N. repeat split.
    + specialize (H2 ltac:(discriminate)). destruct r; lia.
Qed.

Lemma remaining_happen c s e s' : phase c s -> happen c s e = Some s' -> ~ settled s -> remaining c s' < remaining c s.
Proof.
  intros P H N. destruct e; cbn [happen] in H; try (eapply remaining_instant; [exact P|exact H]).
  destruct (nothing_urgent c s) eqn:U; [|discriminate]. injection H as <-. now apply remaining_pass.
Qed.

Lemma settled_happen c s e s' : settled s -> happen c s e = Some s' -> settled s'.
Proof.
  intros (S1 & S2 & S3) H. destruct s as [a p q r h b w]. cbn [asked pause pipe rcv busy shut answered] in *. subst p h.
  destruct e; cbn [happen] in H; inst H; try discriminate.
  - destruct r, q; try discriminate. 
  - destruct r as [[[|]|]| | |]; try discriminate. injection H as <-. repeat split.
  - destruct r; try contradiction; discriminate.
  - destruct r; try contradiction; try discriminate; unfold ready in H; cbn [busy] in H; rewrite orb_true_r in H; injection H as <-; repeat split.
  - destruct (nothing_urgent c _); [|discriminate]. injection H as <-. repeat split. cbn [pass rcv]. destruct r; auto.
Qed.
