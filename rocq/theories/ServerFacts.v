(** Lemmas about the server. *)
From Verif Require Export ServerModel ServerSpec.
From Coq Require Import Lia ZifyBool ZifyNat Permutation.

(** ** Lists *)
Lemma setnth_length {A} (x : A) : forall l n, length (setnth n x l) = length l.
Proof. induction l as [|y l IH]; intros [|n]; cbn; auto. Qed.

Lemma setnth_same {A} (x : A) : forall l n, n < length l -> nth_error (setnth n x l) n = Some x.
Proof. induction l as [|y l IH]; intros [|n] H; cbn in *; try lia; try reflexivity; apply IH; lia. Qed.

Lemma setnth_other {A} (x : A) : forall l n m, m <> n -> nth_error (setnth n x l) m = nth_error l m.
Proof. induction l as [|y l IH]; intros [|n] [|m] H; cbn; auto; try congruence; apply IH; congruence. Qed.

Lemma nth_error_lt {A} (l : list A) n x : nth_error l n = Some x -> n < length l.
Proof. intro H. apply nth_error_Some. congruence. Qed.

Definition tally {A} (f : A -> bool) (l : list A) : nat := length (filter f l).

Lemma tally_setnth {A} (f : A -> bool) (x y : A) : forall l n, nth_error l n = Some y ->
  tally f (setnth n x l) + (if f y then 1 else 0) = tally f l + (if f x then 1 else 0).
Proof.
  unfold tally. induction l as [|z l IH]; intros [|n] H; cbn in *; try discriminate.
  - injection H as ->. destruct (f x), (f y); cbn; lia.
  - specialize (IH n H). destruct (f z); cbn; lia.
Qed.

Lemma tally_app {A} (f : A -> bool) a b : tally f (a ++ b) = tally f a + tally f b.
Proof. unfold tally. rewrite filter_app, app_length. reflexivity. Qed.

Lemma setnth_cases {A} (x : A) l n m y : nth_error (setnth n x l) m = Some y ->
  (m = n /\ y = x /\ n < length l) \/ (m <> n /\ nth_error l m = Some y).
Proof.
  intro H. destruct (Nat.eq_dec m n) as [->|E].
  - left. pose proof (nth_error_lt _ _ _ H) as L. rewrite setnth_length in L. rewrite setnth_same in H by exact L.
    injection H as <-. auto.
  - right. rewrite setnth_other in H by exact E. auto.
Qed.

Lemma srun_app a b s : srun (a ++ b) s = srun b (srun a s).
Proof. apply fold_left_app. Qed.

Lemma srun_inv (P : server -> Prop) s : P s -> (forall m s s', P s -> sstep m s = Some s' -> P s') ->
  forall sch, P (srun sch s).
Proof.
  intros H0 Hs sch. revert s H0. induction sch as [|a sch IH]; intros s H0; [exact H0|].
  cbn. apply IH. unfold sact. destruct (sstep a s) as [s'|] eqn:E; [|exact H0]. eapply Hs; eassumption.
Qed.

(** ** Transitions as a relation *)
Definition about (p : accepting) : option nat :=
  match p with
  | LIdle => None
  | LNew c | LLoad c | LTest c _ | LReject c | LRejClose c | LSpawn c => Some c
  end.

Inductive strans (s : server) : server -> Prop :=
| SAccept k ms : nth_error (loops s) k = Some LIdle ->
    strans s (with_loop k (LNew (length (cns s))) (with_new ms s))
| SNew k c : nth_error (loops s) k = Some (LNew c) ->
    strans s (emits (EState c StateNew) (with_loop k (LLoad c) s))
| SLoad k c : nth_error (loops s) k = Some (LLoad c) -> strans s (with_loop k (LTest c (counter s)) s)
| SRefuse k c n : nth_error (loops s) k = Some (LTest c n) ->
    limit s <> 0%Z -> (wrap32 (limit s) <= n)%Z -> strans s (with_loop k (LReject c) s)
| SCount k c n : nth_error (loops s) k = Some (LTest c n) ->
    limit s = 0%Z \/ (n < wrap32 (limit s))%Z -> strans s (with_counter (counter s + 1) (with_loop k (LSpawn c) s))
| SReject k c : nth_error (loops s) k = Some (LReject c) ->
    strans s (emits (EState c StateClosed) (with_loop k (LRejClose c) s))
| SRejClose k c : nth_error (loops s) k = Some (LRejClose c) ->
    strans s (emits (EClose c) (with_loop k LIdle s))
| SSpawn k c x : nth_error (loops s) k = Some (LSpawn c) -> nth_error (cns s) c = Some x ->
    strans s (with_loop k LIdle (with_cn c (MkCn (cmsgs x) (cleft x) RReading VWait) s))
| SRecvEnd c ms v : nth_error (cns s) c = Some (MkCn ms [] RReading v) ->
    strans s (with_cn c (MkCn ms [] (ROffer None) v) s)
| SRecv c ms q l v : nth_error (cns s) c = Some (MkCn ms (q :: l) RReading v) ->
    strans s (with_cn c (MkCn ms l (ROffer (Some q)) v) s)
| STake c ms lf q : nth_error (cns s) c = Some (MkCn ms lf (ROffer (Some q)) VWait) -> sequential s = true ->
    strans s (with_cn c (MkCn ms lf RReading (VReq q HState)) s)
| SFork c ms lf q : nth_error (cns s) c = Some (MkCn ms lf (ROffer (Some q)) VWait) -> sequential s = false ->
    strans s (with_hands (hands s ++ [(c, q, Some HState)]) (with_cn c (MkCn ms lf RReading VWait) s))
| SFail c ms lf : nth_error (cns s) c = Some (MkCn ms lf (ROffer None) VWait) ->
    strans s (with_cn c (MkCn ms lf REnd VDec) s)
| SWork c ms lf r q st : nth_error (cns s) c = Some (MkCn ms lf r (VReq q st)) ->
    strans s (emits (fst (serve_req c q st))
      (with_cn c (MkCn ms lf r (match snd (serve_req c q st) with Some y => VReq q y | None => VWait end)) s))
| SDec c ms lf r : nth_error (cns s) c = Some (MkCn ms lf r VDec) ->
    strans s (with_counter (counter s - 1) (with_cn c (MkCn ms lf r VClosing) s))
| SClosing c ms lf r : nth_error (cns s) c = Some (MkCn ms lf r VClosing) ->
    strans s (emits (EState c StateClosed) (with_cn c (MkCn ms lf r VClose) s))
| SClose c ms lf r : nth_error (cns s) c = Some (MkCn ms lf r VClose) ->
    strans s (emits (EClose c) (with_cn c (MkCn ms lf r VGone) s))
| SHand j c q st : nth_error (hands s) j = Some (c, q, Some st) ->
    strans s (emits (fst (serve_req c q st)) (with_hands (setnth j (c, q, snd (serve_req c q st)) (hands s)) s)).

Lemma sstep_trans m s s' : sstep m s = Some s' -> strans s s'.
Proof.
  destruct m as [k ms|c|c|j]; cbn [sstep].
  - unfold loop_step. destruct (nth_error (loops s) k) as [[|c|c|c n|c|c|c]|] eqn:Hk; try discriminate;
      try (intro H; injection H as <-; econstructor; eassumption).
    + destruct (Z.eqb_spec (limit s) 0) as [E|E]; cbn [negb andb].
      * intro H. injection H as <-. eapply SCount; eauto.
      * destruct (Z.leb_spec (wrap32 (limit s)) n); intro H'; injection H' as <-; [eapply SRefuse|eapply SCount]; eauto.
    + destruct (nth_error (cns s) c) as [x|] eqn:Hc; [|discriminate]. intro H. injection H as <-. eapply SSpawn; eassumption.
  - unfold recv_step. destruct (nth_error (cns s) c) as [[ms lf r v]|] eqn:Hc; [|discriminate].
    destruct r; try discriminate. destruct lf as [|q l]; intro H; injection H as <-; econstructor; eassumption.
  - unfold serve_step. destruct (nth_error (cns s) c) as [[ms lf r v]|] eqn:Hc; [|discriminate].
    destruct v as [| |q st| | | |]; try discriminate.
    + destruct r as [| |[q|]|]; try discriminate.
      * destruct (sequential s) eqn:Hq; intro H; injection H as <-; [eapply STake|eapply SFork]; eassumption.
      * intro H. injection H as <-. econstructor; eassumption.
    + pose proof (SWork s c ms lf r q st Hc) as W. destruct (serve_req c q st) as [e st']. intro H. injection H as <-. exact W.
    + intro H. injection H as <-. econstructor; eassumption.
    + intro H. injection H as <-. econstructor; eassumption.
    + intro H. injection H as <-. econstructor; eassumption.
  - unfold hand_step. destruct (nth_error (hands s) j) as [[[c q] [st|]]|] eqn:Hj; try discriminate.
    pose proof (SHand s j c q st Hj) as W. destruct (serve_req c q st) as [e st']. intro H. injection H as <-. exact W.
Qed.

(** ** Basic shape: which loop deals with which connection *)
Definition shape (s : server) : Prop :=
  (forall k p c, nth_error (loops s) k = Some p -> about p = Some c ->
     exists x, nth_error (cns s) c = Some x /\ cserve x = VNot)
  /\ (forall k k' p p' c, nth_error (loops s) k = Some p -> nth_error (loops s) k' = Some p' ->
       about p = Some c -> about p' = Some c -> k = k')
  /\ (forall c x, nth_error (cns s) c = Some x ->
       (cserve x = VNot -> crcv x = RNot /\ cleft x = cmsgs x)
       /\ (crcv x = ROffer None \/ crcv x = REnd -> cleft x = [])
       /\ (match cserve x with VDec | VClosing | VClose | VGone => crcv x = REnd | _ => True end)).

Ltac split_nth H := apply setnth_cases in H; destruct H as [(-> & -> & _)|(? & H)].

Lemma about_lt s k p c : shape s -> nth_error (loops s) k = Some p -> about p = Some c -> c < length (cns s).
Proof. intros (A & _) H1 H2. destruct (A k p c H1 H2) as (x & Hx & _). eapply nth_error_lt. exact Hx. Qed.

(** A loop moves on with the same connection, or lets it go. *)
Lemma shape_loop s s' k p p' : shape s -> nth_error (loops s) k = Some p -> loops s' = setnth k p' (loops s) ->
  cns s' = cns s -> about p' = about p \/ about p' = None -> shape s'.
Proof.
  intros (A & B & C) Hk Hl Hc Hp. split; [|split].
  - intros i q c Hi Hq. rewrite Hl in Hi. rewrite Hc. split_nth Hi; [|eauto].
    destruct Hp as [Hp|Hp]; rewrite Hp in Hq; [eauto|discriminate].
  - intros i j q q' c Hi Hj Hq Hq'. rewrite Hl in Hi, Hj. split_nth Hi; split_nth Hj; auto.
    + destruct Hp as [Hp|Hp]; rewrite Hp in Hq; [|discriminate]. symmetry. eapply B; eassumption.
    + destruct Hp as [Hp|Hp]; rewrite Hp in Hq'; [|discriminate]. eapply B; eassumption.
    + eapply B; eassumption.
  - rewrite Hc. exact C.
Qed.

(** A served connection moves on. *)
Lemma shape_cn s s' c x y : shape s -> nth_error (cns s) c = Some x -> cserve x <> VNot ->
  loops s' = loops s -> cns s' = setnth c y (cns s) -> cserve y <> VNot ->
  (crcv y = ROffer None \/ crcv y = REnd -> cleft y = []) ->
  (match cserve y with VDec | VClosing | VClose | VGone => crcv y = REnd | _ => True end) -> shape s'.
Proof.
  intros (A & B & C) Hc Hx Hl Hn Hy H1 H2. split; [|split].
  - intros k p d Hk Hp. rewrite Hl in Hk. destruct (A k p d Hk Hp) as (z & Z1 & Z2). exists z. split; [|exact Z2].
    rewrite Hn, setnth_other; [exact Z1|]. intros ->. congruence.
  - rewrite Hl. exact B.
  - intros d z Hd. rewrite Hn in Hd. split_nth Hd; [|eauto]. split; [congruence|]. auto.
Qed.

Lemma shape_step s s' : shape s -> strans s s' -> shape s'.
Proof.
  intros S T. pose proof S as (A & B & C). destruct T;
    try (eapply (shape_loop s); [exact S|eassumption|reflexivity|reflexivity|auto; fail]);
    try (match goal with H : nth_error (cns s) ?c = Some ?x |- _ => pose proof (C c x H) as Cx; cbn [cserve crcv cleft] in Cx;
           destruct Cx as (C1 & C2 & C3) end).
  - (* a new connection *) split; [|split].
    + intros i p c Hi Hp. cbn [loops with_loop with_new] in Hi. cbn [cns with_loop with_new]. split_nth Hi.
      * cbn in Hp. injection Hp as <-. exists (MkCn ms ms RNot VNot). rewrite nth_error_app2, Nat.sub_diag by lia. auto.
      * destruct (A i p c Hi Hp) as (x & X1 & X2). exists x. split; [|exact X2].
        rewrite nth_error_app1; [exact X1|eapply nth_error_lt; exact X1].
    + intros i j p p' c Hi Hj Hp Hp'. cbn [loops with_loop with_new] in Hi, Hj. split_nth Hi; split_nth Hj; auto.
      * cbn in Hp. injection Hp as <-. pose proof (about_lt s j p' _ S Hj Hp'). lia.
      * cbn in Hp'. injection Hp' as <-. pose proof (about_lt s i p _ S Hi Hp). lia.
      * eapply B; eassumption.
    + intros c x Hx. cbn [cns with_loop with_new] in Hx.
      destruct (Nat.lt_ge_cases c (length (cns s))) as [L|L].
      * rewrite nth_error_app1 in Hx by exact L. eauto.
      * rewrite nth_error_app2 in Hx by exact L. destruct (c - length (cns s)) as [|d]; cbn in Hx.
        -- injection Hx as <-. cbn. split; [auto|]. split; [intros [|]; discriminate|exact I].
        -- destruct d; discriminate.
  - (* spawn *) destruct (A k _ c H eq_refl) as (x' & X1 & X2). rewrite H0 in X1. injection X1 as <-. split; [|split].
    + intros i p d Hi Hp. cbn [loops with_loop with_cn] in Hi. cbn [cns with_loop with_cn]. split_nth Hi; [discriminate|].
      destruct (A i p d Hi Hp) as (z & Z1 & Z2). exists z. split; [|exact Z2]. rewrite setnth_other; [exact Z1|].
      intros ->. assert (i = k) by (eapply B; [exact Hi|exact H|exact Hp|reflexivity]). congruence.
    + intros i j p p' d Hi Hj Hp Hp'. cbn [loops with_loop with_cn] in Hi, Hj.
      split_nth Hi; [discriminate|]. split_nth Hj; [discriminate|]. eapply B; eassumption.
    + intros d z Hd. cbn [cns with_loop with_cn] in Hd. split_nth Hd; [|eauto]. cbn. split; [discriminate|].
      split; [intros [|]; discriminate|exact I].
  - eapply (shape_cn s); [exact S|eassumption|..]; try reflexivity; cbn; auto;
      try (intro E; destruct (C1 E) as [X _]; discriminate). destruct v; auto; discriminate.
  - eapply (shape_cn s); [exact S|eassumption|..]; try reflexivity; cbn; auto; try (intros [|]; discriminate).
    1,2: intro E; destruct (C1 E) as [X _]; discriminate.
    destruct v; auto; discriminate.
  - eapply (shape_cn s); [exact S|eassumption|..]; try reflexivity; cbn; auto; try discriminate; intros [|]; discriminate.
  - eapply (shape_cn s); [exact S|eassumption|..]; try reflexivity; cbn; auto; try discriminate; intros [|]; discriminate.
  - eapply (shape_cn s); [exact S|eassumption|..]; try reflexivity; cbn; auto; discriminate.
  - eapply (shape_cn s); [exact S|eassumption|..]; try reflexivity; cbn; auto; try discriminate;
      destruct (snd (serve_req c q st)); auto; discriminate.
  - eapply (shape_cn s); [exact S|eassumption|..]; try reflexivity; cbn; auto; discriminate.
  - eapply (shape_cn s); [exact S|eassumption|..]; try reflexivity; cbn; auto; discriminate.
  - eapply (shape_cn s); [exact S|eassumption|..]; try reflexivity; cbn; auto; discriminate.
  - (* hand *) split; [exact A|]. split; [exact B|exact C].
Qed.

Lemma nth_error_repeat {A} (x y : A) n k : nth_error (repeat x n) k = Some y -> y = x.
Proof. intro H. apply nth_error_In in H. eapply repeat_spec. exact H. Qed.

Lemma shape_start lim q n : shape (sstart lim q n).
Proof.
  split; [|split].
  - intros k p c H Hp. apply nth_error_repeat in H. subst p. discriminate.
  - intros k k' p p' c H H' Hp. apply nth_error_repeat in H. subst p. discriminate.
  - intros [|c] x H; discriminate.
Qed.

Lemma shape_run lim q n sch : shape (srun sch (sstart lim q n)).
Proof. apply srun_inv; [apply shape_start|]. intros m s s' H E. eapply shape_step; [exact H|eapply sstep_trans; exact E]. Qed.

(** ** Accounting *)
Lemma wrap32_small z : (-2147483648 <= z < 2147483648)%Z -> wrap32 z = z.
Proof. intro H. unfold wrap32. rewrite Z.mod_small; lia. Qed.

Lemma wrap32_add a b : wrap32 (wrap32 a + b) = wrap32 (a + b).
Proof.
  unfold wrap32. f_equal. replace ((a + 2147483648) mod 4294967296 - 2147483648 + b + 2147483648)%Z
    with ((a + 2147483648) mod 4294967296 + b)%Z by lia.
  rewrite Zplus_mod_idemp_l. f_equal. lia.
Qed.

Lemma accounted_tally s : accounted s = tally counted (cns s) + tally spawning (loops s).
Proof. reflexivity. Qed.

(** How a step changes the number of accounted connections. *)
Lemma accounted_step s s' : shape s -> strans s s' ->
  (counter s' = counter s /\ accounted s' = accounted s)
  \/ (exists k c n, nth_error (loops s) k = Some (LTest c n) /\ (limit s = 0%Z \/ (n < wrap32 (limit s))%Z)
       /\ loops s' = setnth k (LSpawn c) (loops s)
       /\ counter s' = wrap32 (counter s + 1) /\ accounted s' = accounted s + 1)
  \/ (counter s' = wrap32 (counter s - 1) /\ accounted s' + 1 = accounted s /\ loops s' = loops s).
Proof.
  intros (A & _ & _) T. rewrite !accounted_tally.
  destruct T; cbn [loops cns counter with_loop with_new emits with_counter with_cn with_hands].
  - left. split; [reflexivity|]. rewrite tally_app. change (tally counted [MkCn ms ms RNot VNot]) with 0.
    pose proof (tally_setnth spawning (LNew (length (cns s))) _ _ _ H) as T. cbn in T. lia.
  - left. split; [reflexivity|]. pose proof (tally_setnth spawning (LLoad c) _ _ _ H) as T. cbn in T. lia.
  - left. split; [reflexivity|]. pose proof (tally_setnth spawning (LTest c (counter s)) _ _ _ H) as T. cbn in T. lia.
  - left. split; [reflexivity|]. pose proof (tally_setnth spawning (LReject c) _ _ _ H) as T. cbn in T. lia.
  - right. left. exists k, c, n. pose proof (tally_setnth spawning (LSpawn c) _ _ _ H) as T. cbn in T.
    split; [exact H|]. split; [exact H0|]. split; [reflexivity|]. split; [reflexivity|]. lia.
  - left. split; [reflexivity|]. pose proof (tally_setnth spawning (LRejClose c) _ _ _ H) as T. cbn in T. lia.
  - left. split; [reflexivity|]. pose proof (tally_setnth spawning LIdle _ _ _ H) as T. cbn in T. lia.
  - left. split; [reflexivity|]. destruct (A k _ c H eq_refl) as (x' & X1 & X2). rewrite H0 in X1. injection X1 as <-.
    pose proof (tally_setnth spawning LIdle _ _ _ H) as T1.
    pose proof (tally_setnth counted (MkCn (cmsgs x) (cleft x) RReading VWait) _ _ _ H0) as T2.
    assert (X3 : counted x = false) by (unfold counted; rewrite X2; reflexivity). rewrite X3 in T2. cbn in T1.
    change (counted (MkCn (cmsgs x) (cleft x) RReading VWait)) with true in T2. cbn iota in T2. lia.
  - left. split; [reflexivity|]. pose proof (tally_setnth counted (MkCn ms [] (ROffer None) v) _ _ _ H) as T. cbn in T.
    destruct v; cbn in T; lia.
  - left. split; [reflexivity|]. pose proof (tally_setnth counted (MkCn ms l (ROffer (Some q)) v) _ _ _ H) as T. cbn in T.
    destruct v; cbn in T; lia.
  - left. split; [reflexivity|]. pose proof (tally_setnth counted (MkCn ms lf RReading (VReq q HState)) _ _ _ H) as T. cbn in T. lia.
  - left. split; [reflexivity|]. pose proof (tally_setnth counted (MkCn ms lf RReading VWait) _ _ _ H) as T. cbn in T. lia.
  - left. split; [reflexivity|]. pose proof (tally_setnth counted (MkCn ms lf REnd VDec) _ _ _ H) as T. cbn in T. lia.
  - left. split; [reflexivity|].
    pose proof (tally_setnth counted (MkCn ms lf r (match snd (serve_req c q st) with Some y => VReq q y | None => VWait end)) _ _ _ H) as T.
    unfold counted at 2 4 in T. cbn [cserve] in T. destruct (snd (serve_req c q st)); lia.
  - right. right. split; [reflexivity|]. split; [|reflexivity].
    pose proof (tally_setnth counted (MkCn ms lf r VClosing) _ _ _ H) as T. cbn in T. lia.
  - left. split; [reflexivity|]. pose proof (tally_setnth counted (MkCn ms lf r VClose) _ _ _ H) as T. cbn in T. lia.
  - left. split; [reflexivity|]. pose proof (tally_setnth counted (MkCn ms lf r VGone) _ _ _ H) as T. cbn in T. lia.
  - left. split; reflexivity.
Qed.

Lemma limit_step s s' : strans s s' -> limit s' = limit s /\ sequential s' = sequential s /\ length (loops s') = length (loops s).
Proof. intro T. destruct T; cbn; rewrite ?setnth_length; auto. Qed.

Lemma limit_run m sch : forall s, limit s = m -> limit (srun sch s) = m.
Proof.
  intros s H. apply (srun_inv (fun s => limit s = m)); [exact H|].
  intros a t t' <- E. apply sstep_trans, limit_step in E. apply E.
Qed.

Definition balanced (s : server) : Prop := shape s /\ counter s = wrap32 (Z.of_nat (accounted s)).

Lemma balanced_step s s' : balanced s -> strans s s' -> balanced s'.
Proof.
  intros [S B] T. split; [eapply shape_step; eassumption|].
  destruct (accounted_step s s' S T) as [(H1 & H2)|[(k & c & n & _ & _ & _ & H1 & H2)|(H1 & H2 & _)]]; rewrite H1.
  - congruence.
  - rewrite H2, B, wrap32_add. f_equal. lia.
  - rewrite B, <- H2. change (?a - 1)%Z with (a + -1)%Z. rewrite wrap32_add. f_equal. lia.
Qed.

Lemma accounted_start lim q n : accounted (sstart lim q n) = 0.
Proof. unfold accounted. cbn. induction n; cbn; auto. Qed.

Lemma balanced_run lim q n sch : balanced (srun sch (sstart lim q n)).
Proof.
  apply (srun_inv balanced).
  - split; [apply shape_start|]. rewrite accounted_start. reflexivity.
  - intros m s s' H E. eapply balanced_step; [exact H|eapply sstep_trans; exact E].
Qed.

Lemma served_le_accounted s : served s <= accounted s.
Proof.
  unfold served, accounted. induction (cns s) as [|x l IH]; cbn; [lia|].
  unfold being_served at 1, counted at 1. destruct (cserve x); cbn; lia.
Qed.

(** ** One accept loop *)
Definition bounded (m : nat) (s : server) : Prop :=
  balanced s /\ limit s = Z.of_nat m /\ length (loops s) = 1 /\ accounted s <= m
  /\ forall c n, nth_error (loops s) 0 = Some (LTest c n) -> (Z.of_nat (accounted s) <= n)%Z.

Lemma bounded_step m s s' : (0 < Z.of_nat m < 2147483648)%Z -> bounded m s -> strans s s' -> bounded m s'.
Proof.
  intros M (B & L & O & A & N) T. pose proof (limit_step s s' T) as (L' & _ & O').
  pose proof (balanced_step s s' B T) as B'. split; [exact B'|]. split; [congruence|]. split; [congruence|].
  assert (Hacc := accounted_step s s' (proj1 B) T).
  destruct Hacc as [(H1 & H2)|[(k & c & n & Hk & Hn & Hl & H1 & H2)|(H1 & H2 & H3)]].
  - split; [lia|]. rewrite H2. intros c n H. destruct T; cbn [loops with_loop with_new emits with_counter with_cn with_hands] in H; try (apply (N c n); exact H);
      (apply setnth_cases in H; destruct H as [(E1 & E2 & _)|(E1 & E2)]; [|apply (N c n); exact E2]); try discriminate.
    injection E2 as -> ->. subst k. rewrite (proj2 B), wrap32_small; lia.
  - assert (k = 0) by (apply nth_error_lt in Hk; lia). subst k. pose proof (N c n Hk) as Nn.
    rewrite L, wrap32_small in Hn by lia. split; [lia|]. intros c' n' H. rewrite Hl in H. apply setnth_cases in H. destruct H as [(_ & E & _)|(E & _)]; [discriminate|congruence].
  - split; [lia|]. rewrite H3. intros c n H. specialize (N c n H). lia.
Qed.

Lemma bounded_run m q sch : (0 < Z.of_nat m < 2147483648)%Z -> bounded m (srun sch (sstart (Z.of_nat m) q 1)).
Proof.
  intro M. apply (srun_inv (bounded m)).
  - split; [split; [apply shape_start|rewrite accounted_start; reflexivity]|]. split; [reflexivity|]. split; [reflexivity|].
    rewrite accounted_start. split; [lia|]. intros c n H. discriminate.
  - intros a s s' H E. eapply bounded_step; [exact M|exact H|eapply sstep_trans; exact E].
Qed.

(** ** The story of each connection, handlers run one after another *)
Definition own (c : nat) (e : event) : bool := conn_of e =? c.

Lemma story_trace c s s' ev : trace s' = trace s ++ ev -> story c s' = story c s ++ filter (own c) ev.
Proof. intro H. unfold story. rewrite H, filter_app. reflexivity. Qed.

Lemma own_all c ev : Forall (fun e => conn_of e = c) ev -> filter (own c) ev = ev.
Proof. induction 1 as [|e l H _ IH]; cbn; [reflexivity|]. unfold own at 1. rewrite H, Nat.eqb_refl, IH. reflexivity. Qed.

Lemma own_none c d ev : Forall (fun e => conn_of e = c) ev -> d <> c -> filter (own d) ev = [].
Proof.
  intros H N. induction H as [|e l H _ IH]; cbn; [reflexivity|]. unfold own at 1. rewrite H.
  destruct (Nat.eqb_spec c d); [congruence|exact IH].
Qed.

Definition ending (c : nat) : list event := [EState c StateClosed; EClose c].

Definition stage_left (c : nat) (q : Request) (st : stage) : list event :=
  match st with
  | HState => request_story c q
  | HCall => tl (request_story c q)
  | HReturn => [EReturn c q; EFlush c; EState c StateIdle]
  | HFlush => [EFlush c; EState c StateIdle]
  | HIdle => [EState c StateIdle]
  end.

Definition unread (x : cn) : list Request :=
  match crcv x with ROffer (Some q) => q :: cleft x | _ => cleft x end.

Definition future (c : nat) (x : cn) : list event :=
  match cserve x with
  | VNot => served_story c (cmsgs x)
  | VWait => flat_map (request_story c) (unread x) ++ ending c
  | VReq q st => stage_left c q st ++ flat_map (request_story c) (unread x) ++ ending c
  | VDec | VClosing => ending c
  | VClose => [EClose c]
  | VGone => []
  end.

Definition phase_story (c : nat) (p : accepting) : list event :=
  match p with
  | LIdle | LNew _ => []
  | LLoad _ | LTest _ _ | LReject _ | LSpawn _ => [EState c StateNew]
  | LRejClose _ => [EState c StateNew; EState c StateClosed]
  end.

(** Handler goroutines belong to served connections. *)
Definition handed (s : server) : Prop :=
  Forall (fun h : nat * Request * option stage =>
    exists x, nth_error (cns s) (fst (fst h)) = Some x /\ cserve x <> VNot) (hands s).

Definition tale (s : server) : Prop :=
  shape s /\ (sequential s = true -> hands s = []) /\ handed s
  /\ (forall k p c, nth_error (loops s) k = Some p -> about p = Some c -> story c s = phase_story c p)
  /\ (forall c x, sequential s = true -> nth_error (cns s) c = Some x -> cserve x <> VNot ->
        story c s ++ future c x = served_story c (cmsgs x))
  /\ (forall c x, nth_error (cns s) c = Some x -> cserve x = VNot ->
        (exists k p, nth_error (loops s) k = Some p /\ about p = Some c) \/ story c s = rejected_story c)
  /\ (forall c, length (cns s) <= c -> story c s = []).

Lemma handed_cn s s' c y : handed s -> cns s' = setnth c y (cns s) -> hands s' = hands s -> cserve y <> VNot -> handed s'.
Proof.
  intros H Hn Hh Hy. unfold handed in *. rewrite Hh, Hn. eapply Forall_impl; [|exact H]. intros h (x & X1 & X2).
  destruct (Nat.eq_dec (fst (fst h)) c) as [E|E].
  - rewrite E. exists y. split; [|exact Hy]. apply setnth_same. rewrite <- E. eapply nth_error_lt. exact X1.
  - exists x. rewrite setnth_other by exact E. auto.
Qed.

Lemma tale_loop s s' k p p' c ev : tale s -> nth_error (loops s) k = Some p -> about p = Some c -> about p' = Some c ->
  shape s' -> sequential s' = sequential s -> hands s' = hands s -> loops s' = setnth k p' (loops s) -> cns s' = cns s ->
  trace s' = trace s ++ ev -> Forall (fun e => conn_of e = c) ev -> phase_story c p ++ ev = phase_story c p' -> tale s'.
Proof.
  intros (S & H & G & T1 & T2 & T3 & T4) Hk Hp Hp' S' Hq Hh Hl Hc Ht Hev Hph. pose proof S as (A & B & _).
  split; [exact S'|]. split; [rewrite Hq, Hh; exact H|]. split; [unfold handed; rewrite Hh, Hc; exact G|]. rewrite Hc, Hq.
  assert (Hst : forall d, story d s' = story d s ++ filter (own d) ev) by (intro d; apply story_trace; exact Ht).
  assert (Hlt : c < length (cns s)) by (eapply about_lt; eassumption).
  split; [|split; [|split]].
  - intros i p2 d Hi Hd. rewrite Hl in Hi. rewrite Hst. split_nth Hi.
    + assert (d = c) by congruence. subst d. rewrite own_all by exact Hev. rewrite (T1 k p c Hk Hp). exact Hph.
    + rewrite (own_none c d ev Hev), app_nil_r; [eapply T1; eassumption|]. intros ->. apply H0. eapply B; eassumption.
  - intros d x Q Hd Hx. rewrite Hst. rewrite (own_none c d ev Hev), app_nil_r; [apply T2; assumption|].
    intros ->. destruct (A k p c Hk Hp) as (y & Y1 & Y2). congruence.
  - intros d x Hd Hx. destruct (Nat.eq_dec d c) as [->|N].
    + left. exists k, p'. split; [|exact Hp']. rewrite Hl. apply setnth_same. eapply nth_error_lt. exact Hk.
    + rewrite Hst, (own_none c d ev Hev N), app_nil_r. destruct (T3 d x Hd Hx) as [(i & r & Hi & Hr)|E]; [left|right; exact E].
      exists i, r. split; [|exact Hr]. rewrite Hl, setnth_other; [exact Hi|]. intros ->. congruence.
  - intros d Hd. rewrite Hst, (own_none c d ev Hev), app_nil_r; [apply T4; exact Hd|]. lia.
Qed.

Lemma tale_cn s s' c x y ev : tale s -> nth_error (cns s) c = Some x -> cserve x <> VNot -> cserve y <> VNot ->
  cmsgs y = cmsgs x ->
  shape s' -> sequential s' = sequential s -> (sequential s = true -> hands s' = []) -> handed s' ->
  loops s' = loops s -> cns s' = setnth c y (cns s) ->
  trace s' = trace s ++ ev -> Forall (fun e => conn_of e = c) ev ->
  (sequential s = true -> ev ++ future c y = future c x) -> tale s'.
Proof.
  intros (S & H & G & T1 & T2 & T3 & T4) Hc Hx Hy Hm S' Hq Hh Hg Hl Hn Ht Hev Hfu. pose proof S as (A & B & _).
  split; [exact S'|]. split; [rewrite Hq; exact Hh|]. split; [exact Hg|]. rewrite Hl, Hn, Hq.
  assert (Hst : forall d, story d s' = story d s ++ filter (own d) ev) by (intro d; apply story_trace; exact Ht).
  split; [|split; [|split]].
  - intros i p d Hi Hd. rewrite Hst, (own_none c d ev Hev), app_nil_r; [eapply T1; eassumption|].
    intros ->. destruct (A i p c Hi Hd) as (z & Z1 & Z2). congruence.
  - intros d z Q Hd Hz. rewrite Hst. split_nth Hd.
    + rewrite own_all by exact Hev. rewrite <- app_assoc, Hfu, Hm by exact Q. apply T2; assumption.
    + rewrite (own_none c d ev Hev), app_nil_r by assumption. apply T2; assumption.
  - intros d z Hd Hz. split_nth Hd; [congruence|]. rewrite Hst, (own_none c d ev Hev), app_nil_r by assumption. eapply T3; eassumption.
  - intros d Hd. rewrite setnth_length in Hd. rewrite Hst, (own_none c d ev Hev), app_nil_r; [apply T4; exact Hd|].
    apply nth_error_lt in Hc. lia.
Qed.

Lemma Forall_setnth {A} (P : A -> Prop) x l n : Forall P l -> P x -> Forall P (setnth n x l).
Proof. intros H Hx. revert n. induction H as [|y l Hy Hl IH]; intros [|n]; cbn; auto. Qed.

Lemma setnth_id {A} (x : A) : forall l n, nth_error l n = Some x -> setnth n x l = l.
Proof. induction l as [|y l IH]; intros [|n] H; cbn in *; try discriminate; [congruence|]. f_equal. apply IH. exact H. Qed.

Ltac quiet s c x y ev W S' :=
  eapply (tale_cn s _ c x y ev);
    [exact W|eassumption|cbn; try discriminate|cbn; try discriminate|reflexivity|exact S'|reflexivity|assumption
    |eapply handed_cn; [eassumption|reflexivity|reflexivity|cbn; try discriminate]|reflexivity|reflexivity
    |try (symmetry; apply app_nil_r); try reflexivity|repeat constructor|intros _; try reflexivity].

Lemma tale_step s s' : tale s -> strans s s' -> tale s'.
Proof.
  intros W T. pose proof W as (S & H & G & T1 & T2 & T3 & T4). pose proof S as (A & B & C).
  pose proof (shape_step s s' S T) as S'. destruct T.
  - (* accept *) split; [exact S'|]. split; [exact H|]. split.
    { unfold handed. cbn [cns hands with_loop with_new]. eapply Forall_impl; [|exact G]. intros h (x & X1 & X2). exists x.
      rewrite nth_error_app1; [auto|eapply nth_error_lt; exact X1]. }
    cbn [loops cns with_loop with_new]. split; [|split; [|split]].
    + intros i p d Hi Hd. change (story d s = phase_story d p). split_nth Hi; [|eapply T1; eassumption].
      injection Hd as <-. apply T4. lia.
    + intros d x Q Hd Hx. change (story d s ++ future d x = served_story d (cmsgs x)).
      destruct (Nat.lt_ge_cases d (length (cns s))) as [L|L].
      * rewrite nth_error_app1 in Hd by exact L. apply T2; assumption.
      * rewrite nth_error_app2 in Hd by exact L. destruct (d - length (cns s)) as [|e]; cbn in Hd.
        -- injection Hd as <-. cbn in Hx. congruence.
        -- destruct e; discriminate.
    + intros d x Hd Hx. change (story d (with_loop k (LNew (length (cns s))) (with_new ms s))) with (story d s).
      destruct (Nat.lt_ge_cases d (length (cns s))) as [L|L].
      * rewrite nth_error_app1 in Hd by exact L. destruct (T3 d x Hd Hx) as [(i & r & Hi & Hr)|E]; [left|right; exact E].
        exists i, r. split; [|exact Hr]. rewrite setnth_other; [exact Hi|]. intros ->. rewrite H0 in Hi. injection Hi as <-. discriminate.
      * rewrite nth_error_app2 in Hd by exact L. destruct (d - length (cns s)) as [|e] eqn:De; cbn in Hd; [|destruct e; discriminate].
        left. exists k, (LNew (length (cns s))). split; [apply setnth_same; eapply nth_error_lt; exact H0|]. cbn. f_equal. lia.
    + intros d Hd. rewrite app_length in Hd. change (story d s = []). apply T4. cbn in Hd. lia.
  - eapply (tale_loop s _ k (LNew c) (LLoad c) c [EState c StateNew]); auto.
  - eapply (tale_loop s _ k (LLoad c) (LTest c (counter s)) c []); auto. cbn. rewrite app_nil_r. reflexivity.
  - eapply (tale_loop s _ k (LTest c n) (LReject c) c []); auto. cbn. rewrite app_nil_r. reflexivity.
  - eapply (tale_loop s _ k (LTest c n) (LSpawn c) c []); auto. cbn. rewrite app_nil_r. reflexivity.
  - eapply (tale_loop s _ k (LReject c) (LRejClose c) c [EState c StateClosed]); auto.
  - (* rejected for good *)
    set (s' := emits (EClose c) (with_loop k LIdle s)) in *.
    assert (Hst : forall d, story d s' = story d s ++ filter (own d) [EClose c]) by (intro d; apply story_trace; reflexivity).
    assert (Hev : Forall (fun e => conn_of e = c) [EClose c]) by (repeat constructor).
    assert (Hc : story c s' = rejected_story c).
    { rewrite Hst, own_all, (T1 k _ c H0 eq_refl) by exact Hev. reflexivity. }
    split; [exact S'|]. split; [exact H|]. split; [exact G|].
    change (cns s') with (cns s). change (loops s') with (setnth k LIdle (loops s)). split; [|split; [|split]].
    + intros i p d Hi Hd. split_nth Hi; [discriminate|]. rewrite Hst, (own_none c d _ Hev), app_nil_r; [eapply T1; eassumption|].
      intros ->. apply H1. eapply B; [exact Hi|exact H0|exact Hd|reflexivity].
    + intros d x Q Hd Hx. rewrite Hst, (own_none c d _ Hev), app_nil_r; [apply T2; assumption|].
      intros ->. destruct (A k _ c H0 eq_refl) as (y & Y1 & Y2). congruence.
    + intros d x Hd Hx. destruct (Nat.eq_dec d c) as [->|N]; [right; exact Hc|].
      rewrite Hst, (own_none c d _ Hev N), app_nil_r. destruct (T3 d x Hd Hx) as [(i & r & Hi & Hr)|E]; [left|right; exact E].
      exists i, r. split; [|exact Hr]. rewrite setnth_other; [exact Hi|]. intros ->. rewrite H0 in Hi. injection Hi as <-.
      cbn in Hr. congruence.
    + intros d Hd. rewrite Hst, (own_none c d _ Hev), app_nil_r; [apply T4; exact Hd|].
      pose proof (about_lt s k _ c S H0 eq_refl). lia.
  - (* spawn *)
    destruct (A k _ c H0 eq_refl) as (x' & X1 & X2). rewrite H1 in X1. injection X1 as <-.
    destruct (C c x H1) as (C1 & _ & _). destruct (C1 X2) as (_ & Cl).
    set (y := MkCn (cmsgs x) (cleft x) RReading VWait) in *.
    split; [exact S'|]. split; [exact H|]. split; [eapply (handed_cn s); [exact G|reflexivity|reflexivity|discriminate]|].
    cbn [loops cns with_loop with_cn]. split; [|split; [|split]].
    + intros i p d Hi Hd. split_nth Hi; [discriminate|]. apply (T1 i p d); assumption.
    + intros d z Q Hd Hz. change (story d s ++ future d z = served_story d (cmsgs z)). split_nth Hd; [|apply T2; assumption].
      rewrite (T1 k _ c H0 eq_refl). cbn [future y cserve unread crcv cleft cmsgs]. rewrite Cl. reflexivity.
    + intros d z Hd Hz. split_nth Hd; [discriminate|]. change (story d (with_loop k LIdle (with_cn c y s))) with (story d s).
      destruct (T3 d z Hd Hz) as [(i & r & Hi & Hr)|E]; [left|right; exact E].
      exists i, r. split; [|exact Hr]. rewrite setnth_other; [exact Hi|]. intros ->. rewrite H0 in Hi. injection Hi as <-.
      cbn in Hr. congruence.
    + intros d Hd. rewrite setnth_length in Hd. apply T4. exact Hd.
  - assert (v <> VNot) by (intro E; subst v; destruct (C c _ H0) as (C1 & _); destruct (C1 eq_refl); discriminate).
    quiet s c (MkCn ms [] RReading v) (MkCn ms [] (ROffer None) v) (@nil event) W S'; assumption.
  - assert (v <> VNot) by (intro E; subst v; destruct (C c _ H0) as (C1 & _); destruct (C1 eq_refl); discriminate).
    quiet s c (MkCn ms (q :: l) RReading v) (MkCn ms l (ROffer (Some q)) v) (@nil event) W S'; assumption.
  - quiet s c (MkCn ms lf (ROffer (Some q)) VWait) (MkCn ms lf RReading (VReq q HState)) (@nil event) W S'.
  - eapply (tale_cn s _ c _ (MkCn ms lf RReading VWait) []); eauto; try discriminate; try congruence; try (symmetry; apply app_nil_r).
    unfold handed. cbn [hands with_hands with_cn]. apply Forall_app. split.
    + eapply (handed_cn s (with_cn c (MkCn ms lf RReading VWait) s)); [exact G|reflexivity|reflexivity|discriminate].
    + repeat constructor. cbn [fst]. exists (MkCn ms lf RReading VWait). split; [|discriminate].
      apply setnth_same. eapply nth_error_lt. exact H0.
  - destruct (C c _ H0) as (_ & C2 & _). cbn in C2. rewrite (C2 (or_introl eq_refl)) in *.
    quiet s c (MkCn ms [] (ROffer None) VWait) (MkCn ms [] REnd VDec) (@nil event) W S'.
  - quiet s c (MkCn ms lf r (VReq q st)) (MkCn ms lf r (match snd (serve_req c q st) with Some y => VReq q y | None => VWait end))
      [fst (serve_req c q st)] W S'; destruct st; cbn; try discriminate; reflexivity.
  - quiet s c (MkCn ms lf r VDec) (MkCn ms lf r VClosing) (@nil event) W S'.
  - quiet s c (MkCn ms lf r VClosing) (MkCn ms lf r VClose) [EState c StateClosed] W S'.
  - quiet s c (MkCn ms lf r VClose) (MkCn ms lf r VGone) [EClose c] W S'.
  - (* a handler goroutine *)
    pose proof (nth_error_In _ _ H0) as Hin. pose proof (proj1 (Forall_forall _ _) G _ Hin) as (x & X1 & X2). cbn in X1.
    eapply (tale_cn s _ c x x [fst (serve_req c q st)]); [exact W|exact X1|exact X2|exact X2|reflexivity|exact S'|reflexivity
      | | |reflexivity|cbn; symmetry; apply setnth_id; exact X1|reflexivity| |].
    + intro Q. rewrite (H Q) in H0. destruct j; discriminate.
    + unfold handed. cbn [hands cns emits with_hands]. apply Forall_setnth; [exact G|]. cbn. eauto.
    + destruct st; repeat constructor.
    + intro Q. rewrite (H Q) in H0. destruct j; discriminate.
Qed.

Lemma tale_run lim q n sch : tale (srun sch (sstart lim q n)).
Proof.
  apply (srun_inv tale).
  - split; [apply shape_start|]. split; [reflexivity|]. split; [constructor|]. split; [|split; [|split]].
    + intros k p c H Hp. apply nth_error_repeat in H. subst p. discriminate.
    + intros [|c] x Q H; discriminate.
    + intros [|c] x H; discriminate.
    + reflexivity.
  - intros m s s' H E. eapply tale_step; [exact H|eapply sstep_trans; exact E].
Qed.

(** ** Every message is dealt with once, whatever the runner *)
Definition begun (st : stage) : bool := match st with HState | HCall => false | _ => true end.
Definition todo1 (c : nat) (h : nat * Request * option stage) : list Request :=
  match h with
  | (d, q, Some st) => if (d =? c) && negb (begun st) then [q] else []
  | _ => []
  end.
Definition hand_todo (c : nat) (l : list (nat * Request * option stage)) : list Request := flat_map (todo1 c) l.
Definition serve_todo (x : cn) : list Request :=
  match cserve x with VReq q st => if begun st then [] else [q] | _ => [] end.

Lemma perm_setnth {A B} (f : A -> list B) h' : forall l j h, nth_error l j = Some h ->
  Permutation (flat_map f (setnth j h' l) ++ f h) (flat_map f l ++ f h').
Proof.
  induction l as [|y l IH]; intros [|j] h H; cbn in *; try discriminate.
  - injection H as ->. rewrite (Permutation_app_comm (f h' ++ _) (f h)), <- app_assoc. apply Permutation_app_head.
    apply Permutation_app_comm.
  - rewrite <- !app_assoc. apply Permutation_app_head. apply IH. exact H.
Qed.

Definition dealt (s : server) : Prop :=
  shape s
  /\ Forall (fun e => conn_of e < length (cns s)) (trace s)
  /\ Forall (fun h : nat * Request * option stage => fst (fst h) < length (cns s)) (hands s)
  /\ forall c x, nth_error (cns s) c = Some x ->
       Permutation (calls (story c s) ++ hand_todo c (hands s) ++ serve_todo x ++ unread x) (cmsgs x).

Lemma calls_app a b : calls (a ++ b) = calls a ++ calls b.
Proof. apply flat_map_app. Qed.

Lemma story_fresh c s n : Forall (fun e => conn_of e < n) (trace s) -> n <= c -> story c s = [].
Proof.
  intros H L. unfold story. induction H as [|e l H _ IH]; cbn; [reflexivity|].
  destruct (Nat.eqb_spec (conn_of e) c); [lia|exact IH].
Qed.

Lemma hands_fresh c n l : Forall (fun h : nat * Request * option stage => fst (fst h) < n) l -> n <= c -> hand_todo c l = [].
Proof.
  intros H L. induction H as [|[[d q] [st|]] l H _ IH]; cbn; [reflexivity| |exact IH]. cbn in H.
  destruct (Nat.eqb_spec d c); [lia|exact IH].
Qed.


(** Steps that leave the connections and the handlers alone. *)
Lemma dealt_same s s' ev : dealt s -> shape s' -> cns s' = cns s -> hands s' = hands s -> trace s' = trace s ++ ev ->
  Forall (fun e => conn_of e < length (cns s)) ev -> calls ev = [] -> dealt s'.
Proof.
  intros (S & F & G & D) S' Hc Hh Ht Fe Ce. split; [exact S'|]. rewrite Hc, Hh, Ht.
  split; [apply Forall_app; split; assumption|]. split; [exact G|]. intros c x Hx.
  rewrite (story_trace c s s' ev Ht), calls_app.
  assert (E : calls (filter (own c) ev) = []).
  { clear -Ce. induction ev as [|e l IH]; [reflexivity|]. cbn in *. apply app_eq_nil in Ce. destruct Ce as [C1 C2].
    destruct (own c e); cbn; rewrite ?C1; apply IH; exact C2. }
  rewrite E, app_nil_r. apply D. exact Hx.
Qed.

(** A served connection moves on. *)
Lemma dealt_cn s s' c x y ev : dealt s -> shape s' -> nth_error (cns s) c = Some x -> cns s' = setnth c y (cns s) ->
  hands s' = hands s -> trace s' = trace s ++ ev -> Forall (fun e => conn_of e = c) ev -> cmsgs y = cmsgs x ->
  calls ev ++ serve_todo y ++ unread y = serve_todo x ++ unread x -> dealt s'.
Proof.
  intros (S & F & G & D) S' Hc Hn Hh Ht He Hm Hu. pose proof (nth_error_lt _ _ _ Hc) as L.
  split; [exact S'|]. rewrite Hn, Hh, Ht, setnth_length.
  split; [apply Forall_app; split; [exact F|]; eapply Forall_impl; [|exact He]; cbn; intros; lia|].
  split; [exact G|]. intros d z Hd. rewrite (story_trace d s s' ev Ht), calls_app.
  split_nth Hd.
  - rewrite own_all, Hm by exact He. rewrite <- (D c x Hc), <- Hu, <- !app_assoc. apply Permutation_app_head.
    rewrite !app_assoc. do 2 apply Permutation_app_tail. apply Permutation_app_comm.
  - rewrite (own_none c d ev He), app_nil_r by assumption. apply D. exact Hd.
Qed.

Lemma dealt_step s s' : dealt s -> strans s s' -> dealt s'.
Proof.
  intros W T. pose proof W as (S & F & G & D). pose proof S as (A & _ & C).
  pose proof (shape_step s s' S T) as S'. destruct T;
    try (match goal with H : nth_error (loops s) ?k = Some ?p |- _ => assert (L := fun c => about_lt s k p c S H) end).
  - split; [exact S'|]. cbn [cns hands trace with_loop with_new]. rewrite app_length.
    split; [eapply Forall_impl; [|exact F]; cbn; intros; lia|]. split; [eapply Forall_impl; [|exact G]; cbn; intros; lia|].
    intros d x Hd. change (story d (with_loop k (LNew (length (cns s))) (with_new ms s))) with (story d s).
    destruct (Nat.lt_ge_cases d (length (cns s))) as [L'|L'].
    + rewrite nth_error_app1 in Hd by exact L'. apply D. exact Hd.
    + rewrite nth_error_app2 in Hd by exact L'. destruct (d - length (cns s)) as [|e]; cbn in Hd; [|destruct e; discriminate].
      injection Hd as <-. rewrite (story_fresh d s _ F L'), (hands_fresh d _ _ G L'). cbn. apply Permutation_refl.
  - eapply (dealt_same s _ [EState c StateNew]); auto.
  - eapply (dealt_same s _ []); auto. symmetry. apply app_nil_r.
  - eapply (dealt_same s _ []); auto. symmetry. apply app_nil_r.
  - eapply (dealt_same s _ []); auto. symmetry. apply app_nil_r.
  - eapply (dealt_same s _ [EState c StateClosed]); auto.
  - eapply (dealt_same s _ [EClose c]); auto.
  - destruct (A k _ c H eq_refl) as (x' & X1 & X2). rewrite H0 in X1. injection X1 as <-.
    destruct (C c x H0) as (C1 & _ & _). destruct (C1 X2) as (Cr & Cl).
    eapply (dealt_cn s _ c x _ []); [exact W|exact S'|exact H0|reflexivity|reflexivity|symmetry; apply app_nil_r|constructor|reflexivity|].
    unfold serve_todo, unread. rewrite X2, Cr. reflexivity.
  - eapply (dealt_cn s _ c _ _ []); [exact W|exact S'|exact H|reflexivity|reflexivity|symmetry; apply app_nil_r|constructor|reflexivity|reflexivity].
  - eapply (dealt_cn s _ c _ _ []); [exact W|exact S'|exact H|reflexivity|reflexivity|symmetry; apply app_nil_r|constructor|reflexivity|reflexivity].
  - eapply (dealt_cn s _ c _ _ []); [exact W|exact S'|exact H|reflexivity|reflexivity|symmetry; apply app_nil_r|constructor|reflexivity|reflexivity].
  - (* fork *) split; [exact S'|]. cbn [cns hands trace with_hands with_cn]. rewrite setnth_length. split; [exact F|].
    pose proof (nth_error_lt _ _ _ H) as Lc.
    split; [apply Forall_app; split; [exact G|]; repeat constructor; exact Lc|]. intros d z Hd.
    change (story d (with_hands (hands s ++ [(c, q, Some HState)]) (with_cn c (MkCn ms lf RReading VWait) s))) with (story d s).
    unfold hand_todo. rewrite flat_map_app. cbn [flat_map todo1 begun negb andb]. split_nth Hd.
    + rewrite Nat.eqb_refl. eapply Permutation_trans; [|exact (D c _ H)]. cbn. rewrite <- app_assoc. apply Permutation_refl.
    + destruct (Nat.eqb_spec c d); [congruence|]. cbn. rewrite app_nil_r. apply D. exact Hd.
  - eapply (dealt_cn s _ c _ _ []); [exact W|exact S'|exact H|reflexivity|reflexivity|symmetry; apply app_nil_r|constructor|reflexivity|reflexivity].
  - eapply (dealt_cn s _ c _ _ [fst (serve_req c q st)]); [exact W|exact S'|exact H|reflexivity|reflexivity|reflexivity| |reflexivity|].
    + destruct st; repeat constructor.
    + destruct st; reflexivity.
  - eapply (dealt_cn s _ c _ _ []); [exact W|exact S'|exact H|reflexivity|reflexivity|symmetry; apply app_nil_r|constructor|reflexivity|reflexivity].
  - eapply (dealt_cn s _ c _ _ [EState c StateClosed]); [exact W|exact S'|exact H|reflexivity|reflexivity|reflexivity|repeat constructor|reflexivity|reflexivity].
  - eapply (dealt_cn s _ c _ _ [EClose c]); [exact W|exact S'|exact H|reflexivity|reflexivity|reflexivity|repeat constructor|reflexivity|reflexivity].
  - (* a handler moves *)
    assert (Lc : c < length (cns s)).
    { apply nth_error_In in H. eapply Forall_forall in G; [|exact H]. exact G. }
    assert (He : Forall (fun e => conn_of e = c) [fst (serve_req c q st)]) by (destruct st; repeat constructor).
    split; [exact S'|]. cbn [cns hands trace emits with_hands].
    split; [apply Forall_app; split; [exact F|]; eapply Forall_impl; [|exact He]; cbn; intros; lia|].
    split; [apply Forall_setnth; [exact G|exact Lc]|]. intros d z Hd.
    rewrite (story_trace d s _ [fst (serve_req c q st)]) by reflexivity. rewrite calls_app.
    pose proof (perm_setnth (todo1 d) (c, q, snd (serve_req c q st)) _ _ _ H) as P. fold (hand_todo d (hands s)) in P.
    change (flat_map (todo1 d) (setnth j (c, q, snd (serve_req c q st)) (hands s)))
      with (hand_todo d (setnth j (c, q, snd (serve_req c q st)) (hands s))) in P.
    rewrite <- (D d z Hd), <- !app_assoc. apply Permutation_app_head. rewrite !app_assoc. do 2 apply Permutation_app_tail.
    destruct (Nat.eq_dec d c) as [->|N].
    + rewrite own_all by exact He. destruct st; cbn [serve_req fst snd calls flat_map app todo1 begun negb andb] in *;
        rewrite ?Nat.eqb_refl in P; cbn [andb] in P; rewrite ?app_nil_r in P; try exact P.
      * eapply Permutation_app_inv_r. exact P.
      * rewrite <- P. apply (Permutation_app_comm [q]).
    + rewrite (own_none c d _ He N). destruct (Nat.eqb_spec c d) as [|N']; [congruence|].
      cbn [calls flat_map app]. destruct st; cbn [serve_req snd todo1] in *;
        (destruct (Nat.eqb_spec c d); [congruence|]); cbn [andb] in P; rewrite !app_nil_r in P; exact P.
Qed.

Lemma dealt_run lim q n sch : dealt (srun sch (sstart lim q n)).
Proof.
  apply (srun_inv dealt).
  - split; [apply shape_start|]. split; [constructor|]. split; [constructor|]. intros [|c] x H; discriminate.
  - intros m s s' H E. eapply dealt_step; [exact H|eapply sstep_trans; exact E].
Qed.

(** ** Nothing is stuck *)
Definition alive (s : server) : Prop := forall c x, nth_error (cns s) c = Some x ->
  match cserve x with VWait | VReq _ _ => match crcv x with RReading | ROffer _ => True | _ => False end | _ => True end.

Lemma alive_step s s' : alive s -> strans s s' -> alive s'.
Proof.
  intros W T d z Hd. destruct T; cbn [cns with_loop with_new emits with_counter with_cn with_hands] in Hd;
    try (apply (W d z); exact Hd);
    try (split_nth Hd; [|apply (W d z); exact Hd]);
    try (match goal with H : nth_error (cns s) ?c = Some ?x |- _ => pose proof (W c x H) as Wx; cbn in Wx end);
    cbn; auto; try (destruct v; auto; fail).
  - destruct (Nat.lt_ge_cases d (length (cns s))) as [L|L].
    + rewrite nth_error_app1 in Hd by exact L. apply (W d z Hd).
    + rewrite nth_error_app2 in Hd by exact L. destruct (d - length (cns s)) as [|e]; cbn in Hd; [|destruct e; discriminate].
      injection Hd as <-. exact I.
  - destruct (snd (serve_req c q st)); exact Wx.
Qed.

Lemma alive_run lim q n sch : alive (srun sch (sstart lim q n)).
Proof.
  apply (srun_inv alive).
  - intros [|c] x H; discriminate.
  - intros m s s' H E. eapply alive_step; [exact H|eapply sstep_trans; exact E].
Qed.

Lemma settled_loops s k p : shape s -> settled s -> nth_error (loops s) k = Some p -> p = LIdle.
Proof.
  intros (A & _) Q H. destruct p as [|c|c|c n|c|c|c]; [reflexivity|exfalso..].
  all: assert (X : arrival (MLoop k []) s = false) by (cbn; rewrite H; reflexivity).
  all: specialize (Q _ X); cbn in Q; unfold loop_step in Q; rewrite H in Q; try discriminate.
  - destruct (negb (limit s =? 0)%Z && (wrap32 (limit s) <=? n)%Z); discriminate.
  - destruct (A k _ c H eq_refl) as (x & X1 & _). rewrite X1 in Q. discriminate.
Qed.

Lemma settled_cn s c x : alive s -> settled s -> nth_error (cns s) c = Some x -> cserve x = VNot \/ cserve x = VGone.
Proof.
  intros A Q H. specialize (A c x H). destruct x as [ms lf r v]. cbn in *. pose proof (Q (MServe c) eq_refl) as Q1.
  pose proof (Q (MRecv c) eq_refl) as Q2. cbn in Q1, Q2. unfold serve_step in Q1. unfold recv_step in Q2. rewrite H in Q1, Q2.
  destruct v as [| |q st| | | |]; auto; exfalso; try discriminate.
  - destruct r as [| |[q|]|]; try contradiction; try discriminate.
    + destruct lf; discriminate.
    + destruct (sequential s); discriminate.
  - destruct (serve_req c q st); discriminate.
Qed.

Lemma settled_hands s c : settled s -> hand_todo c (hands s) = [].
Proof.
  intro Q. assert (F : forall j h, nth_error (hands s) j = Some h -> snd h = None).
  { intros j [[d q] [st|]] H; [|reflexivity]. specialize (Q (MHand j) eq_refl). cbn in Q. unfold hand_step in Q. rewrite H in Q.
    destruct (serve_req d q st); discriminate. }
  revert F. generalize (hands s). induction l as [|[[d q] o] l IH]; intro F; [reflexivity|].
  cbn [hand_todo flat_map]. specialize (F 0 _ eq_refl) as F0. cbn in F0. subst o. cbn. apply IH.
  intros j h H. apply (F (S j) h H).
Qed.

Lemma settled_calls s c x : dealt s -> alive s -> settled s -> nth_error (cns s) c = Some x -> cserve x <> VNot ->
  Permutation (calls (story c s)) (cmsgs x).
Proof.
  intros (S & _ & _ & D) A Q H N. destruct S as (_ & _ & C). destruct (C c x H) as (_ & C2 & C3).
  destruct (settled_cn s c x A Q H) as [E|E]; [congruence|]. rewrite E in C3.
  specialize (D c x H). rewrite (settled_hands s c Q) in D. unfold serve_todo, unread in D. rewrite E, C3, (C2 (or_intror C3)) in D.
  rewrite !app_nil_r in D. exact D.
Qed.

(** Work left: it goes down with every move but an arrival. *)
Definition stage_work (st : stage) : nat := match st with HState => 5 | HCall => 4 | HReturn => 3 | HFlush => 2 | HIdle => 1 end.
Definition loop_work (p : accepting) : nat :=
  match p with LIdle => 0 | LNew _ => 6 | LLoad _ => 5 | LTest _ _ => 4 | LReject _ => 2 | LRejClose _ => 1 | LSpawn _ => 3 end.
Definition cn_work (x : cn) : nat :=
  10 * length (cleft x)
  + match crcv x with RNot => 6 | RReading => 5 | ROffer (Some _) => 12 | ROffer None => 4 | REnd => 0 end
  + match cserve x with VNot => 9 | VWait => 4 | VReq _ st => 4 + stage_work st | VDec => 3 | VClosing => 2 | VClose => 1 | VGone => 0 end.
Definition hand_work (h : nat * Request * option stage) : nat := match snd h with Some st => stage_work st | None => 0 end.
Fixpoint total {A} (f : A -> nat) (l : list A) : nat := match l with [] => 0 | x :: l' => f x + total f l' end.
Definition work (s : server) : nat := total loop_work (loops s) + total cn_work (cns s) + total hand_work (hands s).

Lemma total_setnth {A} (f : A -> nat) y : forall l n x, nth_error l n = Some x -> total f (setnth n y l) + f x = total f l + f y.
Proof.
  induction l as [|z l IH]; intros [|n] x H; cbn in *; try discriminate.
  - injection H as ->. lia.
  - specialize (IH n x H). lia.
Qed.

Lemma total_app {A} (f : A -> nat) a b : total f (a ++ b) = total f a + total f b.
Proof. induction a; cbn; lia. Qed.

Lemma stage_work_step c q st : match snd (serve_req c q st) with Some y => stage_work y < stage_work st | None => 0 < stage_work st end.
Proof. destruct st; cbn; lia. Qed.

Lemma calm_length m s s' : arrival m s = false -> sstep m s = Some s' -> length (cns s') = length (cns s).
Proof.
  destruct m as [k ms|c|c|j]; cbn [sstep arrival].
  - unfold loop_step. destruct (nth_error (loops s) k) as [[|c|c|c n|c|c|c]|]; try discriminate; intros _;
      try (intro H; injection H as <-; reflexivity).
    + destruct (negb _ && _); intro H; injection H as <-; reflexivity.
    + destruct (nth_error (cns s) c); [|discriminate]. intro H. injection H as <-. cbn. apply setnth_length.
  - intros _. unfold recv_step. destruct (nth_error (cns s) c) as [[ms [|q l] [| |o|] v]|]; try discriminate;
      intro H; injection H as <-; cbn; apply setnth_length.
  - intros _. unfold serve_step. destruct (nth_error (cns s) c) as [[ms lf r v]|]; [|discriminate].
    destruct v as [| |q st| | | |]; try discriminate; try (intro H; injection H as <-; cbn; apply setnth_length).
    + destruct r as [| |[q|]|]; try discriminate; [destruct (sequential s)|]; intro H; injection H as <-; cbn; apply setnth_length.
    + destruct (serve_req c q st). intro H; injection H as <-; cbn; apply setnth_length.
  - intros _. unfold hand_step. destruct (nth_error (hands s) j) as [[[d q] [st|]]|]; try discriminate.
    destruct (serve_req d q st). intro H; injection H as <-. reflexivity.
Qed.

Lemma work_trans s s' : shape s -> strans s s' -> length (cns s') = length (cns s) -> work s' < work s.
Proof.
  intros (A & _ & C) T Len. unfold work.
  destruct T; cbn [loops cns hands with_loop with_new emits with_counter with_cn with_hands] in *;
    try (match goal with H : nth_error (loops s) ?k = Some ?p |- context [setnth ?k ?p' (loops s)] =>
           let X := fresh "X" in pose proof (total_setnth loop_work p' _ _ _ H) as X; cbn [loop_work] in X end);
    try (match goal with H : nth_error (cns s) ?k = Some ?p |- context [setnth ?k ?p' (cns s)] =>
           let X := fresh "X" in pose proof (total_setnth cn_work p' _ _ _ H) as X; unfold cn_work in X at 2 4; cbn [crcv cleft cserve length stage_work] in X end);
    try lia.
  - rewrite app_length in Len. cbn in Len. lia.
  - destruct (A k _ c H eq_refl) as (x' & X1 & X2). rewrite H0 in X1. injection X1 as <-. rewrite X2 in X0.
    destruct (C c x H0) as (C1 & _). rewrite (proj1 (C1 X2)) in X0. lia.
  - rewrite total_app. cbn. lia.
  - pose proof (stage_work_step c q st). destruct (snd (serve_req c q st)); lia.
  - pose proof (total_setnth hand_work (c, q, snd (serve_req c q st)) _ _ _ H) as X. unfold hand_work in X at 2 4. cbn [snd] in X.
    pose proof (stage_work_step c q st). destruct (snd (serve_req c q st)); lia.
Qed.

Lemma work_step s m s' : shape s -> arrival m s = false -> sstep m s = Some s' -> work s' < work s.
Proof. intros S Ar E. apply work_trans; [exact S|eapply sstep_trans; exact E|eapply calm_length; eassumption]. Qed.

Lemma productive_bound : forall sch s, shape s -> productive sch s -> length sch <= work s.
Proof.
  induction sch as [|m sch IH]; intros s S P; cbn [length productive] in *; [lia|].
  destruct P as (Ar & s' & E & P). pose proof (work_step s m s' S Ar E).
  assert (S' : shape s') by (eapply shape_step; [exact S|eapply sstep_trans; exact E]). specialize (IH s' S' P). lia.
Qed.

Lemma productive_app a : forall b s, productive a s -> productive b (srun a s) -> productive (a ++ b) s.
Proof.
  induction a as [|m a IH]; intros b s Pa Pb; [exact Pb|]. cbn [productive app] in *. destruct Pa as (Ar & s' & E & P).
  split; [exact Ar|]. exists s'. split; [exact E|]. apply IH; [exact P|]. cbn in Pb. unfold sact in Pb at 2. rewrite E in Pb. exact Pb.
Qed.

Definition candidates (s : server) : list move :=
  map (fun k => MLoop k []) (seq 0 (length (loops s))) ++ map MRecv (seq 0 (length (cns s)))
  ++ map MServe (seq 0 (length (cns s))) ++ map MHand (seq 0 (length (hands s))).
Definition enabled (s : server) (m : move) : bool :=
  negb (arrival m s) && match sstep m s with Some _ => true | None => false end.

Lemma candidates_complete s m : enabled s m = true -> exists m', In m' (candidates s) /\ enabled s m' = true.
Proof.
  intro H. unfold candidates. destruct m as [k ms|c|c|j].
  - exists (MLoop k []). split.
    + apply in_or_app. left. apply in_map_iff. exists k. split; [reflexivity|]. apply in_seq. split; [lia|]. cbn.
      unfold enabled in H. cbn in H. unfold loop_step in H. destruct (nth_error (loops s) k) eqn:E; [eapply nth_error_lt; exact E|discriminate].
    + unfold enabled in *. cbn in *. unfold loop_step in *. destruct (nth_error (loops s) k) as [[| | | | | |]|]; exact H.
  - exists (MRecv c). split; [|exact H]. apply in_or_app. right. apply in_or_app. left. apply in_map_iff. exists c. split; [reflexivity|].
    apply in_seq. split; [lia|]. unfold enabled in H. cbn in H. unfold recv_step in H.
    destruct (nth_error (cns s) c) eqn:E; [eapply nth_error_lt; exact E|discriminate].
  - exists (MServe c). split; [|exact H]. do 2 (apply in_or_app; right). apply in_or_app. left. apply in_map_iff. exists c. split; [reflexivity|].
    apply in_seq. split; [lia|]. unfold enabled in H. cbn in H. unfold serve_step in H.
    destruct (nth_error (cns s) c) eqn:E; [eapply nth_error_lt; exact E|discriminate].
  - exists (MHand j). split; [|exact H]. do 3 (apply in_or_app; right). apply in_map_iff. exists j. split; [reflexivity|].
    apply in_seq. split; [lia|]. unfold enabled in H. cbn in H. unfold hand_step in H.
    destruct (nth_error (hands s) j) eqn:E; [eapply nth_error_lt; exact E|discriminate].
Qed.

Lemma settled_or s : settled s \/ exists m s', arrival m s = false /\ sstep m s = Some s'.
Proof.
  destruct (existsb (enabled s) (candidates s)) eqn:E.
  - right. apply existsb_exists in E. destruct E as (m & _ & H). unfold enabled in H. apply andb_prop in H. destruct H as [H1 H2].
    exists m. destruct (sstep m s) as [s'|]; [|discriminate]. exists s'. split; [|reflexivity]. destruct (arrival m s); [discriminate|reflexivity].
  - left. intros m Ar. destruct (sstep m s) as [s'|] eqn:H; [|reflexivity]. exfalso.
    destruct (candidates_complete s m) as (m' & I1 & I2); [unfold enabled; rewrite Ar, H; reflexivity|].
    assert (X : existsb (enabled s) (candidates s) = true) by (apply existsb_exists; eauto). congruence.
Qed.

Lemma settles : forall n s, work s <= n -> shape s -> exists sch, productive sch s /\ settled (srun sch s).
Proof.
  induction n as [|n IH]; intros s W S; (destruct (settled_or s) as [Q|(m & s' & Ar & E)]; [exists []; split; [exact I|exact Q]|]);
    pose proof (work_step s m s' S Ar E); [lia|].
  assert (S' : shape s') by (eapply shape_step; [exact S|eapply sstep_trans; exact E]).
  destruct (IH s' ltac:(lia) S') as (sch & P & Q). exists (m :: sch). split.
  - cbn. split; [exact Ar|]. exists s'. auto.
  - cbn. unfold sact at 2. rewrite E. exact Q.
Qed.

(** ** Turned away *)
Definition rejecting (c : nat) (lim : Z) (p : accepting) : Prop :=
  match p with
  | LTest d n => d = c -> lim <> 0%Z /\ (wrap32 lim <= n)%Z
  | LReject _ | LRejClose _ | LIdle => True
  | LNew d | LLoad d | LSpawn d => d <> c
  end.
Definition turned (c : nat) (s : server) : Prop :=
  tale s /\ (exists x, nth_error (cns s) c = Some x /\ cserve x = VNot)
  /\ forall k p, nth_error (loops s) k = Some p -> rejecting c (limit s) p.

Lemma turned_step c s s' : turned c s -> strans s s' -> turned c s'.
Proof.
  intros (W & (x & X1 & X2) & R) T. pose proof (limit_step s s' T) as (L & _).
  split; [eapply tale_step; eassumption|]. rewrite L. pose proof W as ((_ & _ & C) & _).
  assert (Lc := nth_error_lt _ _ _ X1). destruct (proj1 (C c x X1) X2) as (Cr & _).
  destruct T; cbn [loops cns with_loop with_new emits with_counter with_cn with_hands];
    try (match goal with H : nth_error (cns s) ?d = Some _ |- _ => assert (Nd : c <> d) by
      (intros ->; rewrite X1 in H; injection H as ->; cbn in *; congruence) end);
    try (split; [exists x; rewrite ?setnth_other by assumption; auto; fail|]; try exact R);
    try (intros i p Hi; split_nth Hi; [|eapply R; exact Hi]; cbn; match goal with H : nth_error (loops s) _ = Some _ |- _ => pose proof (R _ _ H) as Rk; cbn in Rk end; try exact I; try exact Rk; try congruence).
  - split; [exists x; rewrite nth_error_app1 by exact Lc; auto|]. intros i p Hi. split_nth Hi; [|eapply R; exact Hi]. cbn. lia.
  - intros ->. destruct (Rk eq_refl). destruct H0; [congruence|lia].
  - assert (Nd : c <> c0) by (intros ->; pose proof (R _ _ H) as Rk; cbn in Rk; congruence).
    split; [exists x; rewrite setnth_other by exact Nd; auto|]. intros i p Hi. split_nth Hi; [exact I|eapply R; exact Hi].
Qed.

Lemma turned_run c s sch : turned c s -> turned c (srun sch s).
Proof.
  intro H. apply (srun_inv (turned c)); [exact H|]. intros m t t' P E. eapply turned_step; [exact P|eapply sstep_trans; exact E].
Qed.

Lemma turned_story c s : turned c s -> begins (story c s) (rejected_story c).
Proof.
  intros ((_ & _ & _ & T1 & _ & T3 & _) & (x & X1 & X2) & R).
  destruct (T3 c x X1 X2) as [(k & p & Hk & Hp)|E]; [|exists []; rewrite app_nil_r; exact E].
  specialize (R k p Hk). rewrite (T1 k p c Hk Hp). destruct p as [|d|d|d n|d|d|d]; cbn in *; try congruence.
  - exists [EState c StateClosed; EClose c]. reflexivity.
  - exists [EState c StateClosed; EClose c]. reflexivity.
  - exists [EClose c]. reflexivity.
Qed.

(** A connection whose count is read at the limit. *)
Lemma load_turned s k c ms : tale s -> nth_error (loops s) k = Some (LLoad c) -> limit s <> 0%Z ->
  (wrap32 (limit s) <= counter s)%Z -> turned c (srun [MLoop k ms] s).
Proof.
  intros W H N L. change (srun [MLoop k ms] s) with (sact s (MLoop k ms)). unfold sact.
  assert (E : sstep (MLoop k ms) s = Some (with_loop k (LTest c (counter s)) s)) by (cbn; unfold loop_step; rewrite H; reflexivity).
  rewrite E. pose proof W as (S & _). pose proof S as (A & B & _).
  split; [eapply tale_step; [exact W|eapply sstep_trans; exact E]|].
  split; [exact (A k _ c H eq_refl)|]. cbn [loops limit with_loop]. intros i p Hi. split_nth Hi; [cbn; auto|].
  assert (X : about p <> Some c) by (intro Hp; apply H0; eapply B; [exact Hi|exact H|exact Hp|reflexivity]).
  destruct p; cbn in *; auto; try congruence. 
Qed.

Lemma at_limit_turned m q sch sch' ms c : let s := srun sch (sstart (Z.of_nat m) q 1) in
  (0 < Z.of_nat m < 2147483648)%Z -> nth_error (loops s) 0 = Some (LLoad c) -> served s = m ->
  begins (story c (srun sch' (srun [MLoop 0 ms] s))) (rejected_story c).
Proof.
  intros s M H V. apply turned_story, turned_run.
  assert (B : bounded m s) by (apply bounded_run; exact M). destruct B as ((_ & Bc) & Bl & _ & Ba & _).
  pose proof (served_le_accounted s) as Hs. apply load_turned; [apply tale_run|exact H|rewrite Bl; lia|].
  rewrite Bc, Bl, !wrap32_small; lia.
Qed.

(** ** A limit that rejects everybody *)
Definition refusing (s : server) : Prop :=
  tale s /\ (limit s <> 0 /\ wrap32 (limit s) <= 0)%Z /\ counter s = 0%Z
  /\ Forall (fun x => cserve x = VNot) (cns s)
  /\ forall k p, nth_error (loops s) k = Some p -> match p with LTest _ n => n = 0%Z | LSpawn _ => False | _ => True end.

Lemma refusing_step s s' : refusing s -> strans s s' -> refusing s'.
Proof.
  intros (W & L & Z & F & R) T. pose proof (limit_step s s' T) as (L' & _).
  split; [eapply tale_step; eassumption|]. rewrite L'. split; [exact L|]. pose proof W as ((_ & _ & C) & _).
  assert (Never : forall c x, nth_error (cns s) c = Some x -> cserve x = VNot /\ crcv x = RNot).
  { intros c x H. assert (V : cserve x = VNot) by (eapply Forall_forall in F; [exact F|eapply nth_error_In; exact H]).
    split; [exact V|]. apply (C c x H). exact V. }
  destruct T; cbn [loops cns counter with_loop with_new emits with_counter with_cn with_hands];
    try (match goal with H : nth_error (cns s) ?d = Some _ |- _ =>
           let N1 := fresh in let N2 := fresh in destruct (Never _ _ H) as (N1 & N2); cbn in N1, N2; try discriminate N1; try discriminate N2 end);
    try (split; [exact Z|]; split; [first [exact F|apply Forall_app; split; [exact F|repeat constructor]]|];
         intros i p Hi; split_nth Hi; [cbn; auto|eapply R; exact Hi]).
  - pose proof (R _ _ H) as ->. destruct H0; [tauto|lia].
  - destruct (R _ _ H).
  - split; [exact Z|]. split; [exact F|exact R].
Qed.

Lemma refusing_run lim q n sch : (lim <> 0 /\ wrap32 lim <= 0)%Z -> refusing (srun sch (sstart lim q n)).
Proof.
  intro L. apply (srun_inv refusing).
  - split; [apply (tale_run lim q n [])|]. split; [exact L|]. split; [reflexivity|]. split; [constructor|].
    intros k p H. apply nth_error_repeat in H. subst p. exact I.
  - intros m s s' H E. eapply refusing_step; [exact H|eapply sstep_trans; exact E].
Qed.

Lemma refusing_story s c : refusing s -> begins (story c s) (rejected_story c).
Proof.
  intros ((S & _ & _ & T1 & _ & T3 & T4) & _ & _ & F & R). destruct (nth_error (cns s) c) as [x|] eqn:H.
  - assert (V : cserve x = VNot) by (eapply Forall_forall in F; [exact F|eapply nth_error_In; exact H]).
    destruct (T3 c x H V) as [(k & p & Hk & Hp)|E]; [|exists []; rewrite app_nil_r; exact E].
    rewrite (T1 k p c Hk Hp). specialize (R k p Hk). destruct p; cbn in *; try contradiction; eexists; reflexivity.
  - rewrite T4; [eexists; reflexivity|]. apply nth_error_None. exact H.
Qed.

(** ** No limit: everybody is served *)
Definition welcome (s : server) : Prop :=
  shape s /\ limit s = 0%Z
  /\ (forall k p, nth_error (loops s) k = Some p -> match p with LReject _ | LRejClose _ => False | _ => True end)
  /\ (forall c x, nth_error (cns s) c = Some x -> cserve x = VNot ->
        exists k p, nth_error (loops s) k = Some p /\ about p = Some c).

Lemma welcome_step s s' : welcome s -> strans s s' -> welcome s'.
Proof.
  intros (S & L & R & V) T. pose proof (limit_step s s' T) as (L' & _).
  split; [eapply shape_step; eassumption|]. rewrite L'. split; [exact L|].
  assert (Keep : forall k p p', nth_error (loops s) k = Some p -> about p' = about p ->
    forall c x, nth_error (cns s) c = Some x -> cserve x = VNot ->
    exists i r, nth_error (setnth k p' (loops s)) i = Some r /\ about r = Some c).
  { intros k p p' Hk E c x Hc Hx. destruct (V c x Hc Hx) as (i & r & Hi & Hr). destruct (Nat.eq_dec i k) as [->|N].
    - exists k, p'. split; [apply setnth_same; eapply nth_error_lt; exact Hk|congruence].
    - exists i, r. rewrite setnth_other by exact N. auto. }
  destruct T; cbn [loops cns with_loop with_new emits with_counter with_cn with_hands];
    try (exfalso; exact (R _ _ H)); try (exfalso; congruence).
  - split; [intros i p Hi; split_nth Hi; [exact I|eapply R; exact Hi]|]. intros d x Hd Hx.
    destruct (Nat.lt_ge_cases d (length (cns s))) as [Ld|Ld].
    + rewrite nth_error_app1 in Hd by exact Ld. destruct (V d x Hd Hx) as (i & r & Hi & Hr).
      exists i, r. split; [|exact Hr]. rewrite setnth_other; [exact Hi|]. intros ->. rewrite H in Hi. injection Hi as <-. discriminate.
    + rewrite nth_error_app2 in Hd by exact Ld. destruct (d - length (cns s)) as [|e] eqn:De; cbn in Hd; [|destruct e; discriminate].
      exists k, (LNew (length (cns s))). split; [apply setnth_same; eapply nth_error_lt; exact H|]. cbn. f_equal. lia.
  - split; [intros i p Hi; split_nth Hi; [exact I|eapply R; exact Hi]|]. eapply Keep; [exact H|reflexivity].
  - split; [intros i p Hi; split_nth Hi; [exact I|eapply R; exact Hi]|]. eapply Keep; [exact H|reflexivity].
  - split; [intros i p Hi; split_nth Hi; [exact I|eapply R; exact Hi]|]. eapply Keep; [exact H|reflexivity].
  - split; [intros i p Hi; split_nth Hi; [exact I|eapply R; exact Hi]|]. intros d z Hd Hz. split_nth Hd; [discriminate|].
    destruct (V d z Hd Hz) as (i & r & Hi & Hr). exists i, r. split; [|exact Hr]. rewrite setnth_other; [exact Hi|].
    intros ->. rewrite H in Hi. injection Hi as <-. cbn in Hr. congruence.
  - split; [exact R|]. intros d z Hd Hz. split_nth Hd; [|eauto]. cbn in Hz. subst v. destruct S as (_ & _ & C).
    destruct (proj1 (C c _ H) eq_refl); discriminate.
  - split; [exact R|]. intros d z Hd Hz. split_nth Hd; [|eauto]. cbn in Hz. subst v. destruct S as (_ & _ & C).
    destruct (proj1 (C c _ H) eq_refl); discriminate.
  - split; [exact R|]. intros d z Hd Hz. split_nth Hd; [discriminate|eauto].
  - split; [exact R|]. intros d z Hd Hz. split_nth Hd; [discriminate|eauto].
  - split; [exact R|]. intros d z Hd Hz. split_nth Hd; [discriminate|eauto].
  - split; [exact R|]. intros d z Hd Hz. split_nth Hd; [|eauto]. cbn in Hz. destruct (snd (serve_req c q st)); discriminate.
  - split; [exact R|]. intros d z Hd Hz. split_nth Hd; [discriminate|eauto].
  - split; [exact R|]. intros d z Hd Hz. split_nth Hd; [discriminate|eauto].
  - split; [exact R|]. intros d z Hd Hz. split_nth Hd; [discriminate|eauto].
  - split; [exact R|exact V].
Qed.

Lemma welcome_run q n sch : welcome (srun sch (sstart 0 q n)).
Proof.
  apply (srun_inv welcome).
  - split; [apply shape_start|]. split; [reflexivity|]. split.
    + intros k p H. apply nth_error_repeat in H. subst p. exact I.
    + intros [|c] x H; discriminate.
  - intros m s s' H E. eapply welcome_step; [exact H|eapply sstep_trans; exact E].
Qed.

Lemma welcome_settled s c x : welcome s -> alive s -> settled s -> nth_error (cns s) c = Some x -> cserve x = VGone.
Proof.
  intros (S & _ & _ & V) A Q H. destruct (settled_cn s c x A Q H) as [E|E]; [|exact E].
  destruct (V c x H E) as (k & p & Hk & Hp). rewrite (settled_loops s k p S Q Hk) in Hp. discriminate.
Qed.

(** ** Two accept loops *)
Definition idle_cn : cn := MkCn [] [] RReading VWait.

Lemma setnth_end {A} (x y : A) : forall l, setnth (length l) y (l ++ [x]) = l ++ [y].
Proof. induction l as [|z l IH]; cbn; [reflexivity|f_equal; exact IH]. Qed.
Lemma setnth_end2 {A} (x x' y : A) : forall l, setnth (length l) y (l ++ [x; x']) = l ++ [y; x'].
Proof. induction l as [|z l IH]; cbn; [reflexivity|f_equal; exact IH]. Qed.
Lemma nth_error_end {A} (x : A) l : nth_error (l ++ [x]) (length l) = Some x.
Proof. rewrite nth_error_app2, Nat.sub_diag by lia. reflexivity. Qed.
Lemma nth_error_end2 {A} (x y : A) l : nth_error (l ++ [x; y]) (length l) = Some x.
Proof. rewrite nth_error_app2, Nat.sub_diag by lia. reflexivity. Qed.

Definition full_of (m : Z) (q : bool) (j : nat) (tr : list event) : server :=
  MkServer m q (Z.of_nat j) [LIdle; LIdle] (repeat idle_cn j) [] tr.

Lemma repeat_end {A} (x : A) n : repeat x n ++ [x] = repeat x (S n).
Proof. induction n as [|n IH]; [reflexivity|]. cbn [repeat app]. rewrite IH. reflexivity. Qed.

Definition accept_moves : list move := repeat (MLoop 0 []) 5.

Lemma test_passes m n : (0 < m < 2147483648)%Z -> (0 <= n < m)%Z -> negb (m =? 0)%Z && (wrap32 m <=? n)%Z = false.
Proof. intros M N. rewrite (wrap32_small m) by lia. destruct (Z.eqb_spec m 0), (Z.leb_spec m n); cbn; lia || reflexivity. Qed.

Lemma accept_one m q j tr : (0 < m < 2147483648)%Z -> (Z.of_nat j < m)%Z ->
  exists tr', srun accept_moves (full_of m q j tr) = full_of m q (S j) tr'.
Proof.
  intros M J. exists (tr ++ [EState j StateNew]). unfold accept_moves, full_of. cbn [repeat srun fold_left].
  unfold sact. cbn [sstep loop_step loops nth_error with_loop with_new setnth cns limit counter sequential hands trace emits with_counter with_cn].
  rewrite test_passes by lia.
  cbn [sstep loop_step loops nth_error with_loop with_new setnth cns limit counter sequential hands trace emits with_counter with_cn].
  replace (length (repeat idle_cn j)) with j by (symmetry; apply repeat_length).
  assert (N : nth_error (repeat idle_cn j ++ [MkCn [] [] RNot VNot]) j = Some (MkCn [] [] RNot VNot)).
  { rewrite <- (repeat_length idle_cn j) at 2. apply nth_error_end. }
  rewrite N. cbn [cmsgs cleft with_loop with_cn setnth loops cns limit counter sequential hands trace].
  assert (E : setnth j idle_cn (repeat idle_cn j ++ [MkCn [] [] RNot VNot]) = repeat idle_cn (S j)).
  { rewrite <- (repeat_length idle_cn j) at 1. rewrite setnth_end. apply repeat_end. }
  cbv [with_loop with_cn with_counter with_new emits limit sequential counter loops cns hands trace]. cbn [setnth].
  unfold idle_cn in E at 1. rewrite E.
  rewrite wrap32_small by lia.
  f_equal.
  lia.
Qed.

Fixpoint accept_times (n : nat) : list move := match n with O => [] | S n' => accept_times n' ++ accept_moves end.

Lemma accept_many m q n : (0 < m < 2147483648)%Z -> (Z.of_nat n <= m)%Z ->
  exists tr, srun (accept_times n) (sstart m q 2) = full_of m q n tr.
Proof.
  intros M. induction n as [|n IH]; intro N; [exists []; reflexivity|].
  destruct (IH ltac:(lia)) as (tr & E). destruct (accept_one m q n tr M ltac:(lia)) as (tr' & E').
  exists tr'. cbn [accept_times]. rewrite srun_app, E. exact E'.
Qed.

Definition both_load : list move := [MLoop 0 []; MLoop 0 []; MLoop 0 []; MLoop 1 []; MLoop 1 []; MLoop 1 []].
Definition overtake : list move :=
  [MLoop 0 []; MLoop 0 []; MLoop 0 []; MLoop 1 []; MLoop 1 []; MLoop 1 []; MLoop 0 []; MLoop 1 []; MLoop 0 []; MLoop 1 []].

Lemma act_pass s k ms c n : nth_error (loops s) k = Some (LTest c n) ->
  negb (limit s =? 0)%Z && (wrap32 (limit s) <=? n)%Z = false ->
  sact s (MLoop k ms) = with_counter (counter s + 1) (with_loop k (LSpawn c) s).
Proof. intros H T. unfold sact. cbn [sstep]. unfold loop_step. rewrite H, T. reflexivity. Qed.

Lemma act_spawn s k ms c x : nth_error (loops s) k = Some (LSpawn c) -> nth_error (cns s) c = Some x ->
  sact s (MLoop k ms) = with_loop k LIdle (with_cn c (MkCn (cmsgs x) (cleft x) RReading VWait) s).
Proof. intros H T. unfold sact. cbn [sstep]. unfold loop_step. rewrite H, T. reflexivity. Qed.

Lemma overtaken m q j tr : (0 < m < 2147483648)%Z -> (Z.of_nat j < m)%Z -> served (srun overtake (full_of m q j tr)) = S (S j).
Proof.
  intros M J. change overtake with (both_load ++ [MLoop 0 []; MLoop 1 []; MLoop 0 []; MLoop 1 []]). rewrite srun_app. unfold full_of.
  set (R := repeat idle_cn j). assert (LR : length R = j) by apply repeat_length.
  set (n := MkCn [] [] RNot VNot). set (v := MkCn [] [] RReading VWait).
  assert (E : exists tr', srun both_load
      (MkServer m q (Z.of_nat j) [LIdle; LIdle] R [] tr)
    = MkServer m q (Z.of_nat j) [LTest (length R) (Z.of_nat j); LTest (length (R ++ [n])) (Z.of_nat j)] ((R ++ [n]) ++ [n]) [] tr')
    by (eexists; cbv -[length app Z.of_nat R n]; reflexivity).
  destruct E as [tr' E]. rewrite E. clear E. cbn [srun fold_left].
  rewrite (act_pass (MkServer _ _ _ _ _ _ _) 0 _ (length R) (Z.of_nat j)) by (try reflexivity; cbn [limit]; apply test_passes; lia).
  cbv [with_loop with_cn with_counter limit sequential counter loops cns hands trace]. cbn [setnth].
  rewrite (act_pass (MkServer _ _ _ _ _ _ _) 1 _ (length (R ++ [n])) (Z.of_nat j)) by (try reflexivity; cbn [limit]; apply test_passes; lia).
  cbv [with_loop with_cn with_counter limit sequential counter loops cns hands trace]. cbn [setnth].
  rewrite (act_spawn (MkServer _ _ _ _ _ _ _) 0 _ (length R) n) by (try reflexivity; cbn [cns]; rewrite <- app_assoc; apply nth_error_end2).
  cbv [with_loop with_cn with_counter limit sequential counter loops cns hands trace]. cbn [setnth cmsgs cleft n].
  assert (E1 : setnth (length R) v ((R ++ [n]) ++ [n]) = (R ++ [v]) ++ [n]) by (rewrite <- !app_assoc; apply setnth_end2).
  assert (E2 : length (R ++ [n]) = length (R ++ [v])) by (rewrite !app_length; reflexivity).
  fold v. fold n. rewrite E1, E2.
  rewrite (act_spawn (MkServer _ _ _ _ _ _ _) 1 _ (length (R ++ [v])) n) by (try reflexivity; apply nth_error_end).
  cbv [with_loop with_cn with_counter limit sequential counter loops cns hands trace]. cbn [setnth cmsgs cleft n]. fold v. fold n.
  rewrite setnth_end. unfold served. cbn [cns]. rewrite !filter_app, !app_length.
  assert (E : length (filter being_served R) = j).
  { unfold R. clear. induction j; cbn; auto. }
  rewrite E. cbn. lia.
Qed.

Lemma two_loops_exceed m q : (0 < m < 2147483648)%Z -> exists sch, Z.of_nat (served (srun sch (sstart m q 2))) = (m + 1)%Z.
Proof.
  intro M. destruct (accept_many m q (Z.to_nat (m - 1)) M ltac:(lia)) as (tr & E).
  exists (accept_times (Z.to_nat (m - 1)) ++ overtake). rewrite srun_app, E, overtaken by lia. lia.
Qed.

(** ** After the last connection has ended *)
Lemma settled_accounted s : shape s -> alive s -> settled s -> accounted s = 0.
Proof.
  intros S A Q. unfold accounted.
  assert (E1 : filter counted (cns s) = []).
  { pose proof (fun c x => settled_cn s c x A Q) as C. revert C. generalize (cns s). induction l as [|x l IH]; intro C; [reflexivity|].
    cbn. assert (X : counted x = false) by (unfold counted; destruct (C 0 x eq_refl) as [->| ->]; reflexivity). rewrite X.
    apply IH. intros c y H. apply (C (Datatypes.S c) y H). }
  assert (E2 : filter spawning (loops s) = []).
  { pose proof (fun k p => settled_loops s k p S Q) as C. revert C. generalize (loops s). induction l as [|x l IH]; intro C; [reflexivity|].
    cbn. rewrite (C 0 x eq_refl). cbn. apply IH. intros c y H. apply (C (Datatypes.S c) y H). }
  rewrite E1, E2. reflexivity.
Qed.

Lemma setnth_setnth {A} (x y : A) : forall l n, setnth n x (setnth n y l) = setnth n x l.
Proof. induction l as [|z l IH]; intros [|n]; cbn; auto. f_equal. apply IH. Qed.

Lemma accepts_when_low s k ms : nth_error (loops s) k = Some LIdle -> (counter s < wrap32 (limit s))%Z \/ limit s = 0%Z ->
  nth_error (cns (srun (repeat (MLoop k ms) 5) s)) (length (cns s)) = Some (MkCn ms ms RReading VWait).
Proof.
  intros H L. pose proof (nth_error_lt _ _ _ H) as K. cbn [repeat srun fold_left].
  unfold sact at 5. cbn [sstep]. unfold loop_step at 1. rewrite H.
  unfold sact at 4. cbn [sstep]. unfold loop_step at 1.
  cbn [loops with_loop with_new]. rewrite setnth_same by exact K.
  unfold sact at 3. cbn [sstep]. unfold loop_step at 1.
  cbn [loops with_loop with_new emits]. rewrite setnth_same by (rewrite !setnth_length; exact K).
  unfold sact at 2. cbn [sstep]. unfold loop_step at 1.
  cbn [loops with_loop with_new emits counter limit]. rewrite setnth_same by (rewrite !setnth_length; exact K).
  assert (E : negb (limit s =? 0)%Z && (wrap32 (limit s) <=? counter s)%Z = false).
  { destruct (Z.eqb_spec (limit s) 0); [reflexivity|]. cbn. destruct L; [|congruence]. destruct (Z.leb_spec (wrap32 (limit s)) (counter s)); [lia|reflexivity]. }
  rewrite E. unfold sact. cbn [sstep]. unfold loop_step at 1.
  cbn [loops with_loop with_new emits counter limit with_counter cns]. rewrite setnth_same by (rewrite !setnth_length; exact K).
  rewrite nth_error_end. cbn [cns with_loop with_cn with_counter emits with_new cmsgs cleft].
  rewrite setnth_end, nth_error_end. reflexivity.
Qed.

(** ** Life cycles *)
Fixpoint lives_end (p : option cstate) (l : list cstate) : option cstate := match l with [] => p | x :: l' => lives_end (Some x) l' end.
Lemma lives_app : forall a b p, lives p (a ++ b) = lives p a && lives (lives_end p a) b.
Proof. induction a as [|x a IH]; intros b p; [reflexivity|]. cbn. rewrite IH, andb_assoc. reflexivity. Qed.

Lemma lives_prefix a b p : lives p (a ++ b) = true -> lives p a = true.
Proof. rewrite lives_app. intro H. apply andb_prop in H. apply H. Qed.

Lemma states_app a b : states (a ++ b) = states a ++ states b.
Proof. apply flat_map_app. Qed.

Lemma lives_requests c : forall ms p, p = Some StateNew \/ p = Some StateIdle ->
  lives p (states (flat_map (request_story c) ms ++ ending c)) = true.
Proof.
  induction ms as [|q ms IH]; intros p Hp.
  - destruct Hp; subst p; reflexivity.
  - cbn [flat_map]. rewrite <- app_assoc, states_app, lives_app. apply andb_true_intro. split.
    + cbn. destruct Hp; subst p; destruct (Header_Type (Request_Header q) =? 0)%N; reflexivity.
    + cbn. destruct (Header_Type (Request_Header q) =? 0)%N; apply IH; auto.
Qed.

Lemma lives_served c ms : lives None (states (served_story c ms)) = true.
Proof. cbn [served_story states flat_map app lives life andb]. apply (lives_requests c ms (Some StateNew)). auto. Qed.

Lemma story_or lim n sch c : let s := srun sch (sstart lim true n) in
  (exists ms, sent c s ms /\ begins (story c s) (served_story c ms)) \/ begins (story c s) (rejected_story c).
Proof.
  intro s. pose proof (tale_run lim true n sch) as W. fold s in W. destruct W as (S & _ & _ & T1 & T2 & T3 & T4).
  assert (Q : sequential s = true).
  { apply (srun_inv (fun s => sequential s = true)); [reflexivity|]. intros m t t' E1 E2. apply sstep_trans, limit_step in E2.
    destruct E2 as (_ & E2 & _). congruence. }
  destruct (nth_error (cns s) c) as [x|] eqn:H.
  - assert (D : {cserve x = VNot} + {cserve x <> VNot}) by (destruct (cserve x); auto; right; discriminate). destruct D as [E|E].
    + destruct (T3 c x H E) as [(k & p & Hk & Hp)|Hr]; [|right; exists []; rewrite app_nil_r; exact Hr].
      right. rewrite (T1 k p c Hk Hp). destruct p; cbn; eexists; reflexivity.
    + left. exists (cmsgs x). split; [exists x; auto|]. exists (future c x). apply T2; assumption.
  - right. rewrite T4 by (apply nth_error_None; exact H). eexists. reflexivity.
Qed.

Lemma served_calls c : forall ms, calls (served_story c ms) = ms.
Proof.
  intro ms. unfold served_story. cbn [calls flat_map app]. fold (calls (flat_map (request_story c) ms ++ ending c)).
  rewrite calls_app. cbn. rewrite app_nil_r. induction ms as [|q ms IH]; [reflexivity|].
  cbn [flat_map]. rewrite calls_app, IH. reflexivity.
Qed.

Lemma begins_calls a b : begins a b -> begins (calls a) (calls b).
Proof. intros [t <-]. rewrite calls_app. exists (calls t). reflexivity. Qed.

Lemma sequential_run lim q n sch : sequential (srun sch (sstart lim q n)) = q.
Proof.
  apply (srun_inv (fun s => sequential s = q)); [reflexivity|]. intros m t t' E1 E2. apply sstep_trans, limit_step in E2.
  destruct E2 as (_ & E2 & _). congruence.
Qed.

Lemma story_settled lim n sch c ms : let s := srun sch (sstart lim true n) in
  settled s -> sent c s ms -> story c s = served_story c ms \/ story c s = rejected_story c.
Proof.
  intros s Q (x & H & <-). pose proof (tale_run lim true n sch) as W. fold s in W. destruct W as (S & _ & _ & T1 & T2 & T3 & _).
  destruct (settled_cn s c x (alive_run _ _ _ _) Q H) as [E|E].
  - right. destruct (T3 c x H E) as [(k & p & Hk & Hp)|Hr]; [|exact Hr]. rewrite (settled_loops s k p S Q Hk) in Hp. discriminate.
  - left. assert (X := T2 c x (sequential_run _ _ _ _) H). rewrite E in X. specialize (X ltac:(discriminate)).
    unfold future in X. rewrite E, app_nil_r in X. exact X.
Qed.

Lemma story_settled_all n sch c ms : let s := srun sch (sstart 0 true n) in
  settled s -> sent c s ms -> story c s = served_story c ms.
Proof.
  intros s Q (x & H & <-). pose proof (tale_run 0 true n sch) as W. fold s in W. destruct W as (S & _ & _ & T1 & T2 & T3 & _).
  pose proof (welcome_settled s c x (welcome_run _ _ _) (alive_run _ _ _ _) Q H) as E.
  assert (X := T2 c x (sequential_run _ _ _ _) H). rewrite E in X. specialize (X ltac:(discriminate)).
  unfold future in X. rewrite E, app_nil_r in X. exact X.
Qed.

(** ** Handlers of their own: closed before handled *)
Definition late_state (ms l : list Request) (hs : list (nat * Request * option stage)) (tr : list event) : server :=
  MkServer 0 false 1 [LIdle] [MkCn ms l RReading VWait] hs tr.
Definition gone_state (ms : list Request) (hs : list (nat * Request * option stage)) (tr : list event) : server :=
  MkServer 0 false 0 [LIdle] [MkCn ms [] REnd VGone] hs tr.

Lemma fork_all ms : forall l hs tr,
  srun (flat_map (fun _ => [MRecv 0; MServe 0]) l) (late_state ms l hs tr)
  = late_state ms [] (hs ++ map (fun q => (0, q, Some HState)) l) tr.
Proof.
  induction l as [|q l IH]; intros hs tr; [cbn; rewrite app_nil_r; reflexivity|].
  cbn [flat_map]. rewrite srun_app.
  assert (E : srun [MRecv 0; MServe 0] (late_state ms (q :: l) hs tr) = late_state ms l (hs ++ [(0, q, Some HState)]) tr) by reflexivity.
  rewrite E, IH, <- app_assoc. reflexivity.
Qed.

Lemma setnth_mid {A} (x y : A) l : forall d, setnth (length d) y (d ++ x :: l) = d ++ y :: l.
Proof. induction d as [|z d IH]; cbn; [reflexivity|f_equal; exact IH]. Qed.
Lemma nth_error_mid {A} (x : A) l d : nth_error (d ++ x :: l) (length d) = Some x.
Proof. rewrite nth_error_app2, Nat.sub_diag by lia. reflexivity. Qed.

Lemma hand_once ms d q st l tr :
  srun [MHand (length d)] (gone_state ms (d ++ (0, q, Some st) :: l) tr)
  = gone_state ms (d ++ (0, q, snd (serve_req 0 q st)) :: l) (tr ++ [fst (serve_req 0 q st)]).
Proof.
  change (srun [?m] ?s) with (sact s m). unfold sact. cbn [sstep]. unfold hand_step.
  cbn [gone_state hands]. rewrite nth_error_mid. destruct (serve_req 0 q st) as [e st'].
  unfold emits, with_hands. cbn [hands limit sequential counter loops cns trace fst snd gone_state]. rewrite setnth_mid. reflexivity.
Qed.

Lemma hands_all ms : forall l d tr,
  srun (flat_map (fun j => repeat (MHand j) 5) (seq (length d) (length l)))
    (gone_state ms (d ++ map (fun q => (0, q, Some HState)) l) tr)
  = gone_state ms (d ++ map (fun q => (0, q, None)) l) (tr ++ flat_map (request_story 0) l).
Proof.
  induction l as [|q l IH]; intros d tr; [cbn; rewrite !app_nil_r; reflexivity|].
  cbn [length seq flat_map map]. rewrite srun_app.
  assert (E : srun (repeat (MHand (length d)) 5) (gone_state ms (d ++ (0, q, Some HState) :: map (fun q => (0, q, Some HState)) l) tr)
    = gone_state ms ((d ++ [(0, q, None)]) ++ map (fun q => (0, q, Some HState)) l) (tr ++ request_story 0 q)).
  { cbn [repeat]. do 5 (change (srun (?m :: ?t) ?s) with (srun t (srun [m] s)); rewrite hand_once; cbn [serve_req fst snd]).
    rewrite <- !app_assoc. reflexivity. }
  rewrite E. replace (S (length d)) with (length (d ++ [(0, q, @None stage)])) by (rewrite app_length; cbn; lia).
  rewrite IH, <- !app_assoc. reflexivity.
Qed.

Lemma filter_all {A} (f : A -> bool) l : (forall x, In x l -> f x = true) -> filter f l = l.
Proof. induction l as [|x l IH]; intro H; [reflexivity|]. cbn. rewrite (H x (or_introl eq_refl)). f_equal. apply IH. intros y Hy. apply H. right. exact Hy. Qed.

Lemma closed_first ms : exists sch, let s := srun sch (sstart 0 false 1) in
  sent 0 s ms /\ story 0 s = [EState 0 StateNew; EState 0 StateClosed; EClose 0] ++ flat_map (request_story 0) ms.
Proof.
  exists (repeat (MLoop 0 ms) 5 ++ flat_map (fun _ => [MRecv 0; MServe 0]) ms ++ [MRecv 0; MServe 0; MServe 0; MServe 0; MServe 0]
    ++ flat_map (fun j => repeat (MHand j) 5) (seq 0 (length ms))).
  rewrite !srun_app.
  assert (E1 : srun (repeat (MLoop 0 ms) 5) (sstart 0 false 1) = late_state ms ms [] [EState 0 StateNew]) by reflexivity.
  rewrite E1, fork_all. cbn [app].
  assert (E2 : forall hs tr, srun [MRecv 0; MServe 0; MServe 0; MServe 0; MServe 0] (late_state ms [] hs tr)
    = gone_state ms hs (tr ++ [EState 0 StateClosed; EClose 0])).
  { intros hs tr. cbn. unfold gone_state, emits, with_cn. cbn. rewrite <- app_assoc. reflexivity. }
  rewrite E2. pose proof (hands_all ms ms [] ([EState 0 StateNew] ++ [EState 0 StateClosed; EClose 0])) as E3. cbn [app length] in E3.
  cbn [app]. rewrite E3. split; [exists (MkCn ms [] REnd VGone); auto|]. unfold story. apply filter_all.
  intros e He. cbn [trace gone_state] in He. apply Nat.eqb_eq. do 3 (destruct He as [<-|He]; [reflexivity|]).
  apply in_flat_map in He. destruct He as (q & _ & He). cbn in He. repeat (destruct He as [<-|He]; [reflexivity|]). contradiction.
Qed.
