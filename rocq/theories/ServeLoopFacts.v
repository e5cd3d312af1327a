(** Lemmas on Serve calls. *)
From Coq Require Import ZArith Lia.
From Verif Require Export ServeLoopModel ServeLoopSpec ServerFacts.

Lemma frun_app a b s : frun (a ++ b) s = frun b (frun a s).
Proof. apply fold_left_app. Qed.

Lemma frun_inv (P : frame -> Prop) s : P s -> (forall m s s', P s -> fstep m s = Some s' -> P s') ->
  forall sch, P (frun sch s).
Proof.
  intros H0 Hs sch. revert s H0. induction sch as [|a sch IH]; intros s H0; [exact H0|].
  cbn. apply IH. unfold fdo. destruct (fstep a s) as [s'|] eqn:E; [|exact H0]. eapply Hs; eassumption.
Qed.

(** ** Transitions *)
Inductive ftrans (s : frame) : frame -> Prop :=
| TLoop k ms t : nth_error (ended s) k = Some None -> nth_error (busy s) k = Some None ->
    loop_step k ms (sv s) = Some t -> (serial s = true -> forall c, nth_error (loops (sv s)) k <> Some (LSpawn c)) ->
    ftrans s (with_sv t s)
| TSpawn k ms c t : nth_error (ended s) k = Some None -> nth_error (busy s) k = Some None ->
    serial s = true -> nth_error (loops (sv s)) k = Some (LSpawn c) -> loop_step k ms (sv s) = Some t ->
    ftrans s (with_busy k (Some c) (with_sv t s))
| TFree k c x : nth_error (ended s) k = Some None -> nth_error (busy s) k = Some (Some c) ->
    nth_error (cns (sv s)) c = Some x -> cserve x = VGone -> ftrans s (with_busy k None s)
| TOther m t : (forall k ms, m <> MLoop k ms) -> sstep m (sv s) = Some t -> ftrans s (with_sv t s)
| TFail k e : nth_error (ended s) k = Some None -> nth_error (busy s) k = Some None ->
    nth_error (loops (sv s)) k = Some LIdle -> ftrans s (with_ended k e s).

Lemma fstep_trans m s s' : fstep m s = Some s' -> ftrans s s'.
Proof.
  destruct m as [[k ms|c|c|j]|k e]; cbn [fstep].
  - unfold frame_loop. destruct (nth_error (ended s) k) as [[e|]|] eqn:E1; try discriminate.
    destruct (nth_error (busy s) k) as [[c|]|] eqn:E2; try discriminate.
    + destruct (nth_error (cns (sv s)) c) as [[a b r v]|] eqn:E3; [|discriminate]. destruct v; try discriminate.
      intro H. injection H as <-. eapply TFree; eauto.
    + destruct (loop_step k ms (sv s)) as [t|] eqn:E3; [|discriminate].
      destruct (serial s) eqn:E4.
      * destruct (nth_error (loops (sv s)) k) as [p|] eqn:E5.
        -- destruct p; intro H; injection H as <-;
             try (eapply TLoop; [exact E1|exact E2|exact E3|intros _ d; rewrite E5; discriminate]).
           eapply TSpawn; eauto.
        -- intro H. injection H as <-. eapply TLoop; [exact E1|exact E2|exact E3|intros _ d; rewrite E5; discriminate].
      * intro H. injection H as <-. eapply TLoop; [exact E1|exact E2|exact E3|]. rewrite E4. discriminate.
  - destruct (sstep (MRecv c) (sv s)) as [t|] eqn:E; [|discriminate]. cbn [option_map]. intro H. injection H as <-. eapply TOther; [|exact E]. discriminate.
  - destruct (sstep (MServe c) (sv s)) as [t|] eqn:E; [|discriminate]. cbn [option_map]. intro H. injection H as <-. eapply TOther; [|exact E]. discriminate.
  - destruct (sstep (MHand j) (sv s)) as [t|] eqn:E; [|discriminate]. cbn [option_map]. intro H. injection H as <-. eapply TOther; [|exact E]. discriminate.
  - unfold frame_fail. destruct (nth_error (ended s) k) as [[x|]|] eqn:E1; try discriminate.
    destruct (nth_error (busy s) k) as [[c|]|] eqn:E2; try discriminate.
    destruct (nth_error (loops (sv s)) k) as [[| | | | | |]|] eqn:E3; try discriminate.
    intro H. injection H as <-. eapply TFail; eauto.
Qed.

(** The server does what ServerModel does, or rests. *)
Lemma ftrans_sv s s' : ftrans s s' -> sv s' = sv s \/ exists m, sstep m (sv s) = Some (sv s').
Proof.
  intros []; cbn [sv with_sv with_busy with_ended]; auto.
  - right. exists (MLoop k ms). assumption.
  - right. exists (MLoop k ms). assumption.
  - right. exists m. assumption.
Qed.

Lemma frame_simulates lim one q n sch : exists sch', sv (frun sch (fstart lim one q n)) = srun sch' (sstart lim q n).
Proof.
  apply (frun_inv (fun s => exists sch', sv s = srun sch' (sstart lim q n))).
  - exists []. reflexivity.
  - intros m s s' (sch' & E) St. apply fstep_trans, ftrans_sv in St. destruct St as [->|(m' & E')]; [eauto|].
    exists (sch' ++ [m']). rewrite srun_app, <- E. cbn. unfold sact. rewrite E'. reflexivity.
Qed.

(** Invariants of the server hold. *)
Lemma sv_inv (P : server -> Prop) lim one q n : (forall sch, P (srun sch (sstart lim q n))) ->
  forall sch, P (sv (frun sch (fstart lim one q n))).
Proof. intros H sch. destruct (frame_simulates lim one q n sch) as (sch' & ->). apply H. Qed.

Lemma serial_run lim one q n sch : serial (frun sch (fstart lim one q n)) = one.
Proof.
  apply (frun_inv (fun s => serial s = one)); [reflexivity|]. intros m s s' H E. apply fstep_trans in E. destruct E; exact H.
Qed.

(** ** Who is busy with what *)
Definition lively (x : cn) : Prop := match cserve x with VNot | VGone => False | _ => True end.

Definition crew (s : frame) : Prop :=
  length (busy s) = length (loops (sv s)) /\ length (ended s) = length (loops (sv s))
  /\ (forall k c, nth_error (busy s) k = Some (Some c) -> nth_error (loops (sv s)) k = Some LIdle)
  /\ (forall k e, nth_error (ended s) k = Some (Some e) -> nth_error (loops (sv s)) k = Some LIdle)
  /\ (serial s = true -> forall c x, nth_error (cns (sv s)) c = Some x -> lively x -> exists k, nth_error (busy s) k = Some (Some c))
  /\ (forall k c, nth_error (busy s) k = Some (Some c) -> serial s = true)
  /\ (forall k e, nth_error (ended s) k = Some (Some e) -> nth_error (busy s) k = Some None).

(** What a move of loop [k] leaves alone. *)
Lemma loop_step_loops k ms s t : loop_step k ms s = Some t ->
  exists p, loops t = setnth k p (loops s) /\ k < length (loops s)
    /\ (nth_error (loops s) k = Some LIdle -> p = LNew (length (cns s)) /\ cns t = cns s ++ [MkCn ms ms RNot VNot])
    /\ ((forall c, nth_error (loops s) k <> Some (LSpawn c)) -> nth_error (loops s) k <> Some LIdle -> cns t = cns s)
    /\ forall c, nth_error (loops s) k = Some (LSpawn c) ->
         p = LIdle /\ exists x, nth_error (cns s) c = Some x /\ cns t = setnth c (MkCn (cmsgs x) (cleft x) RReading VWait) (cns s).
Proof.
  unfold loop_step. destruct (nth_error (loops s) k) as [[|c|c|c v|c|c|c]|] eqn:Hk; try discriminate;
    pose proof (nth_error_lt _ _ _ Hk) as Lt.
  - intro H; injection H as <-. exists (LNew (length (cns s))). repeat split; auto; try discriminate; congruence.
  - intro H; injection H as <-. exists (LLoad c). repeat split; auto; try discriminate; congruence.
  - intro H; injection H as <-. exists (LTest c (counter s)). repeat split; auto; try discriminate; congruence.
  - destruct (negb (limit s =? 0)%Z && (wrap32 (limit s) <=? v)%Z); intro H; injection H as <-;
      [exists (LReject c)|exists (LSpawn c)]; repeat split; auto; try discriminate; congruence.
  - intro H; injection H as <-. exists (LRejClose c). repeat split; auto; try discriminate; congruence.
  - intro H; injection H as <-. exists LIdle. repeat split; auto; try discriminate; congruence.
  - destruct (nth_error (cns s) c) as [x|] eqn:Hc; [|discriminate]. intro H. injection H as <-.
    exists LIdle. split; [reflexivity|]. split; [exact Lt|]. split; [discriminate|].
    split; [intro X; exfalso; exact (X c eq_refl)|]. intros d E. injection E as <-. split; [reflexivity|]. exists x. auto.
Qed.

(** Moves outside the loops do not make connections lively. *)
Lemma other_step m s t : (forall k ms, m <> MLoop k ms) -> sstep m s = Some t ->
  loops t = loops s /\ length (cns t) = length (cns s)
  /\ forall c y, nth_error (cns t) c = Some y -> exists x, nth_error (cns s) c = Some x
       /\ cmsgs y = cmsgs x /\ (lively y -> lively x \/ cserve x = VNot) /\ (cserve y = VNot <-> cserve x = VNot).
Proof.
  assert (K : forall c x y, nth_error (cns s) c = Some x -> cmsgs y = cmsgs x ->
    (lively y -> lively x \/ cserve x = VNot) -> (cserve y = VNot <-> cserve x = VNot) ->
    forall d z, nth_error (setnth c y (cns s)) d = Some z -> exists x, nth_error (cns s) d = Some x
       /\ cmsgs z = cmsgs x /\ (lively z -> lively x \/ cserve x = VNot) /\ (cserve z = VNot <-> cserve x = VNot)).
  { intros c x y Hx M L V d z Hz. split_nth Hz; [exists x; auto|]. exists z. repeat split; auto. }
  intros N E. destruct m as [k ms|c|c|j]; [exfalso; eapply N; reflexivity| | |]; cbn [sstep] in E.
  - unfold recv_step in E. destruct (nth_error (cns s) c) as [[a b r v]|] eqn:Hc; [|discriminate]. destruct r; try discriminate.
    destruct b as [|q l]; injection E as <-; cbn [loops cns with_cn]; (split; [reflexivity|]); (split; [apply setnth_length|]);
      (eapply K; [exact Hc|reflexivity|unfold lively; cbn [cserve]; auto|reflexivity]).
  - unfold serve_step in E. destruct (nth_error (cns s) c) as [[a b r v]|] eqn:Hc; [|discriminate].
    destruct v as [| |q st| | | |]; try discriminate.
    + destruct r as [| |[q|]|]; try discriminate; [destruct (sequential s)|]; injection E as <-; cbn [loops cns with_cn with_hands];
        (split; [reflexivity|]); (split; [apply setnth_length|]);
        (eapply K; [exact Hc|reflexivity|unfold lively; cbn [cserve]; auto|cbn [cserve]; split; discriminate]).
    + destruct (serve_req c q st) as [e [y|]]; injection E as <-; cbn [loops cns with_cn emits];
        (split; [reflexivity|]); (split; [apply setnth_length|]);
        (eapply K; [exact Hc|reflexivity|unfold lively; cbn [cserve]; auto|cbn [cserve]; split; discriminate]).
    + injection E as <-; cbn [loops cns with_cn with_counter]; (split; [reflexivity|]); (split; [apply setnth_length|]);
        (eapply K; [exact Hc|reflexivity|unfold lively; cbn [cserve]; auto|cbn [cserve]; split; discriminate]).
    + injection E as <-; cbn [loops cns with_cn emits]; (split; [reflexivity|]); (split; [apply setnth_length|]);
        (eapply K; [exact Hc|reflexivity|unfold lively; cbn [cserve]; auto|cbn [cserve]; split; discriminate]).
    + injection E as <-; cbn [loops cns with_cn emits]; (split; [reflexivity|]); (split; [apply setnth_length|]);
        (eapply K; [exact Hc|reflexivity|unfold lively; cbn [cserve]; auto|cbn [cserve]; split; discriminate]).
  - unfold hand_step in E. destruct (nth_error (hands s) j) as [[[c q] [st|]]|]; try discriminate.
    destruct (serve_req c q st) as [e st']. injection E as <-. cbn [loops cns emits with_hands]. split; [reflexivity|]. split; [reflexivity|].
    intros d z Hz. exists z. repeat split; auto.
Qed.

Lemma crew_step s s' : shape (sv s) -> crew s -> ftrans s s' -> crew s'.
Proof.
  intros Sh (L1 & L2 & B & E & V & Se & En) T. destruct T as [k ms t H1 H2 H3 H4|k ms c t H1 H2 H3 H4 H5|k c x H1 H2 H3 H4|m t H1 H2|k e H1 H2 H3];
    unfold crew; cbn [sv serial busy ended with_sv with_busy with_ended].
  - destruct (loop_step_loops k ms (sv s) t H3) as (p & P1 & P2 & P3 & P4 & P5). rewrite P1, setnth_length.
    split; [exact L1|]. split; [exact L2|].
    assert (Oth : forall i, i <> k -> nth_error (setnth k p (loops (sv s))) i = nth_error (loops (sv s)) i) by (intros i N; apply setnth_other; exact N).
    split; [intros i c Hi; rewrite Oth; [eapply B; exact Hi|intros ->; congruence]|].
    split; [intros i c Hi; rewrite Oth; [eapply E; exact Hi|intros ->; congruence]|].
    split; [|auto]. intros Q c x Hc Hx. specialize (H4 Q).
    destruct (nth_error (loops (sv s)) k) as [[| | | | | |d]|] eqn:Hk;
      try (rewrite P4 in Hc by (intros; congruence); exact (V Q c x Hc Hx)).
    destruct (P3 eq_refl) as (_ & P3'). rewrite P3' in Hc. destruct (Nat.lt_ge_cases c (length (cns (sv s)))) as [Lc|Lc].
    + rewrite nth_error_app1 in Hc by exact Lc. exact (V Q c x Hc Hx).
    + rewrite nth_error_app2 in Hc by exact Lc. destruct (c - length (cns (sv s))) as [|e']; cbn in Hc; [|destruct e'; discriminate].
      injection Hc as <-. cbn in Hx. contradiction.
  - destruct (loop_step_loops k ms (sv s) t H5) as (p & P1 & P2 & _ & _ & P5). destruct (P5 c H4) as (-> & x & X1 & X2).
    rewrite P1, X2, !setnth_length. split; [exact L1|]. split; [exact L2|].
    split.
    { intros i d Hi. apply setnth_cases in Hi. destruct Hi as [(-> & _)|(N & Hi)]; [apply setnth_same; exact P2|].
      rewrite setnth_other by exact N. eapply B; exact Hi. }
    split.
    { intros i d Hi. destruct (Nat.eq_dec i k) as [->|N]; [congruence|]. rewrite setnth_other by exact N. eapply E; exact Hi. }
    split.
    { intros _ d y Hd Hy. split_nth Hd; [exists k; apply setnth_same; rewrite L1; exact P2|].
      destruct (V H3 d y Hd Hy) as (i & Hi). exists i. rewrite setnth_other; [exact Hi|]. intros ->. congruence. }
    split; [intros; exact H3|]. intros i e Hi. destruct (Nat.eq_dec i k) as [->|N]; [congruence|]. rewrite setnth_other by exact N. eapply En; exact Hi.
  - rewrite setnth_length. split; [exact L1|]. split; [exact L2|].
    split; [intros i d Hi; apply setnth_cases in Hi; destruct Hi as [(_ & X & _)|(_ & Hi)]; [discriminate|eapply B; exact Hi]|].
    split; [exact E|]. split.
    { intros Q d y Hd Hy. destruct (V Q d y Hd Hy) as (i & Hi). exists i. rewrite setnth_other; [exact Hi|]. intros ->.
      assert (c = d) by congruence. subst d. rewrite H3 in Hd. injection Hd as <-. unfold lively in Hy. rewrite H4 in Hy. exact Hy. }
    split; [intros i d Hi; apply setnth_cases in Hi; destruct Hi as [(_ & X & _)|(_ & Hi)]; [discriminate|eapply Se; exact Hi]|].
    intros i e Hi. destruct (Nat.eq_dec i k) as [->|N]; [congruence|]. rewrite setnth_other by exact N. eapply En; exact Hi.
  - destruct (other_step m (sv s) t H1 H2) as (P1 & P2 & P3). rewrite P1. split; [exact L1|]. split; [exact L2|].
    split; [exact B|]. split; [exact E|]. split; [|auto]. intros Q c y Hc Hy. destruct (P3 c y Hc) as (x & X1 & _ & X2 & X3).
    destruct (X2 Hy) as [X|X]; [exact (V Q c x X1 X)|]. apply X3 in X. unfold lively in Hy. rewrite X in Hy. destruct Hy.
  - rewrite setnth_length. split; [exact L1|]. split; [exact L2|]. split; [exact B|].
    split; [intros i d Hi; apply setnth_cases in Hi; destruct Hi as [(-> & _)|(_ & Hi)]; [exact H3|eapply E; exact Hi]|]. split; [exact V|]. split; [exact Se|].
    intros i d Hi. apply setnth_cases in Hi; destruct Hi as [(-> & _)|(_ & Hi)]; [exact H2|eapply En; exact Hi].
Qed.

Lemma nth_repeat_some {A} (x y : A) n k : nth_error (repeat x n) k = Some y -> y = x.
Proof. apply nth_error_repeat. Qed.

Lemma crew_run lim one q n sch : crew (frun sch (fstart lim one q n)).
Proof.
  assert (G : let s := frun sch (fstart lim one q n) in (exists sch', sv s = srun sch' (sstart lim q n)) /\ crew s).
  { apply (frun_inv (fun s => (exists sch', sv s = srun sch' (sstart lim q n)) /\ crew s)).
    - split; [exists []; reflexivity|]. unfold crew, fstart, sstart. cbn [sv serial busy ended loops cns]. rewrite !repeat_length.
      repeat split; intros; try discriminate;
        try (match goal with H : nth_error (repeat _ _) _ = _ |- _ => apply nth_error_repeat in H; discriminate end);
        try (match goal with H : nth_error [] ?c = _ |- _ => destruct c; discriminate end).
    - intros m s s' ((sch' & E) & C) St. apply fstep_trans in St. split.
      + destruct (ftrans_sv _ _ St) as [->|(m' & E')]; [eauto|]. exists (sch' ++ [m']). rewrite srun_app, <- E. cbn. unfold sact. rewrite E'. reflexivity.
      + eapply crew_step; [|exact C|exact St]. rewrite E. apply shape_run. }
  apply G.
Qed.

(** ** Counting *)
Definition ids {A} (f : A -> bool) (l : list A) : list nat :=
  filter (fun i => match nth_error l i with Some x => f x | None => false end) (seq 0 (length l)).

Lemma ids_length {A} (f : A -> bool) : forall l : list A, length (ids f l) = tally f l.
Proof.
  intro l. induction l as [|x l IH] using rev_ind; [reflexivity|]. unfold ids. rewrite app_length. cbn [length].
  rewrite Nat.add_1_r, seq_S, filter_app, app_length, tally_app, <- IH. unfold ids. f_equal.
  - f_equal. apply filter_ext_in. intros i Hi. apply in_seq in Hi. rewrite nth_error_app1 by lia. reflexivity.
  - cbn [filter plus]. rewrite nth_error_app2, Nat.sub_diag by lia. cbn. destruct (f x); reflexivity.
Qed.

Definition engaged (b : option nat) : bool := match b with Some _ => true | None => false end.
Definition names (l : list (option nat)) : list nat := flat_map (fun b => match b with Some c => [c] | None => [] end) l.

Lemma names_length l : length (names l) = tally engaged l.
Proof. unfold tally. induction l as [|[c|] l IH]; cbn; auto. Qed.

Lemma names_in l k c : nth_error l k = Some (Some c) -> In c (names l).
Proof.
  revert k. induction l as [|b l IH]; intros [|k] H; cbn in *; try discriminate.
  - injection H as ->. left. reflexivity.
  - apply in_or_app. right. eapply IH. exact H.
Qed.

Lemma counted_busy s : crew s -> serial s = true -> tally counted (cns (sv s)) <= tally engaged (busy s).
Proof.
  intros (_ & _ & _ & _ & V & _) Q. rewrite <- ids_length, <- names_length. apply NoDup_incl_length.
  - apply NoDup_filter, seq_NoDup.
  - intros c Hc. apply filter_In in Hc. destruct Hc as [_ Hc]. destruct (nth_error (cns (sv s)) c) as [x|] eqn:E; [|discriminate].
    destruct (V Q c x E) as (k & Hk); [|eapply names_in; exact Hk].
    unfold lively. unfold counted in Hc. destruct (cserve x); try discriminate; exact I.
Qed.

Definition going (p : accepting) : bool := match p with LIdle => false | _ => true end.

Lemma engaged_going : forall (b : list (option nat)) (l : list accepting), length b = length l ->
  (forall k c, nth_error b k = Some (Some c) -> nth_error l k = Some LIdle) ->
  tally engaged b + tally going l <= length l.
Proof.
  unfold tally. induction b as [|x b IH]; intros [|p l] L H; try discriminate; [cbn; lia|].
  assert (IH' := IH l ltac:(cbn in L; lia) (fun k c => H (Datatypes.S k) c)).
  cbn [filter length]. destruct x as [c|]; cbn [engaged].
  - assert (E := H 0 c eq_refl). cbn in E. injection E as ->. cbn [going length filter]. lia.
  - destruct (going p); cbn [length filter]; lia.
Qed.

Lemma tally_less {A} (f g : A -> bool) : (forall x, f x = true -> g x = true) -> forall l, tally f l <= tally g l.
Proof.
  intros H l. unfold tally. induction l as [|x l IH]; cbn; [lia|]. destruct (f x) eqn:F; [rewrite (H x F); cbn; lia|].
  destruct (g x); cbn; lia.
Qed.

Lemma tally_less1 {A} (f g : A -> bool) : (forall x, f x = true -> g x = true) -> forall l k x,
  nth_error l k = Some x -> f x = false -> g x = true -> tally f l + 1 <= tally g l.
Proof.
  intros H. induction l as [|y l IH]; intros [|k] x E F G; cbn in E; try discriminate.
  - injection E as ->. unfold tally. cbn [filter]. rewrite F, G. cbn [length]. pose proof (tally_less f g H l). unfold tally in *. lia.
  - specialize (IH k x E F G). unfold tally in *. cbn [filter]. destruct (f y) eqn:Fy; [rewrite (H y Fy); cbn [length]; lia|].
    destruct (g y); cbn [length]; lia.
Qed.

Lemma spawning_going p : spawning p = true -> going p = true.
Proof. destruct p; auto; discriminate. Qed.

Lemma crew_accounted s : crew s -> serial s = true -> accounted (sv s) <= length (loops (sv s)).
Proof.
  intros C Q. pose proof (counted_busy s C Q). destruct C as (L1 & _ & B & _).
  pose proof (engaged_going _ _ L1 B). pose proof (tally_less _ _ spawning_going (loops (sv s))).
  unfold accounted. fold (tally counted (cns (sv s))). fold (tally spawning (loops (sv s))). lia.
Qed.

Lemma crew_accounted_load s k c : crew s -> serial s = true -> nth_error (loops (sv s)) k = Some (LLoad c) ->
  accounted (sv s) + 1 <= length (loops (sv s)).
Proof.
  intros C Q H. pose proof (counted_busy s C Q). destruct C as (L1 & _ & B & _).
  pose proof (engaged_going _ _ L1 B). pose proof (tally_less1 _ _ spawning_going (loops (sv s)) k _ H eq_refl eq_refl).
  unfold accounted. fold (tally counted (cns (sv s))). fold (tally spawning (loops (sv s))). lia.
Qed.

(** ** Nobody is turned away *)
Definition no_refusal (s : server) : Prop :=
  forall k p, nth_error (loops s) k = Some p -> match p with LReject _ | LRejClose _ => False | _ => True end.
Definition attended (s : server) : Prop :=
  forall c x, nth_error (cns s) c = Some x -> cserve x = VNot -> exists k p, nth_error (loops s) k = Some p /\ about p = Some c.
Definition low (n : nat) (s : server) : Prop :=
  forall k c v, nth_error (loops s) k = Some (LTest c v) -> (v < Z.of_nat n)%Z.

Lemma wrap32_small z : (0 <= z < 2147483648)%Z -> wrap32 z = z.
Proof. intro H. unfold wrap32. rewrite Z.mod_small by lia. lia. Qed.

Lemma attended_step s s' : shape s -> no_refusal s -> attended s -> strans s s' -> attended s'.
Proof.
  intros S R V T. 
  assert (Keep : forall k p p', nth_error (loops s) k = Some p -> about p' = about p ->
    forall c x, nth_error (cns s) c = Some x -> cserve x = VNot ->
    exists i r, nth_error (setnth k p' (loops s)) i = Some r /\ about r = Some c).
  { intros k p p' Hk E c x Hc Hx. destruct (V c x Hc Hx) as (i & r & Hi & Hr). destruct (Nat.eq_dec i k) as [->|N].
    - exists k, p'. split; [apply setnth_same; eapply nth_error_lt; exact Hk|congruence].
    - exists i, r. rewrite setnth_other by exact N. auto. }
  destruct T; unfold attended; cbn [loops cns with_loop with_new emits with_counter with_cn with_hands];
    try (exfalso; exact (R _ _ H)); try (eapply Keep; [exact H|reflexivity]).
  - intros d x Hd Hx.
    destruct (Nat.lt_ge_cases d (length (cns s))) as [Ld|Ld].
    + rewrite nth_error_app1 in Hd by exact Ld. destruct (V d x Hd Hx) as (i & r & Hi & Hr).
      exists i, r. split; [|exact Hr]. rewrite setnth_other; [exact Hi|]. intros ->. rewrite H in Hi. injection Hi as <-. discriminate.
    + rewrite nth_error_app2 in Hd by exact Ld. destruct (d - length (cns s)) as [|e] eqn:De; cbn in Hd; [|destruct e; discriminate].
      exists k, (LNew (length (cns s))). split; [apply setnth_same; eapply nth_error_lt; exact H|]. cbn. f_equal. lia.
  - intros d z Hd Hz. split_nth Hd; [discriminate|].
    destruct (V d z Hd Hz) as (i & r & Hi & Hr). exists i, r. split; [|exact Hr]. rewrite setnth_other; [exact Hi|].
    intros ->. rewrite H in Hi. injection Hi as <-. cbn in Hr. congruence.
  - intros d z Hd Hz. split_nth Hd; [|exact (V _ _ Hd Hz)]. cbn in Hz. subst v. destruct S as (_ & _ & C).
    destruct (proj1 (C c _ H) eq_refl); discriminate.
  - intros d z Hd Hz. split_nth Hd; [|exact (V _ _ Hd Hz)]. cbn in Hz. subst v. destruct S as (_ & _ & C).
    destruct (proj1 (C c _ H) eq_refl); discriminate.
  - intros d z Hd Hz. split_nth Hd; [discriminate|exact (V _ _ Hd Hz)].
  - intros d z Hd Hz. split_nth Hd; [discriminate|exact (V _ _ Hd Hz)].
  - intros d z Hd Hz. split_nth Hd; [discriminate|exact (V _ _ Hd Hz)].
  - intros d z Hd Hz. split_nth Hd; [|exact (V _ _ Hd Hz)]. cbn in Hz. destruct (snd (serve_req c q st)); discriminate.
  - intros d z Hd Hz. split_nth Hd; [discriminate|exact (V _ _ Hd Hz)].
  - intros d z Hd Hz. split_nth Hd; [discriminate|exact (V _ _ Hd Hz)].
  - intros d z Hd Hz. split_nth Hd; [discriminate|exact (V _ _ Hd Hz)].
  - exact V.
Qed.

Lemma guarded_step n s s' : (limit s = 0 \/ Z.of_nat n <= wrap32 (limit s))%Z -> low n s -> no_refusal s ->
  (forall k c, nth_error (loops s) k = Some (LLoad c) -> (counter s < Z.of_nat n)%Z) ->
  strans s s' -> low n s' /\ no_refusal s'.
Proof.
  intros L W R Ld T.
  assert (Keep : forall k p', (match p' with LReject _ | LRejClose _ => False | LTest _ v => (v < Z.of_nat n)%Z | _ => True end) ->
    forall t, loops t = setnth k p' (loops s) -> low n t /\ no_refusal t).
  { intros k p' Hp t E. unfold low, no_refusal. rewrite E. split.
    - intros i c v Hi. apply setnth_cases in Hi. destruct Hi as [(_ & <- & _)|(_ & Hi)]; [exact Hp|eapply W; exact Hi].
    - intros i p Hi. split_nth Hi; [destruct p'; auto|eapply R; exact Hi]. }
  destruct T; try (exfalso; exact (R _ _ H)); try (split; [exact W|exact R]);
    try (eapply (Keep k); [|reflexivity]; exact Logic.I).
  - eapply (Keep k); [|reflexivity]. eapply Ld. exact H.
  - exfalso. destruct L as [L|L]; [contradiction|]. specialize (W _ _ _ H). lia.
Qed.

Lemma limit_run lim q n sch : limit (srun sch (sstart lim q n)) = lim /\ length (loops (srun sch (sstart lim q n))) = n.
Proof.
  apply (srun_inv (fun s => limit s = lim /\ length (loops s) = n)).
  - split; [reflexivity|apply repeat_length].
  - intros m s s' (E1 & E2) T. apply sstep_trans in T. split.
    + apply limit_step in T. destruct T as (T & _). congruence.
    + destruct T; cbn [loops with_loop with_new emits with_counter with_cn with_hands]; rewrite ?setnth_length; exact E2.
Qed.

Lemma guarded_run lim q n sch : (lim = 0 \/ Z.of_nat n <= wrap32 lim)%Z -> (Z.of_nat n < 2147483648)%Z ->
  let s := frun sch (fstart lim true q n) in low n (sv s) /\ no_refusal (sv s) /\ attended (sv s).
Proof.
  intros L Small.
  assert (G : let s := frun sch (fstart lim true q n) in
    ((exists sch', sv s = srun sch' (sstart lim q n)) /\ crew s /\ serial s = true) /\ low n (sv s) /\ no_refusal (sv s) /\ attended (sv s)).
  { apply (frun_inv (fun s => ((exists sch', sv s = srun sch' (sstart lim q n)) /\ crew s /\ serial s = true) /\ low n (sv s) /\ no_refusal (sv s) /\ attended (sv s))).
    - split; [split; [exists []; reflexivity|split; [exact (crew_run lim true q n [])|reflexivity]]|].
      unfold low, no_refusal, attended. cbn [fstart sstart sv loops cns]. repeat split.
      + intros k c v H. apply nth_error_repeat in H. discriminate.
      + intros k p H. apply nth_error_repeat in H. subst p. exact Logic.I.
      + intros [|c] x H; discriminate.
    - intros m s s' (((sch' & E) & C & Q) & W & R & V) St. apply fstep_trans in St.
      assert (Sim : sv s' = sv s \/ exists m, sstep m (sv s) = Some (sv s')) by (apply ftrans_sv; exact St).
      split; [split|].
      + destruct Sim as [->|(m' & E')]; [eauto|]. exists (sch' ++ [m']). rewrite srun_app, <- E. cbn. unfold sact. rewrite E'. reflexivity.
      + split; [apply (crew_step s s'); [rewrite E; apply shape_run|exact C|exact St]|destruct St; exact Q].
      + destruct Sim as [->|(m' & E')]; [auto|]. apply sstep_trans in E'.
        destruct (limit_run lim q n sch') as (Lm & Ln). rewrite <- E in Lm, Ln.
        assert (A : attended (sv s')) by (apply (attended_step (sv s)); [rewrite E; apply shape_run|exact R|exact V|exact E']).
        destruct (guarded_step n (sv s) (sv s')) as (X & Y); auto.
        * rewrite Lm. exact L.
        * intros k c Hk. pose proof (crew_accounted_load s k c C Q Hk) as Ac. rewrite Ln in Ac.
          pose proof (balanced_run lim q n sch') as (_ & Bl). rewrite <- E in Bl. rewrite Bl, wrap32_small; lia. }
  apply G.
Qed.

(** ** Arrivals and ends, whatever the handlers do *)
Definition to_go (c : nat) (x : cn) : list event :=
  match cserve x with
  | VNot | VGone => []
  | VWait | VReq _ _ | VDec | VClosing => [EState c StateClosed; EClose c]
  | VClose => [EClose c]
  end.
Definition visits (s : server) : Prop :=
  forall c x, nth_error (cns s) c = Some x -> cserve x <> VNot ->
    filter coming_or_going (story c s) ++ to_go c x = visit c.

Lemma serve_req_quiet c q st : coming_or_going (fst (serve_req c q st)) = false.
Proof. destruct st; cbn; try reflexivity. unfold request_state. destruct (Header_Type (Request_Header q) =? 0)%N; reflexivity. Qed.
Lemma serve_req_conn c q st : conn_of (fst (serve_req c q st)) = c.
Proof. destruct st; reflexivity. Qed.

Lemma visits_cn s s' c x y ev : visits s -> nth_error (cns s) c = Some x -> cserve x <> VNot ->
  cns s' = setnth c y (cns s) -> trace s' = trace s ++ ev -> Forall (fun e => conn_of e = c) ev ->
  filter coming_or_going ev ++ to_go c y = to_go c x -> visits s'.
Proof.
  intros V Hc Hx Hn Ht Hev F d z Hd Hz. rewrite (story_trace d s s' ev Ht), filter_app, <- app_assoc.
  rewrite Hn in Hd. split_nth Hd.
  - rewrite own_all by exact Hev. rewrite F. apply V; assumption.
  - rewrite (own_none c d ev Hev) by assumption. apply V; assumption.
Qed.

Lemma visits_other s s' c ev : visits s -> cns s' = cns s -> trace s' = trace s ++ ev -> Forall (fun e => conn_of e = c) ev ->
  (forall x, nth_error (cns s) c = Some x -> cserve x = VNot) \/ filter coming_or_going ev = [] -> visits s'.
Proof.
  intros V Hn Ht Hev F d z Hd Hz. rewrite (story_trace d s s' ev Ht), filter_app, <- app_assoc. rewrite Hn in Hd.
  destruct (Nat.eq_dec d c) as [->|N].
  - destruct F as [F|F]; [specialize (F z Hd); contradiction|]. rewrite own_all by exact Hev. rewrite F. apply V; assumption.
  - rewrite (own_none c d ev Hev) by assumption. apply V; assumption.
Qed.

Lemma visits_step s s' : tale s -> visits s -> strans s s' -> visits s'.
Proof.
  intros (S & H & G & T1 & _) V T. pose proof S as (A & B & C).
  assert (Not : forall k p c, nth_error (loops s) k = Some p -> about p = Some c -> forall x, nth_error (cns s) c = Some x -> cserve x = VNot).
  { intros k p c Hk Hp x Hx. destruct (A k p c Hk Hp) as (y & Y1 & Y2). congruence. }
  destruct T.
  - intros d x Hd Hx. cbn [cns with_loop with_new] in Hd. destruct (Nat.lt_ge_cases d (length (cns s))) as [L|L].
    + rewrite nth_error_app1 in Hd by exact L. exact (V d x Hd Hx).
    + rewrite nth_error_app2 in Hd by exact L. destruct (d - length (cns s)) as [|e]; cbn in Hd; [|destruct e; discriminate].
      injection Hd as <-. cbn in Hx. congruence.
  - eapply (visits_other s _ c [EState c StateNew]); auto. left. eapply Not; [eassumption|reflexivity].
  - exact V.
  - exact V.
  - exact V.
  - eapply (visits_other s _ c [EState c StateClosed]); auto. left. eapply Not; [eassumption|reflexivity].
  - eapply (visits_other s _ c [EClose c]); auto. left. eapply Not; [eassumption|reflexivity].
  - intros d z Hd Hz. cbn [cns with_loop with_cn] in Hd. split_nth Hd; [|exact (V d z Hd Hz)].
    change (story c (with_loop k LIdle (with_cn c (MkCn (cmsgs x) (cleft x) RReading VWait) s))) with (story c s).
    rewrite (T1 k _ c H0 eq_refl). reflexivity.
  - assert (v <> VNot) by (intro E; subst v; destruct (C c _ H0) as (C1 & _); destruct (C1 eq_refl); discriminate).
    eapply (visits_cn s _ c _ _ []); [exact V|exact H0|exact H1|reflexivity|symmetry; apply app_nil_r|constructor|reflexivity].
  - assert (v <> VNot) by (intro E; subst v; destruct (C c _ H0) as (C1 & _); destruct (C1 eq_refl); discriminate).
    eapply (visits_cn s _ c _ _ []); [exact V|exact H0|exact H1|reflexivity|symmetry; apply app_nil_r|constructor|reflexivity].
  - eapply (visits_cn s _ c _ _ []); [exact V|exact H0|discriminate|reflexivity|symmetry; apply app_nil_r|constructor|reflexivity].
  - eapply (visits_cn s _ c _ _ []); [exact V|exact H0|discriminate|reflexivity|symmetry; apply app_nil_r|constructor|reflexivity].
  - eapply (visits_cn s _ c _ _ []); [exact V|exact H0|discriminate|reflexivity|symmetry; apply app_nil_r|constructor|reflexivity].
  - eapply (visits_cn s _ c _ _ [fst (serve_req c q st)]); [exact V|exact H0|discriminate|reflexivity|reflexivity| |].
    + repeat constructor. apply serve_req_conn.
    + cbn [filter]. rewrite serve_req_quiet. unfold to_go. cbn [cserve]. destruct (snd (serve_req c q st)); reflexivity.
  - eapply (visits_cn s _ c _ _ []); [exact V|exact H0|discriminate|reflexivity|symmetry; apply app_nil_r|constructor|reflexivity].
  - eapply (visits_cn s _ c _ _ [EState c StateClosed]); [exact V|exact H0|discriminate|reflexivity|reflexivity|repeat constructor|reflexivity].
  - eapply (visits_cn s _ c _ _ [EClose c]); [exact V|exact H0|discriminate|reflexivity|reflexivity|repeat constructor|reflexivity].
  - eapply (visits_other s _ c [fst (serve_req c q st)]); [exact V|reflexivity|reflexivity|repeat constructor; apply serve_req_conn|].
    right. cbn [filter]. rewrite serve_req_quiet. reflexivity.
Qed.

Lemma visits_run lim q n sch : visits (srun sch (sstart lim q n)).
Proof.
  assert (G : let s := srun sch (sstart lim q n) in tale s /\ visits s).
  { apply (srun_inv (fun s => tale s /\ visits s)).
    - split; [exact (tale_run lim q n [])|]. intros [|c] x H; discriminate.
    - intros m s s' (W & V) E. apply sstep_trans in E. split; [eapply tale_step; eassumption|eapply visits_step; eassumption]. }
  apply G.
Qed.

(** ** One Serve call with SequentialRunner: one connection at a time *)
Definition turn (s : frame) : Prop :=
  exists p b e, loops (sv s) = [p] /\ busy s = [b] /\ ended s = [e]
  /\ match about p, b with
     | Some c, None | None, Some c =>
         Datatypes.S c = length (cns (sv s)) /\ forall d x, nth_error (cns (sv s)) d = Some x -> d < c -> ~ lively x
     | None, None => forall d x, nth_error (cns (sv s)) d = Some x -> ~ lively x
     | Some _, Some _ => False
     end.

Lemma setnth_0 {A} (x y : A) : setnth 0 x [y] = [x].
Proof. reflexivity. Qed.

Lemma nth_one {A} (x y : A) k : nth_error [x] k = Some y -> k = 0 /\ y = x.
Proof. destruct k as [|[|k]]; cbn; intro H; try discriminate. injection H as <-. auto. Qed.

Lemma about_none p : about p = None -> p = LIdle.
Proof. destruct p; cbn; congruence. Qed.

Lemma turn_step s s' : serial s = true -> shape (sv s) -> turn s -> ftrans s s' -> turn s'.
Proof.
  intros Q (Sh & _) (p & b & e & P & Bz & En & X) T. unfold turn.
  destruct T as [k ms t H1 H2 H3 H4|k ms c t H1 H2 H3 H4 H5|k c x H1 H2 H3 H4|m t H1 H2|k er H1 H2 H3];
    cbn [sv busy ended with_sv with_busy with_ended].
  - rewrite Bz in H2. apply nth_one in H2. destruct H2 as (-> & <-). 
    unfold loop_step in H3. rewrite P in H3. cbn [nth_error] in H3.
    destruct p as [|c|c|c v|c|c|c]; cbn [about] in X.
    + injection H3 as <-. exists (LNew (length (cns (sv s)))), None, e. cbn [loops cns with_loop with_new]. rewrite P.
      split; [reflexivity|]. split; [exact Bz|]. split; [exact En|]. cbn [about]. rewrite app_length. cbn [length]. split; [lia|].
      intros d x Hd Lt. rewrite nth_error_app1 in Hd by exact Lt. eapply X; exact Hd.
    + injection H3 as <-. exists (LLoad c), None, e. cbn [loops cns with_loop emits]. rewrite P. auto.
    + injection H3 as <-. exists (LTest c (counter (sv s))), None, e. cbn [loops cns with_loop emits]. rewrite P. auto.
    + destruct (negb (limit (sv s) =? 0)%Z && (wrap32 (limit (sv s)) <=? v)%Z); injection H3 as <-;
        [exists (LReject c), None, e|exists (LSpawn c), None, e]; cbn [loops cns with_loop with_counter]; rewrite P; auto.
    + injection H3 as <-. exists (LRejClose c), None, e. cbn [loops cns with_loop emits]. rewrite P. auto.
    + injection H3 as <-. exists LIdle, None, e. cbn [loops cns with_loop emits]. rewrite P. split; [reflexivity|]. split; [exact Bz|].
      split; [exact En|]. cbn [about]. destruct X as (X1 & X2). intros d x Hd. destruct (Nat.eq_dec d c) as [->|N].
      * destruct (Sh 0 (LRejClose c) c) as (y & Y1 & Y2); [rewrite P; reflexivity|reflexivity|]. assert (x = y) by congruence. subst y.
        unfold lively. rewrite Y2. auto.
      * eapply X2; [exact Hd|]. apply nth_error_lt in Hd. lia.
    + exfalso. apply (H4 Q c). rewrite P. reflexivity.
  - rewrite Bz in H2. apply nth_one in H2. destruct H2 as (-> & <-). rewrite P in H4. cbn in H4. injection H4 as ->. cbn [about] in X.
    unfold loop_step in H5. rewrite P in H5. cbn [nth_error] in H5. destruct (nth_error (cns (sv s)) c) as [x|] eqn:Hc; [|discriminate].
    injection H5 as <-. exists LIdle, (Some c), e. cbn [loops cns with_loop with_cn]. rewrite P, Bz. repeat split; auto; rewrite ?setnth_length.
    + apply X.
    + intros d y Hd Lt. rewrite setnth_other in Hd by lia. eapply (proj2 X); eassumption.
  - rewrite Bz in H2. apply nth_one in H2. destruct H2 as (-> & <-). exists p, None, e. rewrite P, Bz. repeat split; auto.
    destruct (about p) as [c'|]; [contradiction|]. destruct X as (X1 & X2). intros d y Hd. destruct (Nat.eq_dec d c) as [->|N].
    + rewrite H3 in Hd. injection Hd as <-. unfold lively. rewrite H4. auto.
    + eapply X2; [exact Hd|]. apply nth_error_lt in Hd. lia.
  - destruct (other_step m (sv s) t H1 H2) as (P1 & P2 & P3). exists p, b, e. rewrite P1, P2. repeat split; auto.
    assert (K : forall d y, nth_error (cns t) d = Some y -> (forall x, nth_error (cns (sv s)) d = Some x -> ~ lively x) -> ~ lively y).
    { intros d y Hd L Ly. destruct (P3 d y Hd) as (x & X1 & _ & X2 & X3). destruct (X2 Ly) as [Z|Z]; [exact (L x X1 Z)|].
      apply X3 in Z. unfold lively in Ly. rewrite Z in Ly. exact Ly. }
    destruct (about p) as [c|], b as [c'|]; try contradiction.
    + destruct X as (X1 & X2). split; [exact X1|]. intros d y Hd Lt. eapply K; [exact Hd|]. intros x Hx. eapply X2; eassumption.
    + destruct X as (X1 & X2). split; [exact X1|]. intros d y Hd Lt. eapply K; [exact Hd|]. intros x Hx. eapply X2; eassumption.
    + intros d y Hd. eapply K; [exact Hd|]. intros x Hx. eapply X; eassumption.
  - rewrite Bz in H2. apply nth_one in H2. destruct H2 as (-> & <-). rewrite En in *. exists p, None, (Some er). repeat split; auto.
Qed.

(** Who speaks. *)
Lemma speaks s t : strans s t -> exists ev, trace t = trace s ++ ev
  /\ (ev = []
      \/ (exists k p c, nth_error (loops s) k = Some p /\ about p = Some c /\ Forall (fun e => conn_of e = c) ev)
      \/ (exists c x, nth_error (cns s) c = Some x /\ lively x /\ Forall (fun e => conn_of e = c) ev)
      \/ (hands s <> [] /\ exists c q st, ev = [fst (serve_req c q st)])).
Proof.
  intros T. destruct T; try (exists []; split; [symmetry; apply app_nil_r|left; reflexivity]).
  - exists [EState c StateNew]. split; [reflexivity|]. right. left. exists k, (LNew c), c. auto.
  - exists [EState c StateClosed]. split; [reflexivity|]. right. left. exists k, (LReject c), c. auto.
  - exists [EClose c]. split; [reflexivity|]. right. left. exists k, (LRejClose c), c. auto.
  - exists [fst (serve_req c q st)]. split; [reflexivity|]. right. right. left. eexists c, _. split; [exact H|]. split; [exact Logic.I|].
    repeat constructor. apply serve_req_conn.
  - exists [EState c StateClosed]. split; [reflexivity|]. right. right. left. eexists c, _. split; [exact H|]. split; [exact Logic.I|].
    repeat constructor.
  - exists [EClose c]. split; [reflexivity|]. right. right. left. eexists c, _. split; [exact H|]. split; [exact Logic.I|].
    repeat constructor.
  - exists [fst (serve_req c q st)]. split; [reflexivity|]. right. right. right. split; [|eauto].
    intro E. rewrite E in H. destruct j; discriminate.
Qed.

Definition told (f : event -> bool) (s : server) : Prop :=
  filter f (trace s) = flat_map (fun c => filter f (story c s)) (seq 0 (length (cns s))).

Lemma flat_map_same {A B} (f g : A -> list B) l : (forall x, In x l -> f x = g x) -> flat_map f l = flat_map g l.
Proof.
  induction l as [|x l IH]; intro H; cbn; [reflexivity|]. rewrite (H x), IH; auto; [intros y Hy; apply H; right; exact Hy|left; reflexivity].
Qed.

Lemma told_append f s s' ev c : told f s -> trace s' = trace s ++ ev -> length (cns s') = length (cns s) ->
  Datatypes.S c = length (cns s) -> Forall (fun e => conn_of e = c) ev -> told f s'.
Proof.
  intros T Ht Hl Hc Hev. unfold told in *. rewrite Hl, Ht, filter_app, T, <- Hc, seq_S, !flat_map_app, <- app_assoc. f_equal.
  - apply flat_map_same. intros d Hd. apply in_seq in Hd. rewrite (story_trace d s s' ev Ht), (own_none c d ev Hev) by lia. rewrite app_nil_r. reflexivity.
  - cbn [flat_map plus]. rewrite !app_nil_r, (story_trace c s s' ev Ht), (own_all c ev Hev), filter_app. reflexivity.
Qed.

Lemma filter_twice {A} (f g : A -> bool) l : filter f l = [] -> filter f (filter g l) = [].
Proof.
  induction l as [|x l IH]; cbn; [reflexivity|]. destruct (f x) eqn:F; [discriminate|]. intro H.
  destruct (g x); cbn; [rewrite F|]; auto.
Qed.

Lemma told_quiet f s s' ev : told f s -> trace s' = trace s ++ ev -> length (cns s') = length (cns s) -> filter f ev = [] -> told f s'.
Proof.
  intros T Ht Hl Hev. unfold told in *. rewrite Hl, Ht, filter_app, T, Hev, app_nil_r. apply flat_map_same. intros d Hd.
  rewrite (story_trace d s s' ev Ht), filter_app, (filter_twice f (own d) ev Hev), app_nil_r. reflexivity.
Qed.

Lemma told_step f s s' : tale (sv s) -> turn s -> told f (sv s) ->
  (sequential (sv s) = true \/ forall c q st, f (fst (serve_req c q st)) = false) -> ftrans s s' -> told f (sv s').
Proof.
  intros W Tu T F X. destruct (ftrans_sv s s' X) as [->|(m & E)]; [exact T|]. apply sstep_trans in E.
  set (a := sv s) in *. set (b := sv s') in *. 
  destruct (Nat.eq_dec (length (cns b)) (length (cns a))) as [L|L].
  - destruct (speaks a b E) as (ev & Ht & [->|[(k & p & c & H1 & H2 & H3)|[(c & x & H1 & H2 & H3)|(H1 & c & q & st & ->)]]]).
    + eapply told_quiet; [exact T|exact Ht|exact L|reflexivity].
    + destruct Tu as (p' & bz & e & P & Bz & En & Y). fold a in P, Y. rewrite P in H1. apply nth_one in H1. destruct H1 as (-> & ->).
      rewrite H2 in Y. destruct bz; [contradiction|]. eapply told_append; [exact T|exact Ht|exact L|apply Y|exact H3].
    + destruct Tu as (p' & bz & e & P & Bz & En & Y). fold a in P, Y.
      assert (Last : forall c', Datatypes.S c' = length (cns a) /\ (forall d x, nth_error (cns a) d = Some x -> d < c' -> ~ lively x) ->
        Datatypes.S c = length (cns a)).
      { intros c' (Y1 & Y2). destruct (Nat.lt_ge_cases c c') as [Lt|Ge]; [exfalso; exact (Y2 c x H1 Lt H2)|]. apply nth_error_lt in H1. lia. }
      assert (Hc : Datatypes.S c = length (cns a)).
      { destruct (about p') as [c'|], bz as [c''|]; [contradiction|exact (Last _ Y)|exact (Last _ Y)|]. exfalso. exact (Y c x H1 H2). }
      eapply told_append; [exact T|exact Ht|exact L|exact Hc|exact H3].
    + destruct F as [F|F].
      * destruct W as (_ & H & _). rewrite (H F) in H1. contradiction.
      * eapply told_quiet; [exact T|exact Ht|exact L|]. cbn. rewrite F. reflexivity.
  - assert (New : length (cns b) = Datatypes.S (length (cns a)) /\ trace b = trace a).
    { clear - E L. destruct E; cbn [cns with_loop with_new with_cn with_counter with_hands emits] in L; rewrite ?setnth_length in L; try contradiction.
      cbn [cns with_loop with_new]. rewrite app_length, Nat.add_1_r. auto. }
    destruct New as (N1 & N2). unfold told in *. rewrite N1, N2, T, seq_S, flat_map_app. cbn [flat_map plus].
    assert (Z : forall d, story d b = story d a) by (intro d; unfold story; rewrite N2; reflexivity).
    destruct W as (_ & _ & _ & _ & _ & _ & T4). rewrite (Z (length (cns a))), T4 by lia. cbn [filter app]. rewrite app_nil_r.
    apply flat_map_same. intros d _. rewrite Z. reflexivity.
Qed.

Lemma told_run f lim q sch : q = true \/ (forall c r st, f (fst (serve_req c r st)) = false) ->
  let s := frun sch (fstart lim true q 1) in turn s /\ told f (sv s).
Proof.
  intro F.
  assert (G : let s := frun sch (fstart lim true q 1) in
    ((exists sch', sv s = srun sch' (sstart lim q 1)) /\ serial s = true) /\ turn s /\ told f (sv s)).
  { apply (frun_inv (fun s => ((exists sch', sv s = srun sch' (sstart lim q 1)) /\ serial s = true) /\ turn s /\ told f (sv s))).
    - split; [split; [exists []; reflexivity|reflexivity]|]. split; [|reflexivity]. exists LIdle, None, None. repeat split.
      intros [|d] x H; discriminate.
    - intros m s s' (((sch' & E) & Q) & Tu & T) St. apply fstep_trans in St.
      assert (Sim : sv s' = sv s \/ exists m, sstep m (sv s) = Some (sv s')) by (apply ftrans_sv; exact St).
      split; [split|split].
      + destruct Sim as [->|(m' & E')]; [eauto|]. exists (sch' ++ [m']). rewrite srun_app, <- E. cbn. unfold sact. rewrite E'. reflexivity.
      + destruct St; exact Q.
      + apply (turn_step s s'); auto. rewrite E. apply shape_run.
      + apply (told_step f s s'); auto; [rewrite E; apply tale_run|]. destruct F as [->|F]; [left; rewrite E; apply sequential_run|right; exact F]. }
  apply G.
Qed.

(** ** Everything accepted is finished *)
Definition seated (s : frame) : Prop :=
  forall k c, nth_error (busy s) k = Some (Some c) -> exists x, nth_error (cns (sv s)) c = Some x /\ cserve x <> VNot.

(** A connection stays and once served is not unserved. *)
Lemma cns_step s t : shape s -> strans s t -> forall c x, nth_error (cns s) c = Some x -> cserve x <> VNot ->
  exists y, nth_error (cns t) c = Some y /\ cserve y <> VNot /\ cmsgs y = cmsgs x.
Proof.
  intros (A & _ & C) T d z Hd Hz.
  assert (K : forall c x y, nth_error (cns s) c = Some x -> cserve y <> VNot -> cmsgs y = cmsgs x ->
    exists w, nth_error (setnth c y (cns s)) d = Some w /\ cserve w <> VNot /\ cmsgs w = cmsgs z).
  { intros c x y Hc Hy M. destruct (Nat.eq_dec d c) as [->|N].
    - exists y. rewrite setnth_same by (eapply nth_error_lt; exact Hc). rewrite M. repeat split; auto. congruence.
    - exists z. rewrite setnth_other by exact N. auto. }
  destruct T; cbn [cns with_loop with_new with_cn with_counter with_hands emits]; try (exists z; auto; fail);
    try (eapply K; [exact H|cbn; try discriminate|reflexivity]).
  - exists z. rewrite nth_error_app1 by (eapply nth_error_lt; exact Hd). auto.
  - eapply K; [exact H0|discriminate|reflexivity].
  - intro E. subst v. destruct (proj1 (C c _ H) eq_refl); discriminate.
  - intro E. subst v. destruct (proj1 (C c _ H) eq_refl); discriminate.
  - destruct (snd (serve_req c q st)); discriminate.
Qed.

Lemma seated_step s s' : shape (sv s) -> seated s -> ftrans s s' -> seated s'.
Proof.
  intros Sh Se T. assert (Sim := ftrans_sv s s' T).
  assert (Keep : forall c x, nth_error (cns (sv s)) c = Some x -> cserve x <> VNot -> exists y, nth_error (cns (sv s')) c = Some y /\ cserve y <> VNot).
  { intros c x Hc Hx. destruct Sim as [->|(m & E)]; [eauto|]. apply sstep_trans in E.
    destruct (cns_step _ _ Sh E c x Hc Hx) as (y & Y1 & Y2 & _). eauto. }
  intros i c Hi. destruct T as [k ms t H1 H2 H3 H4|k ms d t H1 H2 H3 H4 H5|k d x H1 H2 H3 H4|m t H1 H2|k er H1 H2 H3];
    cbn [sv busy ended with_sv with_busy with_ended] in Hi, Keep |- *;
    try (destruct (Se i c Hi) as (x' & X1 & X2); eapply Keep; eassumption).
  - apply setnth_cases in Hi. destruct Hi as [(-> & E & _)|(N & Hi)].
    + injection E as <-. destruct (loop_step_loops k ms (sv s) t H5) as (p & P1 & P2 & _ & _ & P5). destruct (P5 c H4) as (_ & x & X1 & X2).
      rewrite X2. exists (MkCn (cmsgs x) (cleft x) RReading VWait). split; [apply setnth_same; eapply nth_error_lt; exact X1|discriminate].
    + destruct (Se i c Hi) as (x & X1 & X2). eapply Keep; eassumption.
  - apply setnth_cases in Hi. destruct Hi as [(_ & E & _)|(_ & Hi)]; [discriminate|]. exact (Se i c Hi).
Qed.

Lemma reached lim one q n sch : let s := frun sch (fstart lim one q n) in
  (exists sch', sv s = srun sch' (sstart lim q n)) /\ crew s /\ seated s.
Proof.
  assert (G : let s := frun sch (fstart lim one q n) in (exists sch', sv s = srun sch' (sstart lim q n)) /\ seated s).
  { apply (frun_inv (fun s => (exists sch', sv s = srun sch' (sstart lim q n)) /\ seated s)).
    - split; [exists []; reflexivity|]. intros k c H. apply nth_error_repeat in H. discriminate.
    - intros m s s' ((sch' & E) & Se) St. apply fstep_trans in St. split.
      + destruct (ftrans_sv _ _ St) as [->|(m' & E')]; [eauto|]. exists (sch' ++ [m']). rewrite srun_app, <- E. cbn. unfold sact. rewrite E'. reflexivity.
      + apply (seated_step s s'); auto. rewrite E. apply shape_run. }
  destruct G as (G1 & G2). split; [exact G1|]. split; [apply crew_run|exact G2].
Qed.

Lemma lift_step s m t : crew s -> arrival m (sv s) = false -> sstep m (sv s) = Some t ->
  exists s', fstep (FMove m) s = Some s' /\ sv s' = t /\ ended s' = ended s.
Proof.
  intros (L1 & L2 & B & En & _) Ar E. destruct m as [k ms|c|c|j]; try (cbn [fstep]; rewrite E; eexists; split; [reflexivity|]; split; reflexivity).
  cbn [sstep arrival] in *. cbn [fstep]. unfold frame_loop.
  destruct (loop_step_loops k ms (sv s) t E) as (p & _ & Lt & _).
  destruct (nth_error (ended s) k) as [[e|]|] eqn:E1; [|destruct (nth_error (busy s) k) as [[c|]|] eqn:E2|].
  - rewrite (En k e E1) in Ar. discriminate.
  - rewrite (B k c E2) in Ar. discriminate.
  - rewrite E. destruct (serial s); [|eexists; split; [reflexivity|]; split; reflexivity].
    destruct (nth_error (loops (sv s)) k) as [[| | | | | |]|]; eexists; (split; [reflexivity|]); split; reflexivity.
  - apply nth_error_None in E2. lia.
  - apply nth_error_None in E1. lia.
Qed.

Lemma lift_run : forall sch s, shape (sv s) -> crew s -> seated s -> productive sch (sv s) ->
  exists s', frun (map FMove sch) s = s' /\ sv s' = srun sch (sv s) /\ ended s' = ended s /\ shape (sv s') /\ crew s' /\ seated s'.
Proof.
  induction sch as [|m sch IH]; intros s Sh C Se P; [exists s; split; [reflexivity|]; split; [reflexivity|]; split; [reflexivity|]; auto|].
  cbn [productive] in P. destruct P as (Ar & t & E & P). destruct (lift_step s m t C Ar E) as (s1 & F1 & F2 & F3).
  assert (T := fstep_trans _ _ _ F1).
  assert (Sh1 : shape (sv s1)) by (rewrite F2; eapply shape_step; [exact Sh|eapply sstep_trans; exact E]).
  destruct (IH s1 Sh1 (crew_step s s1 Sh C T) (seated_step s s1 Sh Se T)) as (s' & G1 & G2 & G3 & G4); [rewrite F2; exact P|].
  exists s'. change (frun (map FMove (m :: sch)) s) with (frun (map FMove sch) (fdo s (FMove m))). unfold fdo. rewrite F1. split; [exact G1|]. split; [|split; [congruence|exact G4]].
  rewrite G2, F2. change (srun sch t = srun sch (sact (sv s) m)). unfold sact. rewrite E. reflexivity.
Qed.

Lemma engaged_or (l : list (option nat)) : Forall (fun b => b = None) l \/ exists k c, nth_error l k = Some (Some c).
Proof.
  induction l as [|[c|] l IH]; [left; constructor|right; exists 0, c; reflexivity|].
  destruct IH as [IH|(k & c & IH)]; [left; constructor; auto|right; exists (Datatypes.S k), c; exact IH].
Qed.

Lemma free_all : forall j s, tally engaged (busy s) <= j -> shape (sv s) -> crew s -> seated s -> alive (sv s) -> settled (sv s) ->
  exists sch, sv (frun sch s) = sv s /\ ended (frun sch s) = ended s /\ Forall (fun b => b = None) (busy (frun sch s)).
Proof.
  induction j as [|j IH]; intros s Tj Sh C Se Al St; (destruct (engaged_or (busy s)) as [F|(k & c & Hk)]; [exists []; auto|]);
    pose proof (tally_setnth engaged None (Some c) (busy s) k Hk) as Tl; cbn [engaged] in Tl; [lia|].
  assert (E : fstep (FMove (MLoop k [])) s = Some (with_busy k None s)).
  { cbn [fstep]. unfold frame_loop. destruct C as (L1 & L2 & _ & _ & _ & _ & En).
    destruct (nth_error (ended s) k) as [[e|]|] eqn:E1; [exfalso; specialize (En k e E1); congruence| |exfalso; apply nth_error_None in E1; apply nth_error_lt in Hk; lia].
    rewrite Hk. destruct (Se k c Hk) as (x & X1 & X2). rewrite X1. destruct (settled_cn (sv s) c x Al St X1) as [V|V]; [contradiction|].
    destruct x as [a b r v]. cbn in V. subst v. reflexivity. }
  assert (T := fstep_trans _ _ _ E).
  destruct (IH (with_busy k None s)) as (sch & G1 & G2 & G3); cbn [with_busy busy sv ended] in *; try lia; auto.
  - exact (crew_step s _ Sh C T).
  - exact (seated_step s _ Sh Se T).
  - exists (FMove (MLoop k []) :: sch). change (frun (FMove (MLoop k []) :: sch) s) with (frun sch (fdo s (FMove (MLoop k [])))). unfold fdo. rewrite E. auto.
Qed.

(** Whatever has happened, the connections that were accepted can be finished
    without a new connection being accepted or an accept failing. *)
Lemma finishes lim one q n sch : let s := frun sch (fstart lim one q n) in
  exists sch' sch2, let s' := frun sch' s in
    at_leisure s' /\ ended s' = ended s /\ (exists sch1, sv s = srun sch1 (sstart lim q n)) /\ productive sch2 (sv s) /\ sv s' = srun sch2 (sv s).
Proof.
  intro s. destruct (reached lim one q n sch) as ((sch1 & E) & C & Se). fold s in E, C, Se.
  assert (Sh : shape (sv s)) by (rewrite E; apply shape_run).
  destruct (settles (work (sv s)) (sv s) (le_n _) Sh) as (sch2 & P & St).
  destruct (lift_run sch2 s Sh C Se P) as (s2 & G1 & G2 & G3 & Sh2 & C2 & Se2).
  assert (Al : alive (sv s2)) by (rewrite G2, E, <- srun_app; apply alive_run).
  rewrite <- G2 in St.
  destruct (free_all (tally engaged (busy s2)) s2 (le_n _) Sh2 C2 Se2 Al St) as (sch3 & F1 & F2 & F3).
  exists (map FMove sch2 ++ sch3), sch2. cbv zeta. rewrite frun_app, G1. repeat split.
  - rewrite F1. exact St.
  - exact F3.
  - congruence.
  - eauto.
  - exact P.
  - congruence.
Qed.

(** ** What never changes *)
Lemma cmsgs_step s t : strans s t -> forall c x, nth_error (cns s) c = Some x -> exists y, nth_error (cns t) c = Some y /\ cmsgs y = cmsgs x.
Proof.
  intros T d z Hd.
  assert (K : forall c x y, nth_error (cns s) c = Some x -> cmsgs y = cmsgs x ->
    exists w, nth_error (setnth c y (cns s)) d = Some w /\ cmsgs w = cmsgs z).
  { intros c x y Hc M. destruct (Nat.eq_dec d c) as [->|N].
    - exists y. rewrite setnth_same by (eapply nth_error_lt; exact Hc). rewrite M. split; [reflexivity|]. congruence.
    - exists z. rewrite setnth_other by exact N. auto. }
  destruct T; cbn [cns with_loop with_new with_cn with_counter with_hands emits]; try (exists z; auto; fail);
    try (eapply K; [exact H|reflexivity]).
  - exists z. rewrite nth_error_app1 by (eapply nth_error_lt; exact Hd). auto.
  - eapply K; [exact H0|reflexivity].
Qed.

Lemma sent_run sch s c ms : sent c s ms -> sent c (srun sch s) ms.
Proof.
  intro H. apply (srun_inv (fun t => sent c t ms)); [exact H|]. intros m t t' (x & X1 & X2) E. apply sstep_trans in E.
  destruct (cmsgs_step t t' E c x X1) as (y & Y1 & Y2). exists y. split; [exact Y1|congruence].
Qed.

Lemma arrival_length m s t : arrival m s = false -> sstep m s = Some t -> length (cns t) = length (cns s).
Proof.
  intros Ar E. destruct m as [k ms|c|c|j].
  - cbn [arrival] in Ar. destruct (loop_step_loops k ms s t E) as (p & _ & _ & _ & P4 & P5).
    destruct (nth_error (loops s) k) as [[|c|c|c v|c|c|c]|] eqn:Hk; try discriminate;
      try (rewrite P4 by (intros; congruence); reflexivity).
    destruct (P5 c eq_refl) as (_ & x & _ & X2). rewrite X2, setnth_length. reflexivity.
  - apply (other_step (MRecv c) s t); [discriminate|exact E].
  - apply (other_step (MServe c) s t); [discriminate|exact E].
  - apply (other_step (MHand j) s t); [discriminate|exact E].
Qed.

Lemma productive_length : forall sch s, productive sch s -> length (cns (srun sch s)) = length (cns s).
Proof.
  induction sch as [|m sch IH]; intros s P; [reflexivity|]. cbn [productive] in P. destruct P as (Ar & t & E & P).
  change (srun (m :: sch) s) with (srun sch (sact s m)). unfold sact. rewrite E, (IH t P). eapply arrival_length; eassumption.
Qed.

(** ** A Serve call that has returned *)
Lemma over s s' k e : ftrans s s' -> nth_error (ended s) k = Some (Some e) ->
  nth_error (ended s') k = Some (Some e) /\ (nth_error (loops (sv s)) k = Some LIdle -> nth_error (loops (sv s')) k = Some LIdle).
Proof.
  intros T H. destruct T as [i ms t H1 H2 H3 H4|i ms c t H1 H2 H3 H4 H5|i c x H1 H2 H3 H4|m t H1 H2|i er H1 H2 H3];
    cbn [sv busy ended with_sv with_busy with_ended]; auto.
  - split; [exact H|]. destruct (loop_step_loops i ms (sv s) t H3) as (p & P1 & _). rewrite P1, setnth_other; [auto|]. intros ->. congruence.
  - split; [exact H|]. destruct (loop_step_loops i ms (sv s) t H5) as (p & P1 & _). rewrite P1, setnth_other; [auto|]. intros ->. congruence.
  - split; [exact H|]. destruct (other_step m (sv s) t H1 H2) as (P1 & _). rewrite P1. auto.
  - split; [|auto]. rewrite setnth_other; [exact H|]. intros ->. congruence.
Qed.

Lemma over_length s s' : crew s -> ftrans s s' -> Forall (fun e => e <> None) (ended s) -> length (cns (sv s')) = length (cns (sv s)) /\ ended s' = ended s.
Proof.
  intros C T F.
  assert (No : forall i, nth_error (ended s) i = Some None -> False).
  { intros i Hi. apply nth_error_In in Hi. exact (proj1 (Forall_forall _ _) F _ Hi eq_refl). }
  destruct T as [i ms t H1 H2 H3 H4|i ms c t H1 H2 H3 H4 H5|i c x H1 H2 H3 H4|m t H1 H2|i er H1 H2 H3];
    cbn [sv busy ended with_sv with_busy with_ended]; try (exfalso; eapply No; eassumption).
  split; [|reflexivity]. apply (other_step m (sv s) t H1 H2).
Qed.

(** ** A peer that is silent *)
Definition held_up (c : nat) (x : cn) (n : nat) (s : frame) : Prop :=
  busy s = [Some c] /\ nth_error (cns (sv s)) c = Some x /\ length (cns (sv s)) = n /\ length (loops (sv s)) = 1.

Lemma held_up_step c ms lf n m s s' : held_up c (MkCn ms lf RReading VWait) n s -> silent c m -> fstep m s = Some s' ->
  held_up c (MkCn ms lf RReading VWait) n s'.
Proof.
  intros (B & Hc & Ln & Ll) Si E. destruct m as [[k rs|d|d|j]|k e]; cbn [fstep] in E.
  - unfold frame_loop in E. destruct (nth_error (ended s) k) as [[e|]|]; try discriminate. rewrite B in E.
    destruct k as [|[|k]]; cbn [nth_error] in E; try discriminate. rewrite Hc in E. discriminate.
  - destruct (sstep (MRecv d) (sv s)) as [t|] eqn:X; [|discriminate]. injection E as <-. cbn [sstep] in X.
    assert (N : d <> c) by (intros ->; apply Si; reflexivity).
    unfold recv_step in X. destruct (nth_error (cns (sv s)) d) as [[a b r v]|] eqn:Hd; [|discriminate]. destruct r; try discriminate.
    destruct b; injection X as <-; unfold held_up; cbn [busy sv with_sv with_cn cns loops];
      rewrite setnth_other, setnth_length by congruence; auto.
  - destruct (sstep (MServe d) (sv s)) as [t|] eqn:X; [|discriminate]. injection E as <-. cbn [sstep] in X.
    destruct (other_step (MServe d) (sv s) t ltac:(discriminate) X) as (P1 & P2 & _). unfold held_up. cbn [busy sv with_sv].
    rewrite P1, P2. split; [exact B|]. split; [|auto].
    destruct (Nat.eq_dec d c) as [->|N]; [unfold serve_step in X; rewrite Hc in X; discriminate|].
    unfold serve_step in X. destruct (nth_error (cns (sv s)) d) as [[a b r v]|]; [|discriminate].
    destruct v as [| |q st| | | |]; try discriminate.
    + destruct r as [| |[q|]|]; try discriminate; [destruct (sequential (sv s))|]; injection X as <-; cbn [cns with_cn with_hands];
        rewrite setnth_other by congruence; exact Hc.
    + destruct (serve_req d q st) as [e [y|]]; injection X as <-; cbn [cns with_cn emits]; rewrite setnth_other by congruence; exact Hc.
    + injection X as <-; cbn [cns with_cn with_counter]; rewrite setnth_other by congruence; exact Hc.
    + injection X as <-; cbn [cns with_cn emits]; rewrite setnth_other by congruence; exact Hc.
    + injection X as <-; cbn [cns with_cn emits]; rewrite setnth_other by congruence; exact Hc.
  - destruct (sstep (MHand j) (sv s)) as [t|] eqn:X; [|discriminate]. injection E as <-.
    cbn [sstep] in X. unfold hand_step in X. destruct (nth_error (hands (sv s)) j) as [[[d q] [st|]]|]; try discriminate.
    destruct (serve_req d q st) as [e st']. injection X as <-. split; [exact B|]. split; [exact Hc|]. auto.
  - unfold frame_fail in E. destruct (nth_error (ended s) k) as [[x|]|]; try discriminate. rewrite B in E.
    destruct k as [|[|k]]; cbn [nth_error] in E; discriminate.
Qed.

Lemma held_up_run c ms lf n : forall sch s, Forall (silent c) sch -> held_up c (MkCn ms lf RReading VWait) n s ->
  held_up c (MkCn ms lf RReading VWait) n (frun sch s).
Proof.
  induction sch as [|m sch IH]; intros s F H; [exact H|]. inversion F as [|? ? F1 F2]; subst.
  change (frun (m :: sch) s) with (frun sch (fdo s m)). apply IH; [exact F2|]. unfold fdo. destruct (fstep m s) as [s'|] eqn:E; [|exact H].
  eapply held_up_step; eassumption.
Qed.

(** ** The whole trace *)
Lemma begins_refl {A} (l : list A) : begins l l.
Proof. exists []. apply app_nil_r. Qed.

Lemma begins_flat {A} (g h : nat -> list A) n : (forall c, Datatypes.S c < n -> g c = h c) -> (forall c, Datatypes.S c = n -> begins (g c) (h c)) ->
  begins (flat_map g (seq 0 n)) (flat_map h (seq 0 n)).
Proof.
  intros E B. destruct n as [|n]; [apply begins_refl|]. rewrite seq_S, !flat_map_app. cbn [flat_map plus]. rewrite !app_nil_r.
  rewrite (flat_map_same g h (seq 0 n)); [|intros c Hc; apply in_seq in Hc; apply E; lia].
  destruct (B n eq_refl) as (t & <-). exists t. apply eq_sym, app_assoc.
Qed.

Lemma played_app a ms : forall l, played a (l ++ [ms]) = played a l ++ served_story (a + length l) ms.
Proof.
  intro l. revert a. induction l as [|x l IH]; intro a; [cbn [app played length]; rewrite Nat.add_0_r, app_nil_r; reflexivity|].
  cbn [app played length]. rewrite IH, <- app_assoc. do 2 f_equal. f_equal. lia.
Qed.

Definition script (l : list cn) (c : nat) : list event := match nth_error l c with Some x => served_story c (cmsgs x) | None => [] end.

Lemma played_script l : played 0 (map cmsgs l) = flat_map (script l) (seq 0 (length l)).
Proof.
  induction l as [|x l IH] using rev_ind; [reflexivity|].
  rewrite map_app, app_length. cbn [map length]. rewrite played_app, map_length, IH, Nat.add_1_r, seq_S, flat_map_app. cbn [flat_map plus].
  rewrite app_nil_r. f_equal.
  - apply flat_map_same. intros c Hc. apply in_seq in Hc. unfold script. rewrite nth_error_app1 by lia. reflexivity.
  - unfold script. rewrite nth_error_app2, Nat.sub_diag by lia. reflexivity.
Qed.

Lemma last_busy s c x : turn s -> nth_error (cns (sv s)) c = Some x -> Datatypes.S c < length (cns (sv s)) ->
  ~ lively x /\ forall k p, nth_error (loops (sv s)) k = Some p -> about p <> Some c.
Proof.
  intros (p & b & e & P & Bz & En & X) Hc Lt. split.
  - destruct (about p) as [c'|], b as [c''|]; try contradiction; [destruct X as (X1 & X2)|destruct X as (X1 & X2)|eapply X; exact Hc]; eapply X2; try exact Hc; lia.
  - intros k r Hr Ha. rewrite P in Hr. apply nth_one in Hr. destruct Hr as (-> & ->). rewrite Ha in X. destruct b; [contradiction|]. lia.
Qed.

Lemma not_lively x : ~ lively x -> cserve x = VNot \/ cserve x = VGone.
Proof. unfold lively. destruct (cserve x); auto; intro H; exfalso; apply H; exact Logic.I. Qed.

Lemma cserve_not_dec x : {cserve x = VNot} + {cserve x <> VNot}.
Proof. destruct (cserve x); auto; right; discriminate. Qed.

Lemma phase_visit c p : about p = Some c -> begins (filter coming_or_going (phase_story c p)) (visit c).
Proof. destruct p; cbn; intro H; try discriminate; injection H as <-; eexists; reflexivity. Qed.

Lemma in_turn lim q sch : let s := frun sch (fstart lim true q 1) in
  begins (filter coming_or_going (trace (sv s))) (flat_map visit (seq 0 (length (cns (sv s))))).
Proof.
  intro s. destruct (told_run coming_or_going lim q sch) as (Tu & T); [right; intros; apply serve_req_quiet|]. fold s in Tu, T.
  destruct (frame_simulates lim true q 1 sch) as (sch' & E). fold s in E.
  assert (W : tale (sv s)) by (rewrite E; apply tale_run). assert (V : visits (sv s)) by (rewrite E; apply visits_run).
  destruct W as (_ & _ & _ & T1 & _ & T3 & _).
  rewrite T. apply begins_flat; intros c Hc.
  - destruct (nth_error (cns (sv s)) c) as [x|] eqn:Hx; [|apply nth_error_None in Hx; lia].
    destruct (last_busy s c x Tu Hx Hc) as (L1 & L2). destruct (not_lively x L1) as [N|N].
    + destruct (T3 c x Hx N) as [(k & p & Hk & Hp)|R]; [exfalso; exact (L2 k p Hk Hp)|]. rewrite R. reflexivity.
    + assert (X := V c x Hx ltac:(congruence)). unfold to_go in X. rewrite N, app_nil_r in X. exact X.
  - destruct (nth_error (cns (sv s)) c) as [x|] eqn:Hx; [|apply nth_error_None in Hx; lia].
    destruct (cserve_not_dec x) as [N|N].
    + destruct (T3 c x Hx N) as [(k & p & Hk & Hp)|R]; [rewrite (T1 k p c Hk Hp); apply phase_visit; exact Hp|]. rewrite R. apply begins_refl.
    + exists (to_go c x). apply V; assumption.
Qed.

Lemma filter_all {A} (l : list A) : filter (fun _ => true) l = l.
Proof. induction l as [|x l IH]; cbn; [reflexivity|f_equal; exact IH]. Qed.

Lemma welcome_story s c x : tale s -> sequential s = true -> no_refusal s -> attended s -> nth_error (cns s) c = Some x ->
  begins (story c s) (served_story c (cmsgs x)).
Proof.
  intros (_ & _ & _ & T1 & T2 & _) Q R A Hx. destruct (cserve_not_dec x) as [N|N].
  - destruct (A c x Hx N) as (k & p & Hk & Hp). rewrite (T1 k p c Hk Hp). specialize (R k p Hk).
    destruct p; try contradiction; try discriminate; cbn; eexists; reflexivity.
  - exists (future c x). apply T2; assumption.
Qed.

Lemma one_by_one lim sch : (lim = 0 \/ 1 <= wrap32 lim)%Z -> let s := frun sch (fstart lim true true 1) in
  begins (trace (sv s)) (played 0 (map cmsgs (cns (sv s)))).
Proof.
  intros L s. destruct (told_run (fun _ => true) lim true sch) as (Tu & T); [left; reflexivity|]. fold s in Tu, T.
  destruct (guarded_run lim true 1 sch L ltac:(lia)) as (_ & R & A). fold s in R, A.
  destruct (frame_simulates lim true true 1 sch) as (sch' & E). fold s in E.
  assert (W : tale (sv s)) by (rewrite E; apply tale_run). assert (Q : sequential (sv s) = true) by (rewrite E; apply sequential_run).
  unfold told in T. rewrite filter_all in T. rewrite T, played_script. apply begins_flat; intros c Hc; rewrite filter_all.
  - destruct (nth_error (cns (sv s)) c) as [x|] eqn:Hx; [|apply nth_error_None in Hx; lia].
    destruct (last_busy s c x Tu Hx Hc) as (L1 & L2). destruct (not_lively x L1) as [N|N].
    + destruct (A c x Hx N) as (k & p & Hk & Hp). exfalso; exact (L2 k p Hk Hp).
    + unfold script. rewrite Hx. destruct W as (_ & _ & _ & _ & T2 & _). assert (X := T2 c x Q Hx ltac:(congruence)).
      unfold future in X. rewrite N, app_nil_r in X. exact X.
  - destruct (nth_error (cns (sv s)) c) as [x|] eqn:Hx; [|apply nth_error_None in Hx; lia].
    unfold script. rewrite Hx. apply welcome_story; assumption.
Qed.
