(** Lemmas about the lock of a multiplexer. *)
From Verif Require Import LockModel LockSpec.

Definition holds (st : list frame) : nat :=
  length (filter (fun f => match f with Looking _ _ | Asking _ _ _ => true | _ => false end) st).

Inductive base : list frame -> Prop :=
| base_one l : base [Todo l]
| base_more l e rest r st : base st -> base (Todo l :: Asking e rest r :: st).
Inductive shaped : list frame -> Prop :=
| sh_base st : base st -> shaped st
| sh_look rest r st : base st -> shaped (Looking rest r :: st)
| sh_wants w st : base st -> shaped (Wants w :: st)
| sh_ann w st : base st -> shaped (Announced w :: st).

Inductive ltrans (ms : matchers) (i : nat) (s s' : lmux) : Prop :=
| TServe r l st : stacks s i = Todo (LServe r :: l) :: st -> ann s = None ->
    s' = MkLmux (ents s) (i :: rds s) None (set i (Looking (ents s) r :: Todo l :: st) (stacks s)) (fin s) -> ltrans ms i s s'
| TRegister p once l st : stacks s i = Todo (LRegister p once :: l) :: st -> ann s = None ->
    s' = MkLmux (ents s) (rds s) (Some i) (set i (Announced (Add p once) :: Todo l :: st) (stacks s)) (fin s) -> ltrans ms i s s'
| TWants w st : stacks s i = Wants w :: st -> ann s = None ->
    s' = MkLmux (ents s) (rds s) (Some i) (set i (Announced w :: st) (stacks s)) (fin s) -> ltrans ms i s s'
| TWrite w st : stacks s i = Announced w :: st -> rds s = [] ->
    s' = MkLmux (apply w (ents s)) [] None (set i st (stacks s)) (fin s ++ [(i, Wrote w (ents s))]) -> ltrans ms i s s'
| TNone r st : stacks s i = Looking [] r :: st ->
    s' = MkLmux (ents s) (release i (rds s)) (ann s) (set i st (stacks s)) (fin s ++ [(i, Found None)]) -> ltrans ms i s s'
| TAsk e0 rest0 e rest r st : stacks s i = Looking (e0 :: rest0) r :: st ->
    length rest = length rest0 -> (forall x, In x (e :: rest) -> In x (e0 :: rest0)) ->
    s' = MkLmux (ents s) (rds s) (ann s) (set i (Todo (inner ms (fst e) r) :: Asking e rest r :: st) (stacks s)) (fin s) -> ltrans ms i s s'
| TTake e rest r st : stacks s i = Todo [] :: Asking e rest r :: st -> says ms (fst e) r = true -> snd e = true ->
    s' = MkLmux (ents s) (release i (rds s)) (ann s) (set i (Wants (Remove (fst e)) :: st) (stacks s)) (fin s) -> ltrans ms i s s'
| TFound e rest r st : stacks s i = Todo [] :: Asking e rest r :: st -> says ms (fst e) r = true -> snd e = false ->
    s' = MkLmux (ents s) (release i (rds s)) (ann s) (set i st (stacks s)) (fin s ++ [(i, Found (Some e))]) -> ltrans ms i s s'
| TNext e rest r st : stacks s i = Todo [] :: Asking e rest r :: st -> says ms (fst e) r = false ->
    s' = MkLmux (ents s) (rds s) (ann s) (set i (Looking rest r :: st) (stacks s)) (fin s) -> ltrans ms i s s'.

Lemma choose_spec n : forall e0 l x rest, choose n e0 l = (x, rest) ->
  length rest = length l /\ forall y, In y (x :: rest) -> In y (e0 :: l).
Proof.
  induction n as [|n IH]; intros e0 l x rest H; [injection H as <- <-; auto|].
  destruct l as [|f l]; [injection H as <- <-; auto|]. cbn in H. destruct (choose n f l) as [x' rest'] eqn:E. injection H as <- <-.
  destruct (IH _ _ _ _ E) as [L I]. split; [cbn; lia|]. intros y [<-|[<-|Hy]]; [right; apply I; now left|now left|right; apply I; now right].
Qed.

Lemma lstep_trans ms i n s s' : lstep ms i n s = Some s' -> ltrans ms i s s'.
Proof.
  unfold lstep. destruct (stacks s i) as [|[[|[p once|r] l]|[|e0 rest0] r|e rest r|w|w] st] eqn:E; try discriminate.
  - destruct st as [|[| |e rest r| |] st]; try discriminate. destruct (says ms (fst e) r) eqn:Sy.
    + destruct (snd e) eqn:On; intro H; injection H as <-; [eapply TTake|eapply TFound]; eauto.
    + intro H; injection H as <-. eapply TNext; eauto.
  - destruct (ann s) eqn:A; [discriminate|]. intro H; injection H as <-. eapply TRegister; eauto.
  - destruct (ann s) eqn:A; [discriminate|]. intro H; injection H as <-. eapply TServe; eauto.
  - intro H; injection H as <-. eapply TNone; eauto.
  - destruct (choose n e0 rest0) as [e rest] eqn:C. intro H; injection H as <-. destruct (choose_spec _ _ _ _ _ C). eapply TAsk; eauto.
  - destruct (ann s) eqn:A; [discriminate|]. intro H; injection H as <-. eapply TWants; eauto.
  - destruct (rds s) eqn:R; [|discriminate]. intro H; injection H as <-. eapply TWrite; eauto.
Qed.

Lemma lrun_inv ms (P : lmux -> Prop) : (forall i s s', P s -> ltrans ms i s s' -> P s') ->
  forall sch s, P s -> P (lrun ms sch s).
Proof.
  intros H. induction sch as [|a sch IH]; intros s Hs; [exact Hs|]. cbn. apply IH. unfold lact.
  destruct (lstep ms (fst a) (snd a) s) as [s'|] eqn:E; [|exact Hs]. eapply H; [exact Hs|]. eapply lstep_trans, E.
Qed.

Definition sound (s : lmux) : Prop :=
  (forall i, shaped (stacks s i)) /\ (forall i, count_occ Nat.eq_dec (rds s) i = holds (stacks s i))
  /\ forall i, ann s = Some i <-> in_lock (stacks s i).

Lemma set_same i st f : set i st f i = st.
Proof. unfold set. now rewrite Nat.eqb_refl. Qed.
Lemma set_other i j st f : j <> i -> set i st f j = f j.
Proof. intro H. unfold set. destruct (Nat.eqb_spec j i); congruence. Qed.

Lemma release_count i j l : count_occ Nat.eq_dec (release i l) j = count_occ Nat.eq_dec l j - (if Nat.eq_dec i j then 1 else 0).
Proof.
  induction l as [|k l IH]; [destruct (Nat.eq_dec i j); reflexivity|]. cbn [release count_occ].
  destruct (Nat.eqb_spec k i) as [->|N].
  - destruct (Nat.eq_dec i j); lia.
  - cbn [count_occ]. destruct (Nat.eq_dec k j) as [->|M]; rewrite IH; destruct (Nat.eq_dec i j); try lia; try congruence.
Qed.

Lemma base_shape st : base st -> exists l st', st = Todo l :: st'.
Proof. destruct 1; eauto. Qed.

Lemma shaped_cons f st : shaped (f :: st) ->
  match f with Todo l => st = [] \/ exists e rest r st', st = Asking e rest r :: st' /\ base st' | Asking _ _ _ => False | _ => base st end.
Proof.
  intro H. inversion H as [st0 B|rest r st0 B|w st0 B|w st0 B]; subst; auto.
  inversion B; subst; eauto 7.
Qed.

Lemma not_in_lock_base st : base st -> ~ in_lock st.
Proof. intros B (w & st' & ->). inversion B. Qed.

Lemma base_todo l l' st : base (Todo l :: st) -> base (Todo l' :: st).
Proof. intro H. inversion H; subst; constructor; assumption. Qed.
Lemma shaped_todo l st : shaped (Todo l :: st) -> base (Todo l :: st).
Proof. intro H. inversion H; assumption. Qed.

Lemma shaped_step ms i s s' : (forall j, shaped (stacks s j)) -> ltrans ms i s s' -> forall j, shaped (stacks s' j).
Proof.
  intros Sh H.
  assert (One : forall st, shaped st -> forall j, shaped (set i st (stacks s) j)).
  { intros st Hs j. destruct (Nat.eq_dec j i) as [->|N]; [rewrite set_same; exact Hs|rewrite set_other by exact N; apply Sh]. }
  pose proof (Sh i) as Si.
  destruct H as [r l st E A ->|p once l st E A ->|w st E A ->|w st E R ->|r st E ->|e0 rest0 e rest r st E L I ->
    |e rest r st E Y O ->|e rest r st E Y O ->|e rest r st E Y ->]; rewrite E in Si; cbn [stacks]; apply One.
  - apply sh_look. apply (base_todo (LServe r :: l)), shaped_todo, Si.
  - apply sh_ann. apply (base_todo (LRegister p once :: l)), shaped_todo, Si.
  - apply sh_ann. exact (shaped_cons _ _ Si).
  - apply sh_base. exact (shaped_cons _ _ Si).
  - apply sh_base. exact (shaped_cons _ _ Si).
  - apply sh_base. constructor. exact (shaped_cons _ _ Si).
  - apply shaped_todo in Si. inversion Si; subst. now apply sh_wants.
  - apply shaped_todo in Si. inversion Si; subst. now apply sh_base.
  - apply shaped_todo in Si. inversion Si; subst. now apply sh_look.
Qed.

Lemma holds_cons f st : holds (f :: st) = match f with Looking _ _ | Asking _ _ _ => 1 | _ => 0 end + holds st.
Proof. unfold holds. destruct f; reflexivity. Qed.

Lemma count_step ms i s s' : (forall j, count_occ Nat.eq_dec (rds s) j = holds (stacks s j)) -> ltrans ms i s s' ->
  forall j, count_occ Nat.eq_dec (rds s') j = holds (stacks s' j).
Proof.
  intros Ct H j. pose proof (Ct i) as Ci. pose proof (Ct j) as Cj.
  destruct H as [r l st E A ->|p once l st E A ->|w st E A ->|w st E R ->|r st E ->|e0 rest0 e rest r st E L I ->
    |e rest r st E Y O ->|e rest r st E Y O ->|e rest r st E Y ->]; rewrite E, !holds_cons in Ci; cbn [stacks rds];
  (destruct (Nat.eq_dec j i) as [Ej|N]; [subst j; rewrite set_same|rewrite set_other by exact N; rewrite <- Cj]);
  rewrite ?holds_cons, ?release_count; cbn [count_occ]; try (destruct (Nat.eq_dec i i); [|congruence]);
  try (destruct (Nat.eq_dec i j); [congruence|]); try lia; rewrite R in *; cbn [count_occ] in *; lia.
Qed.

Lemma ann_step ms i s s' : (forall j, shaped (stacks s j)) -> (forall j, ann s = Some j <-> in_lock (stacks s j)) -> ltrans ms i s s' ->
  forall j, ann s' = Some j <-> in_lock (stacks s' j).
Proof.
  intros Sh An H j. pose proof (An i) as Ai. pose proof (An j) as Aj. pose proof (Sh i) as Si.
  assert (NB : forall st, base st -> ~ in_lock st) by (intros st B (w & st' & ->); inversion B).
  destruct H as [r l st E A ->|p once l st E A ->|w st E A ->|w st E R ->|r st E ->|e0 rest0 e rest r st E L I ->
    |e rest r st E Y O ->|e rest r st E Y O ->|e rest r st E Y ->]; rewrite E in Ai, Si; cbn [stacks ann];
  (destruct (Nat.eq_dec j i) as [Ej|N]; [subst j; rewrite set_same|rewrite set_other by exact N; rewrite <- Aj]);
  pose proof (shaped_cons _ _ Si) as Sc; cbn beta iota in Sc; try (apply shaped_todo in Si; inversion Si; subst).
  all: try reflexivity.
  all: try (split; [intro K; discriminate K|intro K]); try (exfalso; exact (NB _ Sc K)).
  all: try (rewrite A in K; discriminate K).
  all: try (destruct K as (? & ? & K); discriminate K).
  all: try (split; [intro K; injection K as K; congruence|intro K; rewrite A in K; discriminate K]).
  all: try (split; [intro K; do 2 eexists; reflexivity|reflexivity]).
  all: try (split; [intro K; apply Ai in K; destruct K as (? & ? & K); discriminate K|intro K]).
  all: try (destruct K as (? & ? & K); discriminate K).
  all: try (exfalso; eapply NB; [|exact K]; assumption).
  all: try (assert (ann s = Some i) by (apply Ai; do 2 eexists; reflexivity); congruence).
Qed.

Lemma sound_run ms es prog sch : sound (lrun ms sch (lstart es prog)).
Proof.
  apply lrun_inv.
  - intros i s s' (Sh & Ct & An) H. split; [eapply shaped_step; eauto|]. split; [eapply count_step; eauto|eapply ann_step; eauto].
  - split; [intro i; repeat constructor|]. split; [reflexivity|]. intro i. split; [discriminate|intros (? & ? & K); discriminate K].
Qed.

Lemma in_matcher_holds st : in_matcher st -> 0 < holds st.
Proof.
  intros (e & rest & r & H). induction st as [|f st IH]; [destruct H|]. rewrite holds_cons. destruct H as [->|H]; [lia|]. specialize (IH H). lia.
Qed.
