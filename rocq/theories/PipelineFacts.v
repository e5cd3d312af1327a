(** Lemmas on PipelineModel. *)
From Coq Require Import Lia Permutation.
From Verif Require Import PipelineModel PipelineSpec.

Lemma sum_app a b : sum (a ++ b) = sum a + sum b.
Proof. induction a as [|x a IH]; cbn [sum fold_right app]; [reflexivity|]. change (fold_right Nat.add 0) with sum. rewrite IH. lia. Qed.

Lemma sum_perm a b : Permutation a b -> sum a = sum b.
Proof. induction 1; cbn [sum fold_right] in *; change (fold_right Nat.add 0) with sum in *; lia. Qed.

Lemma firstn_S_nth {A} (d : A) k l : k < length l -> firstn (S k) l = firstn k l ++ [nth k l d].
Proof.
  revert k. induction l as [|x l IH]; intros k H; cbn [length] in H; [lia|].
  destruct k as [|k]; [reflexivity|]. cbn [firstn nth app]. f_equal. apply IH. lia.
Qed.

Lemma requests_mono c i j : i <= j -> requests c i <= requests c j.
Proof.
  intro H. unfold requests. replace j with (i + (j - i)) by lia. generalize (j - i). intro d. clear H.
  revert i. generalize (exchanges c). induction l as [|x l IH]; intros i; [rewrite !firstn_nil; auto|].
  destruct i; cbn [firstn Nat.add map sum fold_right]; change (fold_right Nat.add 0) with sum; [lia|].
  specialize (IH i). lia.
Qed.

Lemma requests_le c k : requests c k <= requests c (count c).
Proof.
  destruct (Nat.le_gt_cases k (count c)); [now apply requests_mono|].
  unfold requests, count. rewrite (firstn_all2 (n := k)) by (unfold count in *; lia). rewrite firstn_all. auto.
Qed.

Lemma replies_to_mono c i j : i <= j -> replies_to c i <= replies_to c j.
Proof.
  intro H. unfold replies_to; change total with sum. replace j with (i + (j - i)) by lia. generalize (j - i). intro d. clear H.
  revert i. generalize (exchanges c). induction l as [|x l IH]; intros i; [rewrite !firstn_nil; auto|].
  destruct i; cbn [firstn Nat.add map sum fold_right]; change (fold_right Nat.add 0) with sum; [lia|].
  specialize (IH i). lia.
Qed.

Lemma replies_to_seq c k : k <= count c -> sum (map (reply c) (seq 0 k)) = replies_to c k.
Proof.
  induction k as [|k IH]; intro H; [reflexivity|].
  rewrite seq_S, map_app, sum_app, IH by lia. unfold replies_to; change total with sum. rewrite (firstn_S_nth (0, 0) k) by exact H.
  rewrite map_app, sum_app. unfold reply. cbn [map sum fold_right]. rewrite Nat.add_0_l. reflexivity.
Qed.

Lemma replies_all c : replies_to c (count c) = replies c.
Proof. unfold replies_to, replies, count; change total with sum. now rewrite firstn_all. Qed.

Lemma replies_le c k : replies_to c k <= replies c.
Proof.
  rewrite <- replies_all. destruct (Nat.le_gt_cases k (count c)); [now apply replies_to_mono|].
  unfold replies_to, count; change total with sum. rewrite (firstn_all2 (n := k)) by (unfold count in *; lia). rewrite firstn_all. auto.
Qed.

(** The invariant. *)
Record sound (c : setting) (s : line) : Prop := {
  i_taken : taken s <= sent s;
  i_under : sent s <= taken s + lim_in c;
  i_sent : sent s <= requests c (count c);
  i_low : requests c (handed s) <= taken s;
  i_high : taken s <= requests c (S (handed s));
  i_handed : handed s <= count c;
  i_nodup : NoDup (order s);
  i_order : forall i, In i (order s) -> i < handed s;
  i_written : written s <= ordered c s;
  i_complete : forall l i, order s = l ++ [i] -> sum (map (reply c) l) <= written s;
  i_got : got s <= written s;
  i_out : written s <= got s + lim_out c;
  i_seq : one_by_one c = true -> order s = seq 0 (length (order s)) /\
            (handed s = length (order s) \/ handed s = S (length (order s)) /\ written s = ordered c s);
  i_after : habit c = Afterwards -> 0 < got s -> sent s = requests c (count c) }.

Lemma sound_idle c : sound c idle_line.
Proof.
  constructor; cbn [idle_line sent taken handed order written got In length seq]; intros; try lia; try contradiction;
    try apply NoDup_nil.
  - unfold requests. cbn. lia.
  - destruct l; discriminate.
  - split; [reflexivity|left; reflexivity].
Qed.

Lemma existsb_in i l : existsb (Nat.eqb i) l = true <-> In i l.
Proof.
  rewrite existsb_exists. split; [intros (x & H & E); apply Nat.eqb_eq in E; now subst|].
  intro H. exists i. split; [exact H|apply Nat.eqb_refl].
Qed.

Ltac bools := repeat
  match goal with
  | H : andb _ _ = true |- _ => apply andb_prop in H; destruct H
  | H : (_ <? _) = true |- _ => apply Nat.ltb_lt in H
  | H : (_ =? _) = true |- _ => apply Nat.eqb_eq in H
  | H : negb _ = true |- _ => apply negb_true_iff in H
  end.

Lemma sound_act c s a : sound c s -> can c s a = true -> sound c (act_on s a).
Proof.
  intros [] H. destruct a; cbn [can] in H; bools; constructor; unfold ordered in *; cbn [act_on sent taken handed order written got] in *; auto; try lia.
  - (* Send, Afterwards *) intros A G. specialize (i_after0 A G). lia.
  - (* Hand, high *) pose proof (requests_mono c (S (handed s)) (S (S (handed s)))). lia.
  - intros i Hi. specialize (i_order0 i Hi). lia.
  - intro O. destruct (i_seq0 O) as [E _]. split; [exact E|]. right. rewrite O in H0. cbn in H0. bools. lia.
  - apply Permutation_NoDup with (i :: order s); [apply Permutation_cons_append|]. constructor; [|exact i_nodup0].
    intro F. apply existsb_in in F. congruence.
  - intros j Hj. apply in_app_or in Hj. destruct Hj as [Hj|[<-|[]]]; auto.
  - rewrite map_app, sum_app. lia.
  - intros l j E. apply app_inj_tail in E. destruct E as [E _]. rewrite <- E. lia.
  - intro O. destruct (i_seq0 O) as [E D]. rewrite app_length. cbn [length]. rewrite Nat.add_1_r, seq_S.
    assert (L : forall k, k < length (order s) -> In k (order s)) by (intros k Hk; rewrite E; apply in_seq; lia).
    assert (i = length (order s)).
    { destruct D as [D|[D _]].
      - exfalso. assert (In i (order s)) as F by (apply L; lia). apply existsb_in in F. congruence.
      - destruct (Nat.eq_dec i (length (order s))) as [e|ne]; [exact e|]. exfalso.
        assert (In i (order s)) as F by (apply L; lia). apply existsb_in in F. congruence. }
    split; [rewrite <- E; cbn [Nat.add]; now subst|]. left. destruct D as [D|[D _]]; [|exact D].
    exfalso. assert (In i (order s)) as F by (apply L; lia). apply existsb_in in F. congruence.
  - intros l i E. specialize (i_complete0 l i E). lia.
  - intro O. destruct (i_seq0 O) as [E [D|[D F]]]; split; auto. lia.
  - intros A G. unfold listens in H. rewrite A in H. now apply Nat.eqb_eq in H.
Qed.

Lemma sound_flow c l s : sound c s -> sound c (flow c l s).
Proof.
  revert s. induction l as [|a l IH]; intros s H; [exact H|]. cbn [flow]. apply IH.
  destruct (can c s a) eqn:E; [now apply sound_act|exact H].
Qed.

Lemma reach c l : sound c (flow c l idle_line).
Proof. apply sound_flow, sound_idle. Qed.

(** Every step is progress, and there is only so much of it. *)
Definition progress (s : line) : nat := sent s + taken s + handed s + length (order s) + written s + got s.

Lemma progress_act s a : progress (act_on s a) = S (progress s).
Proof. unfold progress. destruct a; cbn [act_on sent taken handed order written got]; rewrite ?app_length; cbn [length]; lia. Qed.

Lemma steps_progress c l s : progress (flow c l s) = progress s + steps c l s.
Proof.
  revert s. induction l as [|a l IH]; intro s; cbn [flow steps]; [lia|].
  destruct (can c s a); rewrite IH; [rewrite progress_act|]; lia.
Qed.

Lemma order_length c s : sound c s -> length (order s) <= handed s.
Proof.
  intros []. rewrite <- (seq_length (handed s) 0). apply NoDup_incl_length; [exact i_nodup0|].
  intros i Hi. apply in_seq. specialize (i_order0 i Hi). lia.
Qed.

Lemma sum_incl c l : NoDup l -> (forall i, In i l -> i < count c) -> sum (map (reply c) l) <= replies c.
Proof.
  intros N H. rewrite <- replies_all, <- replies_to_seq by auto.
  assert (G : forall m, NoDup l -> incl l m -> sum (map (reply c) l) <= sum (map (reply c) m)).
  { clear N H. induction l as [|x l IH]; intros m N I; [cbn; lia|].
    inversion_clear N as [|? ? N1 N2]. assert (X : In x m) by (apply I; now left).
    apply in_split in X. destruct X as (m1 & m2 & ->).
    assert (J : incl l (m1 ++ m2)).
    { intros y Hy. assert (K : In y (m1 ++ x :: m2)) by (apply I; now right).
      apply in_app_or in K. apply in_or_app. destruct K as [K|[K|K]]; auto. subst. contradiction. }
    specialize (IH (m1 ++ m2) N2 J). rewrite !map_app, !sum_app in *. cbn [map sum fold_right] in *.
    change (fold_right Nat.add 0) with sum in *. lia. }
  apply G; [exact N|]. intros i Hi. apply in_seq. specialize (H i Hi). lia.
Qed.

Lemma ordered_le c s : sound c s -> ordered c s <= replies c.
Proof. intros []. unfold ordered. apply sum_incl; [exact i_nodup0|]. intros i Hi. specialize (i_order0 i Hi). lia. Qed.

Lemma progress_bound c s : sound c s -> progress s <= 2 * requests c (count c) + 2 * count c + 2 * replies c.
Proof.
  intro H. pose proof (order_length c s H). pose proof (ordered_le c s H). destruct H. unfold progress. lia.
Qed.

(** All replies in order: their sizes together are those of all replies. *)
Lemma ordered_all c s : sound c s -> handed s = count c -> (forall i, i < count c -> In i (order s)) -> ordered c s = replies c.
Proof.
  intros [] E A. unfold ordered. rewrite <- replies_all, <- replies_to_seq by auto. apply sum_perm, Permutation_map.
  apply NoDup_Permutation; [exact i_nodup0|apply seq_NoDup|]. intro i. rewrite in_seq. split.
  - intro Hi. specialize (i_order0 i Hi). lia.
  - intro Hi. apply A. lia.
Qed.

Ltac no H a := let E := fresh "R" in pose proof (H a) as E; cbn [can] in E.

Ltac off E := repeat rewrite andb_false_iff in E; repeat rewrite Nat.ltb_ge in E; repeat rewrite Nat.eqb_neq in E.

(** At rest with everything the peer has to say received or said: *)
Lemma rest_begun c s : sound c s -> at_rest c s -> written s = ordered c s -> forall i, i < handed s -> In i (order s).
Proof.
  intros _ R W i Hi. pose proof (R (Begin i)) as E. cbn [can] in E.
  rewrite W, Nat.eqb_refl, andb_true_r in E. apply andb_false_iff in E. destruct E as [E|E].
  - apply Nat.ltb_ge in E. lia.
  - apply negb_false_iff in E. now apply existsb_in.
Qed.

Lemma rest_put c s : sound c s -> at_rest c s -> written s = ordered c s \/ written s = got s + lim_out c.
Proof. intros [] R. no R Put. off R0. lia. Qed.

(** The receiver is stuck only with a request in hand, or for want of bytes. *)
Lemma rest_take c s : sound c s -> at_rest c s -> handed s < count c ->
  taken s = requests c (S (handed s)) \/ taken s = sent s.
Proof. intros [] R H. no R Take. off R0. lia. Qed.

Lemma rest_hand c s : at_rest c s -> handed s < count c -> taken s = requests c (S (handed s)) ->
  one_by_one c = true /\ (length (order s) <> handed s \/ written s <> ordered c s).
Proof.
  intros R H T. no R Hand. rewrite T, Nat.eqb_refl, andb_true_r in R0.
  replace (handed s <? count c) with true in R0 by (symmetry; now apply Nat.ltb_lt). cbn [andb] in R0.
  destruct (one_by_one c); [|discriminate]. split; [reflexivity|]. cbn [negb orb] in R0. off R0. exact R0.
Qed.

Lemma rest_send c s : sound c s -> at_rest c s -> sent s = requests c (count c) \/ sent s = taken s + lim_in c.
Proof. intros [] R. no R Send. off R0. lia. Qed.

(** Where the peer can say everything, everything is handled. *)
Lemma rest_said c s : sound c s -> at_rest c s -> 0 < lim_in c -> sent s = requests c (count c) ->
  (one_by_one c = true -> written s = ordered c s /\ length (order s) = handed s) -> handed s = count c.
Proof.
  intros S R B E W. pose proof S as [].
  destruct (Nat.eq_dec (handed s) (count c)) as [e|ne]; [exact e|]. exfalso.
  assert (H : handed s < count c) by lia.
  assert (T : taken s = requests c (Datatypes.S (handed s))).
  { destruct (rest_take c s S R H) as [T|T]; [exact T|]. pose proof (requests_le c (Datatypes.S (handed s))). lia. }
  destruct (rest_hand c s R H T) as [O D]. destruct (W O). lia.
Qed.

(** At rest with no reply stuck everything is complete. *)
Lemma rest_complete c s : sound c s -> at_rest c s -> buffered c -> written s = ordered c s ->
  sent s = requests c (count c) /\ handed s = count c /\ (forall i, i < count c -> In i (order s)).
Proof.
  intros S R [B1 B2] W. pose proof S as [].
  assert (OI : length (order s) = handed s).
  { pose proof (order_length c s S). pose proof (rest_begun c s S R W) as A.
    assert (handed s <= length (order s)); [|lia].
    rewrite <- (seq_length (handed s) 0). apply NoDup_incl_length; [apply seq_NoDup|].
    intros i Hi. apply in_seq in Hi. apply A. lia. }
  assert (E : sent s = requests c (count c)).
  { destruct (rest_send c s S R) as [E|E]; [exact E|].
    destruct (Nat.eq_dec (handed s) (count c)) as [e|ne].
    - rewrite e in *. lia.
    - exfalso. assert (H : handed s < count c) by lia.
      destruct (rest_take c s S R H) as [T|T]; [|lia].
      destruct (rest_hand c s R H T) as [_ D]. lia. }
  split; [exact E|].
  assert (H : handed s = count c) by (apply (rest_said c s S R B1 E); auto).
  split; [exact H|]. intros i Hi. apply (rest_begun c s S R W). lia.
Qed.

(** What is at rest while the peer listens has no reply stuck. *)
Lemma rest_listening c s : sound c s -> at_rest c s -> buffered c -> listens c s = true ->
  written s = ordered c s /\ got s = written s.
Proof.
  intros S R [B1 B2] L. pose proof S as []. no R Get. rewrite L in R0. cbn [andb] in R0. apply Nat.ltb_ge in R0.
  destruct (rest_put c s) as [P|P]; auto; lia.
Qed.

(** One after another, the replies that are not stuck are the first ones. *)
Lemma ordered_seq c s : sound c s -> one_by_one c = true -> ordered c s = replies_to c (length (order s)).
Proof.
  intros S O. pose proof (order_length c s S). destruct S. destruct (i_seq0 O) as [E _].
  unfold ordered. rewrite E at 1. apply replies_to_seq. lia.
Qed.

Lemma written_low c s : sound c s -> one_by_one c = true -> replies_to c (handed s - 1) <= written s.
Proof.
  intros S O. pose proof S as []. destruct (i_seq0 O) as [E D]. pose proof (order_length c s S) as L.
  destruct D as [D|[D W]].
  - destruct (handed s) as [|h] eqn:H; [cbn; unfold replies_to; cbn; lia|].
    rewrite <- D in E. rewrite seq_S in E. cbn [Nat.add] in E.
    pose proof (i_complete0 _ _ E) as C. rewrite replies_to_seq in C by lia. cbn [Nat.sub]. rewrite Nat.sub_0_r. exact C.
  - rewrite D. cbn [Nat.sub]. rewrite Nat.sub_0_r, W, (ordered_seq c s S O). lia.
Qed.

(** With too much to say the peer never comes to listening. *)
Lemma never_said c l j : one_by_one c = true -> habit c <> Always ->
  lim_out c < replies_to c j -> requests c (S j) + lim_in c < requests c (count c) ->
  let s := flow c l idle_line in got s = 0 /\ sent s < requests c (count c) /\ handed s <= j.
Proof.
  intros O HA B A. cbn zeta.
  assert (G : forall s, sound c s -> got s = 0 -> handed s <= j /\ sent s <= requests c (S j) + lim_in c).
  { intros s S G. pose proof S as []. pose proof (written_low c s S O) as W.
    assert (H : handed s <= j).
    { destruct (Nat.le_gt_cases (handed s) j) as [H|H]; [exact H|].
      assert (replies_to c j <= replies_to c (handed s - 1)) by (apply replies_to_mono; lia). lia. }
    split; [exact H|]. pose proof (requests_mono c (Datatypes.S (handed s)) (Datatypes.S j)). lia. }
  assert (I : forall m s, sound c s -> got s = 0 -> got (flow c m s) = 0).
  { induction m as [|a m IH]; intros s S E; [exact E|]. cbn [flow]. destruct (can c s a) eqn:C; [|now apply IH].
    apply IH; [now apply sound_act|]. destruct a; cbn [act_on got]; try exact E.
    exfalso. cbn [can] in C. apply andb_prop in C. destruct C as [C _]. unfold listens in C.
    destruct (G s S E) as [_ G2]. destruct (habit c); [apply Nat.eqb_eq in C; lia|congruence|discriminate]. }
  pose proof (I l idle_line (sound_idle c) eq_refl) as E. destruct (G _ (reach c l) E) as [G1 G2].
  split; [exact E|]. split; [lia|exact G1].
Qed.
