(** The two decoders that allocate what is announced before reading it. *)
From Coq Require Import ZifyNat ZifyN.
From Verif Require Export BulkLists.
From Verif Require Import StepFacts LoopFacts MatchFacts ActionFacts FlowFacts TableFacts DataFacts FixedFacts.

(** [E] comes on top. *)
Definition stretched {St} (E : nat) (W : St -> nat) (f : step St) : Prop := forall s inp,
  length (rest (f s inp)) <= length inp /\ W (val (f s inp)) + 64 * length (rest (f s inp)) <= W s + 64 * length inp + E.

Lemma lean_stretched {St} E (W : St -> nat) f : lean W f -> stretched E W f.
Proof. intros H s inp. specialize (H s inp). lia. Qed.
Lemma stretched_frugal {St} (W : St -> nat) f : stretched (N.to_nat 65535) W f -> nearly_frugal W f.
Proof. intros H s inp. specialize (H s inp). lia. Qed.
Lemma stretched_sub {St A} E (W : St -> nat) (V : A -> nat) get set rd :
  (forall s x, W (set x s) + V (get s) <= W s + V x) -> stretched E V rd -> stretched E W (sub get set rd).
Proof.
  intros H R s inp. unfold sub. cbn [val rest]. specialize (R (get s) inp). specialize (H s (val (rd (get s) inp))). lia.
Qed.
Lemma stretched_andthen {St} E (W : St -> nat) (a : step St) b :
  lean W a -> (forall n s, stretched E W (b n s)) -> stretched E W (andthen a b).
Proof.
  intros A B s inp. unfold andthen. specialize (A s inp). destruct (fail (a s inp)); [lia|]. cbn [val rest].
  specialize (B (cnt (a s inp)) (val (a s inp)) (val (a s inp)) (rest (a s inp))). lia.
Qed.
Lemma stretched_with_local {L St} E (W : St -> nat) (l : L) f : stretched E (fun p => W (snd p)) f -> stretched E W (with_local l f).
Proof. intros H s inp. exact (H (l, s) inp). Qed.
Lemma stretched_pre {St} E (W : St -> nat) g f : (forall s, W (g s) <= W s) -> stretched E W f -> stretched E W (pre g f).
Proof. intros G H s inp. specialize (H (g s) inp). specialize (G s). unfold pre. lia. Qed.
Lemma stretched_limited {St} E (W : St -> nat) z f : stretched E W f -> stretched E W (limited z f).
Proof.
  intros H s inp. unfold limited. cbn [val rest]. specialize (H s (firstn (Z.to_nat z) inp)).
  rewrite app_length, skipn_length. rewrite firstn_length in H. lia.
Qed.

Lemma chunks_len w k l : length (chunks w k l) = k.
Proof. revert l. induction k as [|k IH]; intro l; [reflexivity|]. cbn [chunks length]. rewrite IH. reflexivity. Qed.

(** What fits into the allocated slice. *)
Lemma announced_16 a k : N.to_nat (sub16 a k) <= N.to_nat 65535.
Proof. unfold sub16, uwrap. change (2 ^ (8 * N.of_nat 2))%N with 65536%N. pose proof (N.mod_lt (a + 65536 - k) 65536). lia. Qed.

Lemma brisk_bare : brisk nothing dec_bare.
Proof. unfold dec_bare. apply brisk_seqr; [apply brisk_fu; [lia|reflexivity]|]. leanly. Qed.

Lemma bare_nothing v : fail (dec_bare v []) <> None /\ rest (dec_bare v []) = [].
Proof. split; [discriminate|reflexivity]. Qed.

Lemma brisk_body f : lean bulk_TableProp f -> brisk bulk_TableProp (prop_body f).
Proof.
  intro F. unfold prop_body, prop_head. apply brisk_with_local, brisk_andthen.
  - apply brisk_fbytes; [lia|]. intros v [n []]; reflexivity.
  - intros n s. leanly. exact F.
Qed.

Lemma brisk_types : brisk bulk_TableProp dec_prop_types.
Proof.
  apply brisk_body, lean_pre; [intros []; cbn; lia|]. apply lean_readfunc.
  - intros [|x inp]; [reflexivity|]. pose proof (brisk_bare 0%N (x :: inp) ltac:(cbn; lia)). lia.
  - intros s [|x inp] H; [destruct (proj1 (bare_nothing 0%N) H)|]. pose proof (brisk_bare 0%N (x :: inp) ltac:(cbn; lia)) as (A & B).
    unfold nothing in B. generalize dependent (dec_bare 0%N (x :: inp)). intros r _ A B.
    assert (G : bulk_TableProp (set_types (get_types s ++ [val r]) s) <= bulk_TableProp s + 1).
    { destruct s; cbn [set_types get_types bulk_TableProp]; rewrite ?app_length; cbn [length]; lia. }
    lia.
Qed.

Lemma brisk_fields : brisk bulk_TableProp dec_prop_xm.
Proof.
  apply brisk_body, lean_pre; [intros []; cbn; lia|]. apply (lean_sub _ (bulk_list bulk_XM)); [|apply lean_entries].
  intros [] x; cbn [set_xms get_xms bulk_TableProp bulk_list]; lia.
Qed.

Lemma brisk_prop_experimenter : brisk bulk_TableProp dec_prop_experimenter.
Proof.
  unfold dec_prop_experimenter. leanly. apply lean_readall. intros b []; cbn [set_prop_data bulk_TableProp]; lia.
Qed.

(** The list of tables: what was allocated is all read or the reading failed. *)
Lemma tables_bulk p inp : 1 <= length inp ->
  length (rest (dec_prop_tables p inp)) < length inp
  /\ bulk_TableProp (val (dec_prop_tables p inp)) + 1 + 64 * length (rest (dec_prop_tables p inp))
     <= bulk_TableProp p + 64 * length inp + match fail (dec_prop_tables p inp) with None => 0 | Some _ => N.to_nat 65535 end.
Proof.
  intro L. destruct (Nat.lt_ge_cases (length inp) 4) as [S|S].
  { destruct inp as [|a [|b [|c [|d r]]]]; cbn [length] in *; try lia; cbn [dec_prop_tables with_local andthen prop_head fbytes take_full length Nat.ltb Nat.leb fail val rest snd]; lia. }
  destruct (len4 inp S) as (c1 & c2 & c3 & c4 & r & ->). clear L S.
  unfold dec_prop_tables. set (b := fun (_ : nat) (h : N * TableProp) => _).
  set (st := (be_dec [c3; c4], set_miss (N.testbit (be_dec [c1; c2]) 0) p)).
  assert (H : prop_head (0%N, p) (c1 :: c2 :: c3 :: c4 :: r) = Res st 4 None r) by reflexivity.
  rewrite (with_local_eq _ _ _ _ _ _ _ _ (andthen_ok _ _ _ _ _ _ _ H)). cbn [fst snd val rest fail].
  assert (M : bulk_TableProp (snd st) = bulk_TableProp p) by (destruct p; reflexivity).
  clearbody st. clear H. subst b. cbv beta zeta. set (k := N.to_nat (sub16 (fst st) 4)).
  assert (K : k <= N.to_nat 65535) by apply announced_16. clearbody k.
  assert (Z : forall l : list N, length l <= k -> bulk_TableProp (set_types l (snd st)) <= bulk_TableProp p + k).
  { intros l X. rewrite <- M. destruct (snd st); cbn [set_types bulk_TableProp]; lia. }
  unfold pre. set (s1 := (fst st, set_types (repeat 0%N k) (snd st))).
  assert (Z1 : bulk_TableProp (snd s1) <= bulk_TableProp p + k) by (apply Z; rewrite repeat_length; lia).
  assert (Z2 : forall l : list N, length l <= k -> bulk_TableProp (set_types l (snd s1)) <= bulk_TableProp p + k).
  { intros l X. replace (set_types l (snd s1)) with (set_types l (snd st)); [apply Z, X|]. unfold s1. cbn [snd]. destruct (snd st); reflexivity. }
  clearbody s1. cbn [seqr]. set (f := fus 1 k _).
  destruct (Nat.lt_ge_cases (length r) k) as [S|S].
  - assert (X : val (f s1 r) = s1 /\ rest (f s1 r) = [] /\ fail (f s1 r) <> None).
    { unfold f, fus, take_full. rewrite Nat.mul_1_l. apply Nat.ltb_lt in S. rewrite S. cbn. repeat split. destruct r; discriminate. }
    destruct X as (X1 & X2 & X3). destruct (fail (f s1 r)) as [e|] eqn:F; [|congruence]. rewrite F, X1, X2. cbn [length]. lia.
  - assert (X : bulk_TableProp (snd (val (f s1 r))) <= bulk_TableProp p + k /\ rest (f s1 r) = skipn k r /\ fail (f s1 r) = None).
    { unfold f, fus, take_full. rewrite Nat.mul_1_l. apply Nat.ltb_ge in S. rewrite S. cbn [val rest fail snd]. repeat split.
      apply Z2. rewrite map_length, chunks_len. lia. }
    destruct X as (X1 & X2 & X3). rewrite X3. cbn [val rest fail].
    set (g := fpad (pad_len (N.to_nat (fst st)))).
    pose proof (lean_fpad (fun s : N * TableProp => bulk_TableProp (snd s)) (pad_len (N.to_nat (fst st))) (val (f s1 r)) (rest (f s1 r))) as (A & B).
    fold g in A, B. rewrite X2, skipn_length in *. destruct (fail (g _ _)); cbn [val rest fail length]; lia.
Qed.

Lemma empty_TableProp p : val (dec_TableProp p []) = p /\ rest (dec_TableProp p []) = [].
Proof. destruct p; split; reflexivity. Qed.

Lemma prop_bulk p inp : 1 <= length inp ->
  length (rest (dec_TableProp p inp)) < length inp
  /\ bulk_TableProp (val (dec_TableProp p inp)) + 1 + 64 * length (rest (dec_TableProp p inp))
     <= bulk_TableProp p + 64 * length inp + match fail (dec_TableProp p inp) with None => 0 | Some _ => N.to_nat 65535 end.
Proof.
  intro L.
  assert (T : forall q, brisk bulk_TableProp q -> forall r, r = q p inp -> length (rest r) < length inp
     /\ bulk_TableProp (val r) + 1 + 64 * length (rest r)
       <= bulk_TableProp p + 64 * length inp + match fail r with None => 0 | Some _ => N.to_nat 65535 end).
  { intros q B r ->. specialize (B p inp L). destruct (fail (q p inp)); lia. }
  pose proof (tables_bulk p inp L) as N.
  destruct p; try exact N.
  all: first [exact (T _ brisk_types _ eq_refl)|exact (T _ brisk_fields _ eq_refl)|exact (T _ brisk_prop_experimenter _ eq_refl)].
Qed.

Lemma stretched_TableProp : stretched (N.to_nat 65535) bulk_TableProp dec_TableProp.
Proof.
  intros p [|x inp].
  - destruct (empty_TableProp p) as (A & B). rewrite A, B. lia.
  - pose proof (prop_bulk p (x :: inp) ltac:(cbn; lia)) as (A & B). destruct (fail _); lia.
Qed.

(** All properties but the list of tables. *)
Lemma lean_other p : (forall m l, p <> TNextTables m l) -> forall inp,
  length (rest (dec_TableProp p inp)) <= length inp
  /\ bulk_TableProp (val (dec_TableProp p inp)) <= bulk_TableProp p + 64 * (length inp - length (rest (dec_TableProp p inp))).
Proof.
  intros O [|x inp].
  - destruct (empty_TableProp p) as (A & B). rewrite A, B. lia.
  - assert (T : forall q, brisk bulk_TableProp q -> forall r, r = q p (x :: inp) -> length (rest r) <= length (x :: inp)
       /\ bulk_TableProp (val r) <= bulk_TableProp p + 64 * (length (x :: inp) - length (rest r))).
    { intros q B r ->. specialize (B p (x :: inp) ltac:(cbn; lia)). lia. }
    destruct p; try (destruct (O _ _ eq_refl)).
    all: first [exact (T _ brisk_types _ eq_refl)|exact (T _ brisk_fields _ eq_refl)|exact (T _ brisk_prop_experimenter _ eq_refl)].
Qed.

Lemma made_prop t a : make_prop t = MkOk a -> bulk_TableProp a = 0.
Proof.
  unfold make_prop. repeat (match goal with |- (if ?b then _ else _) = _ -> _ => destruct b; [intro X; injection X as <-; reflexivity|] end). discriminate.
Qed.

Lemma stretched_TableFeatures : stretched (N.to_nat 65535) bulk_TableFeatures dec_TableFeatures.
Proof.
  unfold dec_TableFeatures. apply stretched_with_local, stretched_andthen; [leanly|]. intros n s.
  apply stretched_pre; [intros [[] []]; cbn; lia|]. apply stretched_limited.
  apply (stretched_sub _ _ bulk_TableFeatures); [intros [] x; cbn [fst snd]; lia|].
  apply (stretched_sub _ _ (bulk_list bulk_TableProp)); [intros [] x; apply Nat.eq_le_incl, Nat.add_comm|].
  intros l inp. apply scan_bulk. intros t a M i L. pose proof (prop_bulk a i ltac:(lia)) as (A & B).
  rewrite (made_prop t a M) in B. lia.
Qed.

Lemma stretched_HelloElem : stretched (N.to_nat 65535) bulk_HelloElem dec_HelloElem.
Proof.
  unfold dec_HelloElem. apply stretched_with_local, stretched_andthen; [leanly|]. intros n s. cbv zeta.
  apply stretched_limited. set (k := N.to_nat (sub16 (fst s) 4 / 4)).
  assert (K : k <= N.to_nat 65535).
  { pose proof (announced_16 (fst s) 4). pose proof (N.div_le_upper_bound (sub16 (fst s) 4) 4 (sub16 (fst s) 4)). lia. }
  clearbody k. intros st inp. unfold pre, fus, take_full.
  destruct (length inp <? 4 * k); cbn [val rest snd]; unfold bulk_HelloElem; cbn [HelloElem_Bitmaps length].
  - rewrite repeat_length. lia.
  - rewrite map_length, chunks_len, skipn_length. lia.
Qed.
