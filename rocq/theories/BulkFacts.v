(** Decoders take memory in proportion to what they read. *)
From Coq Require Import ZifyNat ZifyN.
From Verif Require Export BulkSpec.
From Verif Require Import StepFacts LoopFacts MatchFacts ActionFacts InstructionFacts FlowFacts TableFacts DataFacts FixedFacts SafetyFacts.

(** Holding is paid for by reading, 64 units per byte. *)
Definition lean {St} (W : St -> nat) (f : step St) : Prop := forall s inp,
  length (rest (f s inp)) <= length inp /\ W (val (f s inp)) + 64 * length (rest (f s inp)) <= W s + 64 * length inp.

(** The same, and something is taken if there is anything. *)
Definition brisk {St} (W : St -> nat) (f : step St) : Prop := forall s inp, 1 <= length inp ->
  length (rest (f s inp)) < length inp /\ W (val (f s inp)) + 1 + 64 * length (rest (f s inp)) <= W s + 64 * length inp.

Lemma lean_frugal {St} (W : St -> nat) f : lean W f -> frugal W f.
Proof. intros H s inp. specialize (H s inp). lia. Qed.

Lemma lean_take {St} (W : St -> nat) k upd : (forall b s, W (upd b s) <= W s + 64 * length b) -> lean W (take_full k upd).
Proof.
  intros H s inp. unfold take_full. destruct (Nat.ltb_spec (length inp) k); cbn [rest val length]; [lia|].
  specialize (H (firstn k inp) s). rewrite firstn_length, skipn_length in *. lia.
Qed.

Lemma brisk_take {St} (W : St -> nat) k upd : 1 <= k -> (forall b s, W (upd b s) <= W s) -> brisk W (take_full k upd).
Proof.
  intros K H s inp L. unfold take_full. destruct (Nat.ltb_spec (length inp) k); cbn [rest val length]; [lia|].
  specialize (H (firstn k inp) s). rewrite skipn_length in *. lia.
Qed.

Lemma lean_assign {St} (W : St -> nat) g : (forall s, W (g s) <= W s) -> lean W (assign g).
Proof. intros H s inp. specialize (H s). unfold assign. cbn [rest val]. lia. Qed.

Lemma lean_seqr {St} (W : St -> nat) (fs : list (step St)) : Forall (lean W) fs -> lean W (seqr fs).
Proof.
  induction 1 as [|f fs H F IH]; intros s inp; [cbn; lia|]. cbn [seqr]. specialize (H s inp).
  destruct (fail (f s inp)); [exact H|]. cbn [val rest]. specialize (IH (val (f s inp)) (rest (f s inp))). lia.
Qed.

Lemma brisk_seqr {St} (W : St -> nat) f (fs : list (step St)) : brisk W f -> Forall (lean W) fs -> brisk W (seqr (f :: fs)).
Proof.
  intros H F s inp L. cbn [seqr]. specialize (H s inp L).
  destruct (fail (f s inp)); [exact H|]. cbn [val rest]. pose proof (lean_seqr W fs F (val (f s inp)) (rest (f s inp))). lia.
Qed.

Lemma lean_sub {St A} (W : St -> nat) (V : A -> nat) get set rd :
  (forall s x, W (set x s) + V (get s) <= W s + V x) -> lean V rd -> lean W (sub get set rd).
Proof.
  intros H R s inp. unfold sub. cbn [val rest]. specialize (R (get s) inp). specialize (H s (val (rd (get s) inp))). lia.
Qed.

Lemma brisk_sub {St A} (W : St -> nat) (V : A -> nat) get set rd :
  (forall s x, W (set x s) + V (get s) <= W s + V x) -> brisk V rd -> brisk W (sub get set rd).
Proof.
  intros H R s inp L. unfold sub. cbn [val rest]. specialize (R (get s) inp L). specialize (H s (val (rd (get s) inp))). lia.
Qed.

Lemma lean_andthen {St} (W : St -> nat) (a : step St) b : lean W a -> (forall n s, lean W (b n s)) -> lean W (andthen a b).
Proof.
  intros A B s inp. unfold andthen. specialize (A s inp). destruct (fail (a s inp)); [exact A|]. cbn [val rest].
  specialize (B (cnt (a s inp)) (val (a s inp)) (val (a s inp)) (rest (a s inp))). lia.
Qed.

Lemma brisk_andthen {St} (W : St -> nat) (a : step St) b : brisk W a -> (forall n s, lean W (b n s)) -> brisk W (andthen a b).
Proof.
  intros A B s inp L. unfold andthen. specialize (A s inp L). destruct (fail (a s inp)); [exact A|]. cbn [val rest].
  specialize (B (cnt (a s inp)) (val (a s inp)) (val (a s inp)) (rest (a s inp))). lia.
Qed.

Lemma lean_andthen_ignoring {St} (W : St -> nat) (a : step St) b :
  lean W a -> (forall n s, lean W (b n s)) -> lean W (andthen_ignoring a b).
Proof.
  intros A B s inp. unfold andthen_ignoring. specialize (A s inp). cbn [val rest].
  specialize (B (cnt (a s inp)) (val (a s inp)) (val (a s inp)) (rest (a s inp))). lia.
Qed.

Lemma lean_with_local {L St} (W : St -> nat) (l : L) f : lean (fun p => W (snd p)) f -> lean W (with_local l f).
Proof. intros H s inp. exact (H (l, s) inp). Qed.

Lemma brisk_with_local {L St} (W : St -> nat) (l : L) f : brisk (fun p => W (snd p)) f -> brisk W (with_local l f).
Proof. intros H s inp. exact (H (l, s) inp). Qed.

Lemma lean_pre {St} (W : St -> nat) g f : (forall s, W (g s) <= W s) -> lean W f -> lean W (pre g f).
Proof. intros G H s inp. specialize (H (g s) inp). specialize (G s). unfold pre. lia. Qed.

Lemma lean_lost {St} (W : St -> nat) f : lean W f -> lean W (lost f).
Proof. intros H s inp. unfold lost. cbn [val rest]. specialize (H s inp). lia. Qed.

(** What comes out is thrown away, so only the reading counts. *)
Lemma lean_lost' {St} (W V : St -> nat) f : lean V f -> lean W (lost f).
Proof. intros H s inp. unfold lost. cbn [val rest]. specialize (H s inp). lia. Qed.

Lemma lean_limited {St} (W : St -> nat) z f : lean W f -> lean W (limited z f).
Proof.
  intros H s inp. unfold limited. cbn [val rest]. specialize (H s (firstn (Z.to_nat z) inp)).
  rewrite app_length, skipn_length. rewrite firstn_length in H. lia.
Qed.

Lemma lean_readall {St} (W : St -> nat) set : (forall b s, W (set b s) <= W s + 64 * length b) -> lean W (readall set).
Proof. intros H s inp. unfold readall. cbn [val rest length]. specialize (H inp s). lia. Qed.

Lemma bulk_list_app {A} (w : A -> nat) a b : bulk_list w (a ++ b) = bulk_list w a + bulk_list w b.
Proof. induction a as [|x a IH]; [reflexivity|]. cbn. rewrite IH. lia. Qed.

(** A scan: elements that are read whole, and the last one with [E] on top. *)
Lemma scan_bulk {A} (w : A -> nat) E mk rd :
  (forall t a, mk t = MkOk a -> forall inp, 2 <= length inp ->
     length (rest (rd a inp)) < length inp
     /\ 1 + w (val (rd a inp)) + 64 * length (rest (rd a inp))
        <= 64 * length inp + match fail (rd a inp) with None => 0 | Some _ => E end) ->
  forall s inp, length (rest (scan mk rd s inp)) <= length inp
    /\ bulk_list w (val (scan mk rd s inp)) + 64 * length (rest (scan mk rd s inp)) <= bulk_list w s + 64 * length inp + E.
Proof.
  intros H s inp. unfold scan. generalize (Datatypes.S (length inp)) as fuel. intro fuel. revert s inp.
  induction fuel as [|fuel IH]; intros acc inp; [cbn; lia|]. rewrite scan_S.
  destruct (Nat.ltb_spec (length inp) 2) as [L|L]; [cbn [val rest length]; lia|].
  destruct (mk (be_dec (firstn 2 inp))) as [| |a] eqn:M; try (cbn [val rest length]; lia).
  specialize (H _ _ M inp L). destruct (fail (rd a inp)) as [e|]; cbn [val rest length].
  - rewrite bulk_list_app. cbn [bulk_list]. lia.
  - specialize (IH (acc ++ [val (rd a inp)]) (rest (rd a inp))). rewrite bulk_list_app in IH. cbn [bulk_list] in IH. lia.
Qed.

Lemma lean_scan {A} (w : A -> nat) mk rd : brisk w rd -> (forall t a, mk t = MkOk a -> w a = 0) ->
  lean (bulk_list w) (scan mk rd).
Proof.
  intros B M s inp. destruct (scan_bulk w 0 mk rd) with (s := s) (inp := inp) as (X & Y); [|split; [exact X|lia]].
  intros t a T i L. specialize (M t a T). specialize (B a i ltac:(lia)). destruct (fail (rd a i)); lia.
Qed.

Lemma lean_readfunc {A St} (W : St -> nat) (zero : A) rd fn :
  (forall inp, length (rest (rd zero inp)) <= length inp) ->
  (forall s inp, fail (rd zero inp) = None ->
     W (fn (val (rd zero inp)) s) + 64 * length (rest (rd zero inp)) <= W s + 64 * length inp) ->
  lean W (readfunc zero rd fn).
Proof.
  intros R H s inp. unfold readfunc. generalize (Datatypes.S (length inp)) as fuel. intro fuel. revert s inp.
  induction fuel as [|fuel IH]; intros s inp; [cbn; lia|]. cbn [readfunc_loop]. specialize (R inp). specialize (H s inp).
  destruct (fail (rd zero inp)) as [e|]; cbn [val rest]; [lia|].
  specialize (H eq_refl). specialize (IH (fn (val (rd zero inp)) s) (rest (rd zero inp))). lia.
Qed.

Lemma lean_readslice {A St} (W : St -> nat) (V : A -> nat) (zero : A) rd : lean V rd -> lean W (readslice zero rd).
Proof.
  intros H. unfold readslice. apply lean_readfunc; [intro inp; apply H|]. intros s inp _. specialize (H zero inp). lia.
Qed.

(** Entries of matches. *)
Lemma byte_255 l : N.to_nat (Byte.to_N l) <= 255.
Proof. pose proof (Byte.to_N_bounded l). lia. Qed.

Lemma bulk_halve len x : bulk_XM (halve len x) <= length (XM_Value x).
Proof.
  unfold halve, bulk_XM. cbn [set_XM_Value set_XM_Mask XM_Value XM_Mask]. rewrite !firstn_length, skipn_length. lia.
Qed.

Lemma xm_whole payload c1 c2 f l inp old :
  length (rest (dec_xm payload old (c1 :: c2 :: f :: l :: inp))) <= length inp
  /\ bulk_XM (val (dec_xm payload old (c1 :: c2 :: f :: l :: inp))) <= 255.
Proof.
  pose proof (byte_255 l) as B. unfold dec_xm.
  rewrite (with_local_eq _ _ _ _ _ _ _ _ (andthen_ok _ _ _ _ _ _ _ (xm_header c1 c2 f l inp old))).
  cbn [fst snd val rest]. unfold sub, pre. cbn [fst snd val rest].
  set (x0 := set_XM_Mask _ _). assert (V : length (XM_Value x0) = N.to_nat (Byte.to_N l)) by apply zeros_length.
  assert (M : XM_Mask x0 = []) by reflexivity. clearbody x0.
  set (g := if N.testbit _ 0 then _ else _).
  assert (G : forall x, XM_Mask x = [] -> bulk_XM (g x) <= length (XM_Value x)).
  { intros x X. unfold g. destruct (N.testbit _ 0); [apply bulk_halve|]. unfold bulk_XM. rewrite X. cbn. lia. }
  clearbody g. unfold andthen, assign, fslice, fbytes, take_full. destruct payload; cbn [fail val rest].
  - destruct (Nat.ltb_spec (length inp) (length (XM_Value x0))) as [L|L]; cbn [fail val rest length].
    + unfold bulk_XM. rewrite M. cbn. lia.
    + rewrite skipn_length. split; [lia|]. eapply Nat.le_trans; [apply G; exact M|]. cbn [set_XM_Value XM_Value].
      rewrite firstn_length. lia.
  - split; [lia|]. specialize (G x0 M). lia.
Qed.

Lemma brisk_xm payload : brisk bulk_XM (dec_xm payload).
Proof.
  intros s inp L. destruct (Nat.lt_ge_cases (length inp) 4) as [H|H].
  - destruct inp as [|a [|b [|c [|d r]]]]; cbn [length] in *; try lia; destruct payload, s; cbn; lia.
  - destruct (len4 inp H) as (c1 & c2 & f & l & p & ->). pose proof (xm_whole payload c1 c2 f l p s) as (A & B).
    cbn [length] in *. lia.
Qed.

Lemma lean_brisk {St} (W : St -> nat) f : brisk W f -> (forall s, W (val (f s [])) <= W s) -> (forall s, rest (f s []) = []) -> lean W f.
Proof.
  intros B H R s [|x inp]; [rewrite R; specialize (H s); cbn [length]; lia|]. specialize (B s (x :: inp)). cbn [length] in *. lia.
Qed.

Lemma lean_xm payload : lean bulk_XM (dec_xm payload).
Proof. apply lean_brisk; [apply brisk_xm| |]; intros []; destruct payload; cbn; first [lia|reflexivity]. Qed.

Lemma lean_entries payload : lean (bulk_list bulk_XM) (read_all_xm payload).
Proof.
  intros s inp. unfold read_all_xm.
  enough (G : forall fuel acc inp, bulk_list bulk_XM (fst (xm_loop fuel payload acc inp)) <= bulk_list bulk_XM acc + 64 * length inp).
  { specialize (G (Datatypes.S (length inp)) s inp). destruct (xm_loop _ _ _ _). cbn [fst val rest length] in *. lia. }
  clear s inp. induction fuel as [|fuel IH]; intros acc inp; cbn [xm_loop]; [cbn; lia|].
  destruct (Nat.ltb_spec (length inp) 4) as [L|L]; [cbn; lia|].
  pose proof (brisk_xm payload zero_XM inp ltac:(lia)) as (A & B).
  destruct (fail (dec_xm payload zero_XM inp)); [cbn [fst]; lia|].
  specialize (IH (acc ++ [val (dec_xm payload zero_XM inp)]) (rest (dec_xm payload zero_XM inp))).
  rewrite bulk_list_app in IH. cbn [bulk_list] in IH. change (bulk_XM zero_XM) with 0 in B. lia.
Qed.
