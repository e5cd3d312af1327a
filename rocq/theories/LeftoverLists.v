(** What failed reads of action lists and table features leave behind. *)
From Coq Require Import ZifyBool ZifyNat ZifyN.
From Verif Require Export ActionFacts TableFacts LeftoverSpec.
Ltac Zify.zify_post_hook ::= Z.div_mod_to_equations.

(** ** Action lists *)

Definition arrived_args (b : bytes) : list N :=
  map (fun p => if fst p + snd p <=? length b then num (fst p) (snd p) b else 0%N) (parameters (num 0 2 b)).

Ltac args_case E :=
  match goal with |- context [make_action ?t] =>
    let m := eval cbv in (make_action t) in change (make_action t) with m end;
  match goal with |- exists z, MkOk ?a = _ /\ _ => exists a; split; [reflexivity|] end;
  unfold arrived_args; rewrite E; cbn [parameters N.eqb existsb Pos.eqb orb map fst snd];
  clear E;
  repeat match goal with
  | H : context [length ?l] |- _ => is_var l; destruct l as [|? ?]; cbn [length] in H; try (exfalso; lia)
  end;
  repeat split; first [discriminate | reflexivity].

Lemma cut_action b : 2 <= length b -> In (num 0 2 b) known_types -> num 0 2 b <> 25%N ->
  length b < (if (num 0 2 b =? 0)%N then 16 else 8) ->
  exists z, make_action (num 0 2 b) = MkOk z /\ fail (dec_Action z b) <> None
    /\ ofpat (val (dec_Action z b)) = num 0 2 b /\ arguments (val (dec_Action z b)) = arrived_args b.
Proof.
  intros L K N25 S.
  assert (C : forall t, num 0 2 b = t -> In t known_types -> t <> 25%N ->
    length b < (if (t =? 0)%N then 16 else 8) ->
    exists z, make_action t = MkOk z /\ fail (dec_Action z b) <> None
      /\ ofpat (val (dec_Action z b)) = t /\ arguments (val (dec_Action z b)) = arrived_args b).
  { clear K N25 S. intros t E K N25 S. cbn [known_types In] in K.
    repeat (destruct K as [<-|K]; [cbn [N.eqb] in S; try congruence; args_case E|]). destruct K. }
  exact (C _ eq_refl K N25 S).
Qed.

Lemma cut_actions l old b : Forall wf_Action l -> 2 <= length b -> In (num 0 2 b) known_types -> num 0 2 b <> 25%N ->
  length b < (if (num 0 2 b =? 0)%N then 16 else 8) ->
  exists a, val (dec_Actions old (enc_Actions l ++ b)) = l ++ [a] /\ ofpat a = num 0 2 b
    /\ arguments a = arrived_args b.
Proof.
  intros W L K N25 S. rewrite concat_enc.
  destruct (dec_Actions_at l _ b old (denotes_enc_all l W)) as (fuel & E & _). rewrite E. cbn [val].
  change (2 + fuel) with (Datatypes.S (Datatypes.S fuel)). rewrite scan_at by exact L.
  destruct (cut_action b L K N25 S) as (z & M & F & T & A). rewrite M. cbv zeta.
  exists (val (dec_Action z b)). split; [|split; assumption].
  destruct (fail (dec_Action z b)); [reflexivity|contradiction].
Qed.

(** ** Table features *)

Lemma props_fail l b old z e : Forall wf_TableProp l -> 2 <= length b -> make_prop (num 0 2 b) = MkOk z ->
  fail (dec_TableProp z b) = Some e ->
  scan make_prop dec_TableProp old (concat (map enc_TableProp l) ++ b)
  = Res (old ++ map prop_arrives l ++ [val (dec_TableProp z b)])
      (length (concat (map enc_TableProp l)) + cnt (dec_TableProp z b)) (skip_eof (Some e)) [].
Proof.
  intros W L M F. unfold scan. pose proof (length_props l) as P.
  rewrite (scan_loop_arrives make_prop dec_TableProp enc_TableProp prop_arrives l (props_in l W))
    by (rewrite app_length; lia).
  rewrite app_length.
  replace (S (length (concat (map enc_TableProp l)) + length b) - length l)
    with (S (length (concat (map enc_TableProp l)) + length b - length l)) by lia.
  cbn [scan_loop]. destruct (Nat.ltb_spec (length b) 2); [lia|].
  change (be_dec (firstn 2 b)) with (num 0 2 b). rewrite M. cbv zeta. rewrite F. cbn [val cnt fail rest].
  rewrite app_assoc. reflexivity.
Qed.

Lemma features_fail h l b old tl z e : length h = 64 -> Forall wf_TableProp l -> 2 <= length b ->
  num 0 2 h = N.of_nat (64 + length (concat (map enc_TableProp l) ++ b)) ->
  make_prop (num 0 2 b) = MkOk z -> fail (dec_TableProp z b) = Some e ->
  let r := dec_TableFeatures old (h ++ (concat (map enc_TableProp l) ++ b) ++ tl) in
  fail r = skip_eof (Some e) /\ TableFeatures_Properties (val r) = map prop_arrives l ++ [val (dec_TableProp z b)]
  /\ rest r = tl.
Proof.
  intros H W L E M F. destruct (features_at h old ((concat (map enc_TableProp l) ++ b) ++ tl) H) as (m & _ & A).
  cbv zeta in A. set (body := concat (map enc_TableProp l) ++ b) in *.
  replace (N.to_nat (num 0 2 h) - 64) with (length body) in A by (rewrite E; lia).
  rewrite firstn_app_exact, skipn_app_exact in A. cbv zeta.
  rewrite (A _ _ _ _ (props_fail l b [] z e W L M F)). repeat split.
Qed.

Lemma with_local_short {L St} (l : L) k (upd : bytes -> L * St -> L * St) (b : nat -> L * St -> step (L * St)) s inp :
  length inp < k -> inp <> [] ->
  with_local l (andthen (take_full k upd) b) s inp = Res s (length inp) (Some UnexpectedEOF) [].
Proof.
  intros H E. apply (with_local_eq _ _ _ _ (l, s)).
  assert (T : take_full k upd (l, s) inp = Res (l, s) (length inp) (Some UnexpectedEOF) []).
  { unfold take_full. destruct (Nat.ltb_spec (length inp) k); [|lia]. destruct inp; [contradiction|reflexivity]. }
  unfold andthen. rewrite T. reflexivity.
Qed.

Lemma with_local_seqr_short {L St} (l : L) k (upd : bytes -> L * St -> L * St) fs (b : nat -> L * St -> step (L * St)) s inp :
  length inp < k -> inp <> [] ->
  with_local l (andthen (seqr (take_full k upd :: fs)) b) s inp = Res s (length inp) (Some UnexpectedEOF) [].
Proof.
  intros H E. apply (with_local_eq _ _ _ _ (l, s)).
  assert (T : seqr (take_full k upd :: fs) (l, s) inp = Res (l, s) (length inp) (Some UnexpectedEOF) []).
  { cbn [seqr]. unfold take_full. destruct (Nat.ltb_spec (length inp) k); [|lia]. destruct inp; [contradiction|reflexivity]. }
  unfold andthen. rewrite T. reflexivity.
Qed.

Lemma prop_header_cut z b : 2 <= length b < 4 ->
  val (dec_TableProp z b) = z /\ fail (dec_TableProp z b) = Some UnexpectedEOF.
Proof.
  intro H. assert (E : b <> []) by (destruct b; [cbn in H; lia|discriminate]).
  assert (R : dec_TableProp z b = Res z (length b) (Some UnexpectedEOF) []); [|rewrite R; auto].
  destruct z; cbn [dec_TableProp]; unfold dec_prop_types, dec_prop_tables, dec_prop_xm, prop_body,
    dec_prop_experimenter, prop_head, fbytes;
    first [apply with_local_short | apply with_local_seqr_short]; lia || exact E.
Qed.

Lemma make_prop_known t : In t known_props ->
  exists z, make_prop t = MkOk z /\ blank z /\ prop_type z = (2 * (t / 2))%N.
Proof.
  intro K. cbn [known_props In] in K.
  repeat (destruct K as [<-|K]; [eexists; split; [reflexivity|]; split; [cbn; auto|reflexivity]|]). destruct K.
Qed.

Lemma tables_cut t0 t1 a b more z : (be_dec [t0; t1] = 2 \/ be_dec [t0; t1] = 3)%N ->
  make_prop (be_dec [t0; t1]) = MkOk z ->
  let k := N.to_nat (sub16 (be_dec [a; b]) 4) in
  length more < k ->
  val (dec_TableProp z (t0 :: t1 :: a :: b :: more)) = TNextTables (be_dec [t0; t1] =? 3)%N (repeat 0%N k)
  /\ fail (dec_TableProp z (t0 :: t1 :: a :: b :: more)) = Some (if length more =? 0 then EOF else UnexpectedEOF).
Proof.
  intros T M k H.
  assert (Z : z = TNextTables false []) by (destruct T as [T|T]; rewrite T in M; injection M as <-; reflexivity).
  subst z. clear M. cbn [dec_TableProp]. unfold dec_prop_tables.
  assert (B : N.testbit (be_dec [t0; t1]) 0 = (be_dec [t0; t1] =? 3)%N) by (destruct T as [->| ->]; reflexivity).
  erewrite with_local_eq; cycle 1.
  - eapply andthen_both.
    + unfold prop_head, fbytes, take_full. cbn [length Nat.ltb Nat.leb firstn skipn snd set_miss]. reflexivity.
    + cbn [fst]. fold k. unfold pre. cbn [fst snd set_types].
      rewrite B. unfold fus. cbn [seqr]. rewrite Nat.mul_1_l. unfold take_full at 1.
      replace (length more <? k) with true by (symmetry; apply Nat.ltb_lt; exact H). cbn [fail].
      unfold take_full. replace (length more <? k) with true by (symmetry; apply Nat.ltb_lt; exact H).
      reflexivity.
  - split; [reflexivity|]. cbn [fail]. destruct more; reflexivity.
Qed.
