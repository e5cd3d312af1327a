(** Writing entries and matches that were read from arbitrary bytes. *)
From Coq Require Import ZifyBool ZifyNat ZifyN.
From Verif Require Export FlowFacts MatchRelaySpec.
Ltac Zify.zify_post_hook ::= Z.div_mod_to_equations.

Lemma odd_even n : N.odd n = negb (N.even n).
Proof. rewrite <- N.negb_even. reflexivity. Qed.

Lemma represents_wf x seg : represents x seg -> wf_XM x.
Proof.
  intros (c1 & c2 & f & l & p & -> & L & C & T & R).
  pose proof (to_N_lt c1). pose proof (to_N_lt c2). pose proof (to_N_lt f). pose proof (to_N_lt l).
  split; [lia|]. split; [rewrite T; lia|]. cbv zeta in R.
  destruct (N.even (Byte.to_N f)); destruct R as [-> ->].
  - split; [left; reflexivity|]. cbn [length]. lia.
  - rewrite !firstn_length, skipn_length. split; [right; lia|lia].
Qed.

Lemma byte_of_to b : byte_of_N (Byte.to_N b) = b.
Proof. apply to_N_inj. rewrite to_N_byte_of_N. apply N.mod_small, to_N_lt. Qed.

Lemma class_bytes c1 c2 : be_enc 2 (256 * Byte.to_N c1 + Byte.to_N c2) = [c1; c2].
Proof. rewrite <- be_dec_2. apply (be_enc_dec [c1; c2]). Qed.

(** What is written for an entry read from [c1 c2 f l p]. *)
Lemma rewritten x c1 c2 f l p : represents x (c1 :: c2 :: f :: l :: p) ->
  enc_XM x =
  if N.even (Byte.to_N f) then c1 :: c2 :: f :: l :: p
  else let h := length p / 2 in
       c1 :: c2 :: byte_of_N (2 * (Byte.to_N f / 2) + (if length p <? 2 then 0 else 1))
          :: byte_of_N (N.of_nat (2 * h)) :: firstn (2 * h) p.
Proof.
  intro R. rewrite (enc_XM_eq x (represents_wf _ _ R)).
  destruct R as (c1' & c2' & f' & l' & p' & E & L & C & T & R). injection E as <- <- <- <- <-.
  rewrite C, class_bytes, T, !be_enc_1. cbv zeta in R.
  assert (EV : N.even (Byte.to_N f) = true -> (Byte.to_N f = 2 * (Byte.to_N f / 2))%N).
  { intro H. apply N.even_spec in H. destruct H as [k Hk]. lia. }
  destruct (N.even (Byte.to_N f)); destruct R as [RV RM].
  - unfold has_mask. rewrite RM, RV, app_nil_r. cbn [length]. rewrite Nat.add_0_r.
    rewrite N.add_0_r, <- (EV eq_refl), byte_of_to, L, N2Nat.id, byte_of_to. reflexivity.
  - unfold has_mask. rewrite RM, RV. cbv zeta. set (h := length p / 2).
    rewrite !firstn_length, skipn_length. rewrite !Nat.min_l by lia.
    replace (firstn h p ++ firstn h (skipn h p)) with (firstn (2 * h) p).
    2: { rewrite <- (firstn_skipn h (firstn (2 * h) p)), firstn_firstn, skipn_firstn_comm.
         f_equal; f_equal; lia. }
    replace (h + h) with (2 * h) by lia.
    assert (HM : match firstn h (skipn h p) with [] => 0%N | _ => 1%N end = if length p <? 2 then 0%N else 1%N).
    { destruct (Nat.ltb_spec (length p) 2) as [S|S].
      - replace h with 0 by lia. reflexivity.
      - destruct (firstn h (skipn h p)) as [|b r] eqn:EF; [|reflexivity].
        apply (f_equal (@length _)) in EF. rewrite firstn_length, skipn_length in EF. cbn [length] in EF. lia. }
    rewrite HM. reflexivity.
Qed.

Lemma represents_len x seg : represents x seg -> length (enc_XM x) <= length seg.
Proof.
  intro R. pose proof R as (c1 & c2 & f & l & p & -> & _). rewrite (rewritten _ _ _ _ _ _ R).
  destruct (N.even (Byte.to_N f)); [lia|]. cbv zeta. cbn [length]. rewrite firstn_length. lia.
Qed.

Lemma rewritten_same x seg : represents x seg -> (enc_XM x = seg <-> regular seg).
Proof.
  intro R. pose proof R as (c1 & c2 & f & l & p & -> & L & _). rewrite (rewritten _ _ _ _ _ _ R).
  unfold regular, masked, payload. cbn [nth skipn]. rewrite odd_even.
  destruct (N.even (Byte.to_N f)) eqn:EV; cbn [negb].
  - split; [discriminate 2|reflexivity].
  - cbv zeta. pose proof (to_N_lt f) as FL. pose proof (to_N_lt l) as LL.
    assert (OD : (Byte.to_N f = 2 * (Byte.to_N f / 2) + 1)%N).
    { assert (O : N.odd (Byte.to_N f) = true) by (rewrite odd_even, EV; reflexivity).
      apply N.odd_spec in O. destruct O as [k Hk]. lia. }
    split; intro H.
    + intros _.
      match type of H with (_ :: _ :: ?u :: _ :: ?w) = _ =>
        assert (H1 : u = f) by congruence; assert (H3 : w = p) by congruence end. clear H. split.
      * apply (f_equal (@length _)) in H3. rewrite firstn_length in H3.
        apply Nat.even_spec. exists (length p / 2). lia.
      * intros ->. cbn [length Nat.ltb Nat.leb] in H1. apply (f_equal Byte.to_N) in H1.
        rewrite to_N_byte_of_N in H1. rewrite N.mod_small in H1 by lia. lia.
    + destruct (H eq_refl) as [EP NP]. apply Nat.even_spec in EP. destruct EP as [k Hk].
      assert (2 <= length p) by (destruct p; [congruence|cbn [length] in *; lia]).
      destruct (Nat.ltb_spec (length p) 2) as [S|S]; [lia|].
      rewrite <- OD, byte_of_to. replace (2 * (length p / 2)) with (length p) by lia.
      rewrite firstn_all, L, N2Nat.id, byte_of_to. reflexivity.
Qed.

Lemma all_wf xs segs : Forall2 represents xs segs -> Forall wf_XM xs.
Proof. induction 1; constructor; auto. eapply represents_wf; eassumption. Qed.

Lemma list_len xs segs : Forall2 represents xs segs ->
  length (concat (map enc_XM xs)) <= length (concat segs).
Proof.
  induction 1 as [|x seg xs segs R _ IH]; cbn [map concat]; [lia|].
  pose proof (represents_len _ _ R). rewrite !app_length. lia.
Qed.

Lemma rewritten_list xs segs stray : Forall2 represents xs segs ->
  (concat (map enc_XM xs) = concat segs ++ stray <-> Forall regular segs /\ stray = []).
Proof.
  intro F. split.
  - induction F as [|x seg xs segs R F IH]; cbn [map concat app]; intro E.
    + split; [constructor|congruence].
    + pose proof (represents_len _ _ R) as L1. pose proof (list_len _ _ F) as L2.
      pose proof (f_equal (@length _) E) as L. rewrite <- app_assoc, !app_length in *.
      assert (L3 : length (enc_XM x) = length seg) by lia.
      assert (E1 : enc_XM x = seg).
      { apply (f_equal (firstn (length seg))) in E. rewrite <- L3 in E at 1.
        rewrite !firstn_app_exact in E. exact E. }
      rewrite E1 in E. apply app_inv_head in E. destruct (IH E) as [A B].
      split; [|exact B]. constructor; [|exact A]. apply (rewritten_same _ _ R), E1.
  - intros [R ->]. rewrite app_nil_r. revert R.
    induction F as [|x seg xs segs Rx _ IH]; intro R; [reflexivity|].
    inversion R; subst. cbn [map concat]. rewrite (proj2 (rewritten_same _ _ Rx)) by assumption.
    rewrite IH by assumption. reflexivity.
Qed.

Lemma parses_segs xs segs stray : Forall2 represents xs segs -> length stray < 4 -> parses xs (concat segs ++ stray).
Proof.
  intros F L. induction F; cbn [concat]; [constructor; exact L|]. rewrite <- app_assoc. constructor; assumption.
Qed.

Lemma match_rewritten old inp xs segs stray :
  4 <= declared inp -> up8 (declared inp) <= length inp ->
  region inp = concat segs ++ stray -> Forall2 represents xs segs -> length stray < 4 ->
  let d := declared inp in
  let m := MkMatch (256 * Byte.to_N (nth 0 inp x00) + Byte.to_N (nth 1 inp x00)) xs in
  dec_Match old inp = Res m (up8 d) None (skipn (up8 d) inp)
  /\ wf_Match m
  /\ (enc_Match m = firstn d inp ++ zeros (up8 d - d) <-> Forall regular segs /\ stray = []).
Proof.
  intros D4 DL RG F LS d m. pose proof (up8_ge d) as U. fold d in D4, DL.
  assert (L4 : 4 <= length inp) by lia.
  destruct (len4 inp L4) as (a & b & c & e & tl & E).
  pose proof (parses_segs xs segs stray F LS) as P. rewrite <- RG in P.
  pose proof (all_wf _ _ F) as WX.
  assert (DE : d = N.to_nat (be_dec [c; e])) by (unfold d; rewrite E; apply declared_eq).
  assert (DB : (N.of_nat d < 65536)%N).
  { rewrite DE. pose proof (to_N_lt c). pose proof (to_N_lt e). rewrite be_dec_2. lia. }
  assert (LR : length (region inp) = d - 4).
  { unfold region. fold d. rewrite firstn_length, skipn_length. lia. }
  assert (SZ : fields_size xs <= d - 4).
  { rewrite <- (fields_length xs WX). pose proof (list_len _ _ F). rewrite RG, app_length in LR. lia. }
  assert (WM : wf_Match m).
  { unfold m. split; [|split].
    - cbn [Match_Type]. pose proof (to_N_lt (nth 0 inp x00)). pose proof (to_N_lt (nth 1 inp x00)). lia.
    - exact WX.
    - cbn [Match_Fields]. lia. }
  split; [|split; [exact WM|]].
  - subst inp. pose proof (dec_Match_eq a b c e tl old) as Q. cbv zeta in Q.
    rewrite region_eq in P. rewrite (xm_loop_parses xs _ P) in Q by lia. rewrite Q. clear Q.
    cbn [app]. rewrite <- DE. unfold fpad.
    rewrite take_long by (rewrite skipn_length; cbn [length] in DL; rewrite <- up8_pad; lia).
    unfold m. cbn [nth]. rewrite be_dec_2.
    rewrite skipn_skipn_add. rewrite <- up8_pad.
    rewrite region_eq, <- DE in LR. rewrite LR.
    cbn [val cnt fail rest].
    assert (UD : up8 d = 4 + (d - 4 + (up8 d - d))) by lia.
    f_equal; [lia|]. rewrite UD at 2. reflexivity.
  - assert (FD : firstn d inp = be_enc 2 (Match_Type m) ++ be_enc 2 (N.of_nat d) ++ region inp).
    { unfold m. cbn [Match_Type]. subst inp. cbn [nth]. rewrite class_bytes, DE, N2Nat.id, be_dec_2, class_bytes.
      unfold region. fold d. rewrite <- be_dec_2, <- DE. cbn [skipn].
      replace d with (4 + (d - 4)) at 1 by lia. reflexivity. }
    rewrite enc_Match_eq by exact WM. cbv zeta. cbn [Match_Fields m]. change (Match_Fields m) with xs.
    rewrite FD, <- !app_assoc. split.
    + intro Q. apply app_inv_head in Q.
      assert (Q1 : be_enc 2 (N.of_nat (4 + fields_size xs)) = be_enc 2 (N.of_nat d)).
      { apply (f_equal (firstn 2)) in Q. rewrite !firstn_app_len in Q by apply be_enc_length. exact Q. }
      assert (Q2 : 4 + fields_size xs = d).
      { apply be_enc_inj in Q1; [lia| |]; unfold fits; change (256 ^ N.of_nat 2)%N with 65536%N; lia. }
      rewrite Q2 in Q. apply app_inv_head, app_inv_tail in Q. rewrite RG in Q.
      apply (rewritten_list _ _ _ F), Q.
    + intros [A B]. pose proof (proj2 (rewritten_list _ _ stray F) (conj A B)) as Q.
      assert (Q2 : 4 + fields_size xs = d).
      { rewrite <- (fields_length xs WX), Q, <- RG, LR. lia. }
      rewrite Q2, Q, <- RG. reflexivity.
Qed.
