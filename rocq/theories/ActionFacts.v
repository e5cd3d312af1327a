(** Lemmas about actions and action lists. *)
From Coq Require Import ZifyBool ZifyNat ZifyN.
From Verif Require Export MatchFacts ActionModel ActionSpec.
Ltac Zify.zify_post_hook ::= Z.div_mod_to_equations.

(** ** The set field action *)
Definition field_limit (h : N) : nat := N.to_nat ((h + 65532) mod 65536).

Lemma sf_header t1 t2 l1 l2 inp (a : Action) :
  seqr [fpad 2; fu 2 (fun v (s : N * Action) => (v, snd s))] (0%N, a) (t1 :: t2 :: l1 :: l2 :: inp)
  = Res (be_dec [l1; l2], a) 4 None inp.
Proof. reflexivity. Qed.

Lemma dec_set_field_eq t1 t2 l1 l2 inp f0 :
  let k := field_limit (be_dec [l1; l2]) in
  let r := dec_XM f0 (firstn k inp) in
  dec_set_field (ASetField f0) (t1 :: t2 :: l1 :: l2 :: inp)
  = match fail r with
    | Some e => Res (ASetField (val r)) (4 + cnt r) (Some e) (rest r ++ skipn k inp)
    | None => Res (ASetField (val r)) (4 + (cnt r + length (rest r))) None (skipn k inp)
    end.
Proof.
  cbv zeta. set (k := field_limit (be_dec [l1; l2])).
  unfold dec_set_field.
  rewrite (with_local_eq _ _ _ _ _ _ _ _ (andthen_ok _ _ _ _ _ _ _ (sf_header t1 t2 l1 l2 inp (ASetField f0)))).
  cbn [fst].
  assert (K : Z.to_nat (Z.of_N (uwrap 2 (be_dec [l1; l2] + 65532))) = k).
  { unfold k, field_limit, uwrap. change (256 ^ N.of_nat 2)%N with 65536%N. lia. }
  destruct (dec_XM f0 (firstn k inp)) as [v n e tl] eqn:E. cbn [fail val cnt rest].
  assert (HS : sub get_field set_field dec_XM (ASetField f0) (firstn k inp) = Res (ASetField v) n e tl).
  { rewrite (sub_eq get_field set_field dec_XM (ASetField f0) (firstn k inp) _ _ _ _ E). reflexivity. }
  destruct e as [e|].
  - pose proof (andthen_err _ (fun (_ : nat) (_ : Action) => readall (fun _ a => a)) _ _ _ _ _ _ HS) as HA.
    pose proof (sub_eq (snd (A:=N)) (fun x s => (fst s, x)) _ (be_dec [l1; l2], ASetField f0) _ _ _ _ _ HA) as HB.
    rewrite <- K in HB. apply limited_eq in HB. rewrite K in HB. rewrite HB. reflexivity.
  - pose proof (andthen_ok _ (fun (_ : nat) (_ : Action) => readall (fun _ a => a)) _ _ _ _ _ HS) as HA.
    pose proof (sub_eq (snd (A:=N)) (fun x s => (fst s, x)) _ (be_dec [l1; l2], ASetField f0) _ _ _ _ _ HA) as HB.
    rewrite <- K in HB. apply limited_eq in HB. rewrite K in HB. rewrite HB. reflexivity.
Qed.

(** ** One complete action *)
Definition same_kind (z a : Action) : Prop := ofpat z = ofpat a.

Lemma ofpat_type a : ofpat a = action_type a.
Proof. destruct a; reflexivity. Qed.

Lemma len8 (l : bytes) : length l = 8 ->
  exists a b c d e f g h, l = [a; b; c; d; e; f; g; h].
Proof.
  destruct l as [|a [|b [|c [|d [|e [|f [|g [|h [|]]]]]]]]]; try discriminate. eauto 20.
Qed.

Lemma len16 (l : bytes) : length l = 16 -> exists l1 l2, l = l1 ++ l2 /\ length l1 = 8 /\ length l2 = 8.
Proof.
  intro H. exists (firstn 8 l), (skipn 8 l). rewrite firstn_skipn, firstn_length, skipn_length.
  split; [reflexivity|lia].
Qed.

Lemma dec_denotes z a seg tl : denotes a seg -> same_kind z a ->
  (forall f, a = ASetField f -> exists f0, z = ASetField f0) ->
  dec_Action z (seg ++ tl) = Res a (length seg) None tl.
Proof.
  intros [T D] K KF.
  destruct a as [p m| | |x| |x| |x|x|x|x|x| |f|x|x]; destruct z; try discriminate K;
    try (destruct (len8 seg D) as (b1 & b2 & b3 & b4 & b5 & b6 & b7 & b8 & ->); reflexivity);
    try (destruct D as [D ->]; destruct (len8 seg D) as (b1 & b2 & b3 & b4 & b5 & b6 & b7 & b8 & ->); reflexivity).
  - destruct D as (D & -> & ->). destruct (len16 seg D) as (s1 & s2 & -> & D1 & D2).
    destruct (len8 s1 D1) as (b1 & b2 & b3 & b4 & b5 & b6 & b7 & b8 & ->).
    destruct (len8 s2 D2) as (c1 & c2 & c3 & c4 & c5 & c6 & c7 & c8 & ->). reflexivity.
  - destruct D as (D4 & DL & DM & entry & junk & E & R).
    destruct (len4 seg D4) as (t1 & t2 & l1 & l2 & body & ->). cbn [skipn] in E. subst body.
    cbn [app dec_Action]. rewrite dec_set_field_eq. cbv zeta.
    unfold num in DM. cbn [skipn firstn] in DM.
    assert (FL : field_limit (be_dec [l1; l2]) = length (entry ++ junk)).
    { unfold field_limit. cbn [length] in *. rewrite <- DM. lia. }
    rewrite FL, firstn_app_exact, skipn_app_exact, !(rt_represents f entry R).
    cbn [fail val cnt rest length]. rewrite app_length. reflexivity.
Qed.

Lemma make_known a : exists z, make_action (ofpat a) = MkOk z /\ same_kind z a
  /\ (forall f, a = ASetField f -> exists f0, z = ASetField f0).
Proof.
  destruct a; eexists; (split; [reflexivity|split; [reflexivity|]]); intros f' E;
    try discriminate E; eauto.
Qed.

Lemma denotes_len a seg : denotes a seg -> 4 <= length seg.
Proof. intros [_ D]. destruct a; first [exact (proj1 D) | rewrite (proj1 D) | rewrite D]; auto with arith. Qed.

Lemma num_tag a seg tl : denotes a seg -> be_dec (firstn 2 (seg ++ tl)) = ofpat a.
Proof.
  intro D. pose proof (denotes_len a seg D) as L. destruct D as [<- _]. unfold num. cbn [skipn].
  rewrite firstn_app. replace (2 - length seg) with 0 by lia. cbn [firstn]. rewrite app_nil_r. reflexivity.
Qed.

(** Complete actions are decoded one after the other. *)
Lemma scan_denotes l segs : Forall2 denotes l segs -> forall fuel acc b,
  length (concat segs ++ b) < fuel ->
  exists fuel', length b < fuel' /\
  let r := scan_loop fuel' make_action dec_Action (acc ++ l) b in
  scan_loop fuel make_action dec_Action acc (concat segs ++ b)
  = Res (val r) (length (concat segs) + cnt r) (fail r) (rest r).
Proof.
  induction 1 as [|a seg l segs D _ IH]; intros fuel acc b F; cbn [concat].
  - exists fuel. cbn [app] in *. split; [exact F|]. rewrite app_nil_r. cbv zeta. apply res_eta.
  - cbn [concat] in F. rewrite <- app_assoc in F. rewrite <- app_assoc.
    pose proof (denotes_len a seg D) as L.
    destruct fuel as [|fuel]; [lia|]. rewrite app_length in F.
    destruct (IH fuel (acc ++ [a]) b ltac:(lia)) as (fuel' & F' & E).
    exists fuel'. split; [exact F'|]. cbv zeta in *. rewrite <- app_assoc in E. cbn [app] in E.
    cbn [scan_loop]. destruct (Nat.ltb_spec (length (seg ++ concat segs ++ b)) 2) as [S|_];
      [rewrite app_length in S; lia|].
    rewrite (num_tag a seg _ D). destruct (make_known a) as (z & -> & SK & SF).
    rewrite (dec_denotes z a seg _ D SK SF). cbn [fail val rest cnt]. rewrite E.
    cbn [fail val rest cnt]. rewrite app_length, Nat.add_assoc. reflexivity.
Qed.

(** ** What stands after the complete actions *)
Lemma scan_at fuel acc b : 2 <= length b ->
  scan_loop (S fuel) make_action dec_Action acc b
  = match make_action (num 0 2 b) with
    | MkUnknown => Res acc 0 (Some (EUnknown (num 0 2 b))) []
    | MkPanic => Res acc 0 (Some EPanic) []
    | MkOk z =>
        let r := dec_Action z b in
        match fail r with
        | Some e => Res (acc ++ [val r]) (cnt r) (skip_eof (Some e)) []
        | None =>
            let r' := scan_loop fuel make_action dec_Action (acc ++ [val r]) (rest r) in
            Res (val r') (cnt r + cnt r') (fail r') (rest r')
        end
    end.
Proof.
  intro H. cbn [scan_loop]. destruct (Nat.ltb_spec (length b) 2); [lia|]. reflexivity.
Qed.

Lemma num_firstn n w off b : off + w <= n -> num off w (firstn n b) = num off w b.
Proof.
  intro H. unfold num. rewrite skipn_firstn_comm, firstn_firstn. f_equal. f_equal. lia.
Qed.

(** A failing or clean end, as the decoder reports it. *)
Definition cut_result (b : bytes) : option err :=
  if accepted_cut b then None else Some UnexpectedEOF.

Definition complete (b : bytes) : Prop := exists a seg tl, b = seg ++ tl /\ denotes a seg.

Definition stops (b : bytes) : Prop :=
  ~ complete b /\ forall fuel acc, exists a, ofpat a = num 0 2 b
    /\ val (scan_loop (2 + fuel) make_action dec_Action acc b) = acc ++ [a]
    /\ fail (scan_loop (2 + fuel) make_action dec_Action acc b) = cut_result b.

(** Fixed-size actions. *)
Lemma fixed_incomplete b a0 n : num 0 2 b = ofpat a0 -> length b < n ->
  (forall a seg, denotes a seg -> ofpat a = ofpat a0 -> length seg = n) -> ~ complete b.
Proof.
  intros E L H (a & seg & tl & -> & D). pose proof (num_tag a seg tl D) as T.
  unfold num in E. cbn [skipn] in E. rewrite T in E. specialize (H a seg D E).
  rewrite app_length in L. lia.
Qed.

Ltac fixed_sizes := let a := fresh in let seg := fresh in let D := fresh in let E := fresh in
  intros a seg [_ D] E; destruct a; try discriminate E; first [exact D | exact (proj1 D)].

Ltac complete_case E n a0 b :=
  left; exists a0; exists (firstn n b), (skipn n b);
  split; [symmetry; apply firstn_skipn|];
  split; [rewrite num_firstn by lia; exact E|];
  rewrite firstn_length; repeat split; lia.

Ltac cut_case E a0 n b :=
  right; split; [apply (fixed_incomplete b a0 n); [exact E|assumption|fixed_sizes]|];
  intros fuel acc; change (2 + fuel) with (S (S fuel)); rewrite scan_at by assumption;
  unfold cut_result, accepted_cut; rewrite E;
  match goal with |- context [make_action ?t] =>
    let m := eval cbv in (make_action t) in change (make_action t) with m end;
  cbv iota zeta;
  match goal with |- context [dec_Action ?z b] => exists (val (dec_Action z b)) end;
  clear E;
  repeat match goal with
  | H : 2 <= length ?l |- _ => is_var l; destruct l as [|? [|? ?]]; [exfalso; cbn in H; lia|exfalso; cbn in H; lia|clear H]
  end;
  cbn [length] in *;
  repeat match goal with
  | H : context [length ?l] |- _ => is_var l; destruct l as [|? ?]; cbn [length] in H; try (exfalso; lia)
  end;
  (repeat split; reflexivity).

Lemma known_step b z : 2 <= length b -> make_action (num 0 2 b) = MkOk z ->
  num 0 2 b <> 25%N -> complete b \/ stops b.
Proof.
  intros L2 M N25. unfold make_action in M.
  repeat match type of M with
  | (if (?t =? ?k)%N then _ else _) = _ => destruct (N.eqb_spec t k) as [E|_]
  end; try discriminate M; try contradiction; clear M N25.
  - destruct (Nat.lt_ge_cases (length b) 16) as [L|L].
    + cut_case E (AOutput 0 0) 16 b.
    + complete_case E 16 (AOutput (num 4 4 (firstn 16 b)) (num 8 2 (firstn 16 b))) b.
  - destruct (Nat.lt_ge_cases (length b) 8) as [L|L];
      [cut_case E ACopyTTLOut 8 b|complete_case E 8 ACopyTTLOut b].
  - destruct (Nat.lt_ge_cases (length b) 8) as [L|L];
      [cut_case E ACopyTTLIn 8 b|complete_case E 8 ACopyTTLIn b].
  - destruct (Nat.lt_ge_cases (length b) 8) as [L|L];
      [cut_case E (ASetMPLSTTL 0) 8 b|complete_case E 8 (ASetMPLSTTL (num 4 1 (firstn 8 b))) b].
  - destruct (Nat.lt_ge_cases (length b) 8) as [L|L];
      [cut_case E ADecMPLSTTL 8 b|complete_case E 8 ADecMPLSTTL b].
  - destruct (Nat.lt_ge_cases (length b) 8) as [L|L];
      [cut_case E (APushVLAN 0) 8 b|complete_case E 8 (APushVLAN (num 4 2 (firstn 8 b))) b].
  - destruct (Nat.lt_ge_cases (length b) 8) as [L|L];
      [cut_case E APopVLAN 8 b|complete_case E 8 APopVLAN b].
  - destruct (Nat.lt_ge_cases (length b) 8) as [L|L];
      [cut_case E (APushMPLS 0) 8 b|complete_case E 8 (APushMPLS (num 4 2 (firstn 8 b))) b].
  - destruct (Nat.lt_ge_cases (length b) 8) as [L|L];
      [cut_case E (APopMPLS 0) 8 b|complete_case E 8 (APopMPLS (num 4 2 (firstn 8 b))) b].
  - destruct (Nat.lt_ge_cases (length b) 8) as [L|L];
      [cut_case E (ASetQueue 0) 8 b|complete_case E 8 (ASetQueue (num 4 4 (firstn 8 b))) b].
  - destruct (Nat.lt_ge_cases (length b) 8) as [L|L];
      [cut_case E (AGroup 0) 8 b|complete_case E 8 (AGroup (num 4 4 (firstn 8 b))) b].
  - destruct (Nat.lt_ge_cases (length b) 8) as [L|L];
      [cut_case E (ASetNetworkTTL 0) 8 b|complete_case E 8 (ASetNetworkTTL (num 4 1 (firstn 8 b))) b].
  - destruct (Nat.lt_ge_cases (length b) 8) as [L|L];
      [cut_case E ADecNetworkTTL 8 b|complete_case E 8 ADecNetworkTTL b].
  - destruct (Nat.lt_ge_cases (length b) 8) as [L|L];
      [cut_case E (APushPBB 0) 8 b|complete_case E 8 (APushPBB (num 4 2 (firstn 8 b))) b].
  - destruct (Nat.lt_ge_cases (length b) 8) as [L|L];
      [cut_case E (AExperimenter 0) 8 b|complete_case E 8 (AExperimenter (num 4 4 (firstn 8 b))) b].
Qed.

Lemma dec_xm_tiny f0 r : length r < 4 ->
  fail (dec_XM f0 r) = Some (if existsb (Nat.eqb (length r)) [0; 2; 3] then EOF else UnexpectedEOF).
Proof.
  intro H. destruct r as [|a [|b [|c [|d r]]]]; cbn [length] in H; try lia; reflexivity.
Qed.

Lemma dec_xm_cut f0 r : 4 <= length r -> length r < 4 + N.to_nat (num 3 1 r) ->
  fail (dec_XM f0 r) = Some (if length r =? 4 then EOF else UnexpectedEOF).
Proof.
  intros L S. destruct (len4 r L) as (c1 & c2 & f & l & p & ->).
  unfold num in S. cbn [skipn firstn length] in S. rewrite be_dec_1 in S.
  rewrite dec_xm_step. cbv zeta. unfold fslice, fbytes. 
  rewrite take_short by (unfold xm_start; cbn [XM_Value]; rewrite zeros_length; lia).
  cbn [fail length]. destruct p; reflexivity.
Qed.

Lemma denotes_field_region f seg tl : denotes (ASetField f) seg ->
  exists entry junk, field_region (seg ++ tl) = entry ++ junk /\ represents f entry
    /\ length seg = 4 + field_limit (num 2 2 (seg ++ tl)).
Proof.
  intros [_ (D4 & DL & DM & entry & junk & E & R)].
  destruct (len4 seg D4) as (t1 & t2 & l1 & l2 & body & ->). cbn [skipn] in E. subst body.
  exists entry, junk. unfold field_region, num in *. cbn [app skipn firstn] in *. unfold field_limit.
  rewrite <- DM. cbn [length] in *. rewrite app_length in *.
  assert (K : N.to_nat ((N.of_nat (S (S (S (S (length entry + length junk))))) mod 65536 + 65532) mod 65536)
     = length entry + length junk) by lia.
  rewrite K, <- app_length, firstn_app_exact, app_length. split; [reflexivity|]. split; [exact R|lia].
Qed.

Lemma field_step b : 2 <= length b -> num 0 2 b = 25%N -> complete b \/ stops b.
Proof.
  intros L2 E25.
  destruct (Nat.lt_ge_cases (length b) 4) as [L|L].
  { right. split.
    - intros (a & seg & tl & -> & D). pose proof (denotes_len a seg D). rewrite app_length in L. lia.
    - intros fuel acc. change (2 + fuel) with (S (S fuel)). rewrite scan_at by assumption.
      unfold cut_result, accepted_cut. rewrite E25. 
      change (make_action 25) with (MkOk (ASetField zero_XM)). cbv iota zeta.
      exists (val (dec_Action (ASetField zero_XM) b)).
      clear E25. destruct b as [|? [|? [|? [|? ?]]]]; cbn [length] in L, L2; try lia;
        (split; [|split]; reflexivity). }
  destruct (len4 b L) as (t1 & t2 & l1 & l2 & inp & ->).
  set (b := t1 :: t2 :: l1 :: l2 :: inp) in *.
  set (k := field_limit (be_dec [l1; l2])).
  assert (FR : field_region b = firstn k inp) by reflexivity.
  assert (DA : dec_Action (ASetField zero_XM) b
     = match fail (dec_XM zero_XM (firstn k inp)) with
    | Some e => Res (ASetField (val (dec_XM zero_XM (firstn k inp)))) (4 + cnt (dec_XM zero_XM (firstn k inp)))
                   (Some e) (rest (dec_XM zero_XM (firstn k inp)) ++ skipn k inp)
    | None => Res (ASetField (val (dec_XM zero_XM (firstn k inp)))) 
           (4 + (cnt (dec_XM zero_XM (firstn k inp)) + length (rest (dec_XM zero_XM (firstn k inp))))) None (skipn k inp)
    end) by exact (dec_set_field_eq t1 t2 l1 l2 inp zero_XM).
  assert (AC : accepted_cut b = existsb (Nat.eqb (length (firstn k inp))) [0; 2; 3; 4]
                   || (4 + N.to_nat (num 3 1 (firstn k inp)) <=? length (firstn k inp))).
  { unfold accepted_cut. rewrite E25, FR. destruct (Nat.leb_spec 4 (length b)) as [_|]; [|lia].
    destruct (Nat.eqb_spec (length b) 2) as [|_]; [lia|]. reflexivity. }
  assert (BAD : forall e, fail (dec_XM zero_XM (firstn k inp)) = Some e ->
     (length (firstn k inp) < 4 \/ length (firstn k inp) < 4 + N.to_nat (num 3 1 (firstn k inp))) ->
     skip_eof (Some e) = cut_result b -> stops b).
  { intros e He Hs Hc. split.
    - intros (a & seg & tl & Eb & D). pose proof (num_tag a seg tl D) as T.
      rewrite <- Eb in T. change (be_dec (firstn 2 b)) with (num 0 2 b) in T. rewrite E25 in T.
      destruct a as [| | | | | | | | | | | | |f| |]; try discriminate T.
      destruct (denotes_field_region f seg tl D) as (entry & junk & EJ & R & _).
      rewrite <- Eb, FR in EJ. rewrite EJ in Hs.
      destruct R as (c1 & c2 & f' & l & p & -> & Hp & _). unfold num in Hs. cbn [app skipn firstn length] in Hs.
      rewrite be_dec_1, app_length in Hs. lia.
    - intros fuel acc. change (2 + fuel) with (S (S fuel)). rewrite scan_at by assumption.
      rewrite E25. change (make_action 25) with (MkOk (ASetField zero_XM)). cbv iota zeta.
      rewrite DA, He. cbn [fail val]. exists (ASetField (val (dec_XM zero_XM (firstn k inp)))).
      repeat split. exact Hc. }
  destruct (Nat.lt_ge_cases (length (firstn k inp)) 4) as [S4|S4].
  { right. pose proof (dec_xm_tiny zero_XM _ S4) as T. apply (BAD _ T); [left; exact S4|].
    unfold cut_result. rewrite AC. clear - S4.
    destruct (firstn k inp) as [|? [|? [|? [|? ?]]]]; cbn [length] in S4; try lia; try reflexivity. }
  destruct (Nat.lt_ge_cases (length (firstn k inp)) (4 + N.to_nat (num 3 1 (firstn k inp)))) as [S|S].
  { right. pose proof (dec_xm_cut zero_XM _ S4 S) as T. apply (BAD _ T); [right; exact S|].
    unfold cut_result. rewrite AC.
    destruct (Nat.leb_spec (4 + N.to_nat (num 3 1 (firstn k inp))) (length (firstn k inp))) as [|_]; [lia|].
    rewrite orb_false_r. clear - S4. unfold existsb.
    destruct (Nat.eqb_spec (length (firstn k inp)) 0) as [|_]; [lia|].
    destruct (Nat.eqb_spec (length (firstn k inp)) 2) as [|_]; [lia|].
    destruct (Nat.eqb_spec (length (firstn k inp)) 3) as [|_]; [lia|].
    destruct (Nat.eqb_spec (length (firstn k inp)) 4); reflexivity. }
  destruct (len4 _ S4) as (c1 & c2 & f & l & p & EP). rewrite EP in *.
  unfold num in S. cbn [skipn firstn length] in S. rewrite be_dec_1 in S.
  destruct (represents_long c1 c2 f l p ltac:(lia)) as (x & entry & junk & EJ & R).
  rewrite EJ in *. rewrite !(rt_represents x entry R) in DA. cbn [fail val cnt rest] in DA.
  destruct (Nat.lt_ge_cases (length inp) k) as [K|K].
  - right. split.
    + intros (a & seg & tl & Eb & D). pose proof (num_tag a seg tl D) as T.
      rewrite <- Eb in T. change (be_dec (firstn 2 b)) with (num 0 2 b) in T. rewrite E25 in T.
      destruct a as [| | | | | | | | | | | | |f0| |]; try discriminate T.
      destruct (denotes_field_region f0 seg tl D) as (? & ? & _ & _ & HL).
      rewrite <- Eb in HL. change (field_limit (num 2 2 b)) with k in HL.
      assert (LB : length b = length seg + length tl) by (rewrite Eb, app_length; reflexivity).
      cbn [b length] in LB. unfold b in LB. cbn [length] in LB. lia.
    + intros fuel acc. change (2 + fuel) with (Datatypes.S (Datatypes.S fuel)). rewrite scan_at by assumption.
      rewrite E25. change (make_action 25) with (MkOk (ASetField zero_XM)). cbv iota zeta.
      rewrite DA. cbn [fail val cnt rest]. rewrite skipn_all2 by lia.
      exists (ASetField x). cbn [scan_loop length Nat.ltb Nat.leb val fail]. split; [reflexivity|]. split; [reflexivity|].
      unfold cut_result. rewrite AC.
      replace (4 + N.to_nat (num 3 1 (entry ++ junk)) <=? length (entry ++ junk)) with true; [rewrite orb_true_r; reflexivity|].
      symmetry. apply Nat.leb_le. rewrite <- EJ. unfold num. cbn [skipn firstn length]. rewrite be_dec_1. lia.
  - left. exists (ASetField x), (t1 :: t2 :: l1 :: l2 :: firstn k inp), (skipn k inp).
    split; [unfold b; cbn [app]; rewrite firstn_skipn; reflexivity|].
    split; [exact E25|].
    assert (LK : length (firstn k inp) = k) by (rewrite firstn_length; lia).
    assert (HB : (be_dec [l1; l2] < 65536)%N).
    { rewrite be_dec_2. pose proof (to_N_lt l1). pose proof (to_N_lt l2). lia. }
    cbn [length]. rewrite LK. unfold num. cbn [skipn firstn]. unfold k, field_limit in *.
    split; [lia|]. split; [lia|]. split; [lia|]. exists entry, junk. rewrite EP. auto.
Qed.

(** ** Arbitrary bytes *)
Lemma tag_cases t : In t known_types \/ t = 27%N \/ (~ In t known_types /\ t <> 27%N).
Proof.
  destruct (in_dec N.eq_dec t known_types); auto. destruct (N.eq_dec t 27); auto.
Qed.

Lemma make_ok t : In t known_types -> exists z, make_action t = MkOk z.
Proof.
  unfold known_types. cbn [In]. intro H.
  repeat (destruct H as [<-|H]; [eexists; reflexivity|]). contradiction.
Qed.

Lemma make_unknown t : ~ In t known_types -> t <> 27%N -> make_action t = MkUnknown.
Proof.
  intros H H27. unfold make_action, known_types in *. cbn [In] in H.
  repeat match goal with |- (if (t =? ?k)%N then _ else _) = _ =>
    destruct (N.eqb_spec t k) as [->|_]; [exfalso; tauto|] end.
  reflexivity.
Qed.

Lemma known_complete_or_stops b : 2 <= length b -> In (num 0 2 b) known_types -> complete b \/ stops b.
Proof.
  intros L H. destruct (N.eq_dec (num 0 2 b) 25) as [E|E]; [apply field_step; assumption|].
  destruct (make_ok _ H) as [z M]. exact (known_step b z L M E).
Qed.

(** The part of the input after all complete actions. *)
Lemma peel inp : exists l segs b, inp = concat segs ++ b /\ Forall2 denotes l segs
  /\ (length b < 2 \/ (2 <= length b /\ (num 0 2 b = 27%N \/ (~ In (num 0 2 b) known_types /\ num 0 2 b <> 27%N)
                        \/ (In (num 0 2 b) known_types /\ stops b)))).
Proof.
  remember (length inp) as n eqn:EN. revert inp EN.
  induction n as [n IH] using lt_wf_ind. intros inp ->.
  destruct (Nat.lt_ge_cases (length inp) 2) as [L|L].
  { exists [], [], inp. repeat split; auto. }
  destruct (tag_cases (num 0 2 inp)) as [K|[K|K]].
  - destruct (known_complete_or_stops inp L K) as [(a & seg & tl & -> & D)|S].
    + pose proof (denotes_len a seg D) as L4.
      destruct (IH (length tl) ltac:(rewrite app_length; lia) tl eq_refl) as (l & segs & b & -> & F & R).
      exists (a :: l), (seg :: segs), b. cbn [concat]. rewrite <- app_assoc. repeat split; auto.
    + exists [], [], inp. repeat split; auto 10.
  - exists [], [], inp. repeat split; auto 10.
  - exists [], [], inp. repeat split; auto 10.
Qed.

Lemma suffixing_fslice {S} (get : S -> bytes) set : suffixing (fslice get set).
Proof. intros s inp. apply suffixing_take. Qed.
Lemma suffixing_assign {S} (g : S -> S) : suffixing (assign g).
Proof. intros s inp. exists []. reflexivity. Qed.

Lemma suffixing_xm payload : suffixing (dec_xm payload).
Proof.
  unfold dec_xm. apply suffixing_with_local, suffixing_andthen.
  - apply suffixing_seqr. repeat constructor; try apply suffixing_sub; apply suffixing_take.
  - intros. apply suffixing_sub, suffixing_pre, suffixing_andthen; intros;
      [destruct payload; [apply suffixing_fslice|]|]; apply suffixing_assign.
Qed.

Lemma progressing_Action : progressing dec_Action.
Proof.
  intros a inp. destruct a; cbn [dec_Action];
    try (refine (progressing_seqr _ _ _ _ _ inp);
         [apply progressing_take; lia|repeat constructor; apply suffixing_take]).
  refine (progressing_with_local _ _ _ _ inp). apply progressing_andthen.
  - apply progressing_seqr; [apply progressing_take; lia|repeat constructor; apply suffixing_take].
  - intros. apply suffixing_limited, suffixing_sub, suffixing_andthen; intros;
      [apply suffixing_sub, suffixing_xm|apply suffixing_readall].
Qed.

Lemma scan_S {A} fuel' (mk : N -> made A) rd acc inp :
  scan_loop (S fuel') mk rd acc inp =
  if length inp <? 2 then Res acc 0 None []
  else
    match mk (be_dec (firstn 2 inp)) with
    | MkUnknown => Res acc 0 (Some (EUnknown (be_dec (firstn 2 inp)))) []
    | MkPanic => Res acc 0 (Some EPanic) []
    | MkOk a =>
        match fail (rd a inp) with
        | Some e => Res (acc ++ [val (rd a inp)]) (cnt (rd a inp)) (skip_eof (Some e)) []
        | None =>
            let r' := scan_loop fuel' mk rd (acc ++ [val (rd a inp)]) (rest (rd a inp)) in
            Res (val r') (cnt (rd a inp) + cnt r') (fail r') (rest r')
        end
    end.
Proof. reflexivity. Qed.

(** Fuel beyond the number of bytes makes no difference. *)
Lemma scan_fuel {A} (mk : N -> made A) rd : progressing rd ->
  forall fuel acc inp, length inp < fuel -> scan_loop (S fuel) mk rd acc inp = scan_loop fuel mk rd acc inp.
Proof.
  intro PR. induction fuel as [|fuel IH]; intros acc inp H; [lia|].
  rewrite (scan_S (S fuel)), (scan_S fuel).
  destruct (length inp <? 2); [reflexivity|].
  destruct (mk (be_dec (firstn 2 inp))) as [| |z]; try reflexivity.
  destruct (fail (rd z inp)) eqn:EF; [reflexivity|].
  specialize (PR z inp EF). rewrite IH by lia. reflexivity.
Qed.

Lemma scan_fuel_eq {A} (mk : N -> made A) rd : progressing rd ->
  forall acc inp f1 f2, length inp < f1 -> length inp < f2 ->
  scan_loop f1 mk rd acc inp = scan_loop f2 mk rd acc inp.
Proof.
  intros PR acc inp.
  assert (H : forall k, scan_loop (k + S (length inp)) mk rd acc inp = scan_loop (S (length inp)) mk rd acc inp).
  { induction k as [|k IH]; [reflexivity|]. cbn [Nat.add]. rewrite scan_fuel by (exact PR || lia). exact IH. }
  intros f1 f2 H1 H2.
  replace f1 with ((f1 - S (length inp)) + S (length inp)) by lia.
  replace f2 with ((f2 - S (length inp)) + S (length inp)) by lia. rewrite !H. reflexivity.
Qed.

Lemma dec_Actions_at l segs b old : Forall2 denotes l segs ->
  exists fuel, let r := scan_loop (2 + fuel) make_action dec_Action l b in
  dec_Actions old (concat segs ++ b) = Res (val r) (length (concat segs) + cnt r) (fail r) (rest r)
  /\ length b <= fuel.
Proof.
  intro F. unfold dec_Actions, pre, scan.
  destruct (scan_denotes l segs F (S (length (concat segs ++ b))) [] b ltac:(lia)) as (fuel' & F' & E).
  cbv zeta in E. cbn [app] in E. exists (length b). cbv zeta. split; [|lia]. rewrite E.
  rewrite (scan_fuel_eq _ _ progressing_Action l b fuel' (2 + length b)) by lia. reflexivity.
Qed.

Lemma decode_end l segs b old : Forall2 denotes l segs -> length b < 2 ->
  dec_Actions old (concat segs ++ b) = Res l (length (concat segs)) None [].
Proof.
  intros F L. destruct (dec_Actions_at l segs b old F) as (fuel & E & _). rewrite E.
  cbn [Nat.add scan_loop]. destruct (Nat.ltb_spec (length b) 2); [|lia].
  cbn [val cnt fail rest]. rewrite Nat.add_0_r. reflexivity.
Qed.

Lemma decode_unknown l segs b old : Forall2 denotes l segs -> 2 <= length b ->
  ~ In (num 0 2 b) known_types -> num 0 2 b <> 27%N ->
  dec_Actions old (concat segs ++ b) = Res l (length (concat segs)) (Some (EUnknown (num 0 2 b))) [].
Proof.
  intros F L U U27. destruct (dec_Actions_at l segs b old F) as (fuel & E & _). rewrite E.
  change (2 + fuel) with (S (S fuel)). rewrite scan_at by exact L. rewrite make_unknown by assumption.
  cbn [val cnt fail rest]. rewrite Nat.add_0_r. reflexivity.
Qed.

Lemma decode_panic l segs b old : Forall2 denotes l segs -> 2 <= length b -> num 0 2 b = 27%N ->
  dec_Actions old (concat segs ++ b) = Res l (length (concat segs)) (Some EPanic) [].
Proof.
  intros F L U. destruct (dec_Actions_at l segs b old F) as (fuel & E & _). rewrite E.
  change (2 + fuel) with (S (S fuel)). rewrite scan_at by exact L. rewrite U.
  change (make_action 27) with (@MkPanic Action).
  cbn [val cnt fail rest]. rewrite Nat.add_0_r. reflexivity.
Qed.

Lemma decode_cut l segs b old : Forall2 denotes l segs -> stops b ->
  exists a, ofpat a = num 0 2 b /\ val (dec_Actions old (concat segs ++ b)) = l ++ [a]
    /\ fail (dec_Actions old (concat segs ++ b)) = if accepted_cut b then None else Some UnexpectedEOF.
Proof.
  intros F [_ S]. destruct (dec_Actions_at l segs b old F) as (fuel & E & _). rewrite E.
  destruct (S fuel l) as (a & A1 & A2 & A3). exists a. cbn [val fail]. auto.
Qed.

Lemma incomplete_stops b : 2 <= length b -> In (num 0 2 b) known_types -> ~ complete b -> stops b.
Proof. intros L K N. destruct (known_complete_or_stops b L K); [contradiction|assumption]. Qed.

Lemma classification old inp : exists l segs b,
  inp = concat segs ++ b /\ Forall2 denotes l segs /\
  let r := dec_Actions old inp in
  ((length b < 2 /\ val r = l /\ fail r = None)
   \/ (2 <= length b /\ ~ In (num 0 2 b) known_types /\ num 0 2 b <> 27%N
       /\ val r = l /\ fail r = Some (EUnknown (num 0 2 b)))
   \/ (2 <= length b /\ num 0 2 b = 27%N /\ val r = l /\ fail r = Some EPanic)
   \/ (2 <= length b /\ In (num 0 2 b) known_types
       /\ ~ (exists a seg tl, b = seg ++ tl /\ denotes a seg)
       /\ exists a, ofpat a = num 0 2 b /\ val r = l ++ [a]
          /\ fail r = if accepted_cut b then None else Some UnexpectedEOF)).
Proof.
  destruct (peel inp) as (l & segs & b & -> & F & C). exists l, segs, b.
  split; [reflexivity|]. split; [exact F|]. cbv zeta.
  destruct C as [C|[L [C|[[C C27]|[K S]]]]].
  - left. rewrite (decode_end l) by assumption. auto.
  - right; right; left. rewrite (decode_panic l) by assumption. auto.
  - right; left. rewrite (decode_unknown l) by assumption. auto.
  - right; right; right. pose proof (decode_cut l segs b old F S) as D.
    repeat split; auto. apply (proj1 S).
Qed.

(** ** Writing *)
Lemma set_field_bytes f : wf_XM f ->
  enc_set_field f = be_enc 2 25 ++ be_enc 2 (N.of_nat (action_size (ASetField f)))
                    ++ enc_XM f ++ zeros (action_size (ASetField f) - (4 + xm_size f)).
Proof.
  intro W. unfold enc_set_field. cbv zeta. pose proof (xm_length f W) as L.
  pose proof W as (_ & _ & _ & Hs). unfold action_size.
  assert (P : (if (length (enc_XM f) + 4) mod 8 =? 0 then [] else pad (8 - (length (enc_XM f) + 4) mod 8))
              = zeros (up8 (4 + xm_size f) - (4 + xm_size f))).
  { rewrite L. destruct (Nat.eqb_spec ((xm_size f + 4) mod 8) 0) as [E|E].
    - replace (up8 (4 + xm_size f) - (4 + xm_size f)) with 0 by (unfold up8; lia). reflexivity.
    - unfold pad. f_equal. unfold up8. lia. }
  rewrite P, app_length, zeros_length, L.
  pose proof (up8_ge (4 + xm_size f)) as U.
  replace (xm_size f + (up8 (4 + xm_size f) - (4 + xm_size f)) + 4) with (up8 (4 + xm_size f)) by lia.
  unfold xm_size in U at 2. rewrite uwrap2 by (unfold xm_size in *; lia).
  unfold action_header, u16. rewrite <- !app_assoc. reflexivity.
Qed.

Lemma tiles_shift k t : forall from size, tiles (k + from) (shift k t) (k + size) = tiles from t size.
Proof.
  induction t as [|[o i] t IH]; intros from size; cbn [shift map tiles fst snd].
  - destruct (Nat.eqb_spec from size) as [->|N]; [apply Nat.eqb_refl|apply Nat.eqb_neq; lia].
  - change (map _ t) with (shift k t). rewrite <- Nat.add_assoc, IH. f_equal.
    destruct (Nat.eqb_spec o from) as [->|N]; [apply Nat.eqb_refl|apply Nat.eqb_neq; lia].
Qed.

Lemma tiles_app t1 : forall from mid size t2,
  tiles from t1 mid = true -> tiles mid t2 size = true -> tiles from (t1 ++ t2) size = true.
Proof.
  induction t1 as [|[o i] t1 IH]; intros from mid size t2 H1 H2; cbn [app tiles] in *.
  - apply Nat.eqb_eq in H1. subst. exact H2.
  - apply andb_prop in H1. destruct H1 as [-> H1]. cbn [andb]. eapply IH; eassumption.
Qed.

Lemma render_shift k t : map (fun oi => render (snd oi)) (shift k t) = map (fun oi => render (snd oi)) t.
Proof. unfold shift. rewrite map_map. reflexivity. Qed.

Lemma good_shift k t : Forall (fun oi : nat * item => good (snd oi)) t ->
  Forall (fun oi => good (snd oi)) (shift k t).
Proof. induction 1; constructor; auto. Qed.

Lemma xm_good x : Forall (fun oi : nat * item => good (snd oi)) (xm_layout x).
Proof. repeat constructor. Qed.
Lemma xm_tiles x : tiles 0 (xm_layout x) (xm_size x) = true.
Proof.
  unfold xm_layout, xm_size. cbn [tiles width Nat.add]. rewrite !Nat.eqb_refl. reflexivity.
Qed.

Lemma xm_render x : wf_XM x -> enc_XM x = concat (map (fun oi => render (snd oi)) (xm_layout x)).
Proof.
  intro W. rewrite enc_XM_eq by exact W. unfold xm_layout. cbn [map snd render concat].
  rewrite app_nil_r. reflexivity.
Qed.

Lemma action_layout_ok a : wf_Action a -> laid_out (enc_Action a) (action_size a) (action_layout a).
Proof.
  destruct a; intro W; try (apply laid_out_intro; [repeat constructor|reflexivity|];
    cbn [enc_Action action_type]; unfold action_header;
    cbn [action_layout ofpat action_size map snd render concat app];
    rewrite ?app_nil_r, <- ?app_assoc; reflexivity).
  cbn [wf_Action] in W. apply laid_out_intro.
  - unfold action_layout. constructor; [exact I|]. constructor; [exact I|].
    apply Forall_app. split; [apply good_shift, xm_good|repeat constructor].
  - unfold action_layout. cbn [tiles width Nat.eqb andb Nat.add].
    pose proof (up8_ge (4 + xm_size field)) as U.
    eapply tiles_app; [exact (eq_trans (tiles_shift 4 _ 0 _) (xm_tiles field))|].
    cbn [tiles width]. rewrite Nat.eqb_refl. cbn [andb action_size]. apply Nat.eqb_eq. change (S (S (S (S (xm_size field))))) with (4 + xm_size field). lia.
  - cbn [enc_Action action_layout map snd render concat ofpat].
    rewrite map_app, concat_app, render_shift, <- xm_render by exact W.
    cbn [map concat snd render]. rewrite app_nil_r. apply set_field_bytes, W.
Qed.

Lemma action_length a : wf_Action a -> length (enc_Action a) = action_size a.
Proof. intro W. apply (action_layout_ok a W). Qed.

Lemma action_size_8 a : action_size a mod 8 = 0 /\ 8 <= action_size a.
Proof.
  destruct a; cbn [action_size]; try (split; [reflexivity|lia]).
  unfold up8, xm_size. lia.
Qed.

Lemma num_here p w v tl : fits w v -> num (length p) w (p ++ be_enc w v ++ tl) = v.
Proof.
  intro F. unfold num. rewrite skipn_app_exact.
  rewrite firstn_app_len by apply be_enc_length. apply be_dec_enc_fits, F.
Qed.

Lemma num_here' p w v tl off e : e = p ++ be_enc w v ++ tl -> length p = off -> (v < 256 ^ N.of_nat w)%N ->
  num off w e = v.
Proof. intros -> <- H. apply num_here, H. Qed.

Lemma denotes_enc a : wf_Action a -> denotes a (enc_Action a).
Proof.
  intro W. pose proof (action_length a W) as L.
  destruct a; cbn [wf_Action] in W; cbn [action_size] in L; (split; [reflexivity|try exact L]).
  - split; [exact L|]. cbn [enc_Action action_type concat]. unfold u32, u16. split; symmetry.
    + apply (num_here' (action_header 0 16) 4 _ (be_enc 2 maxlen ++ pad 6 ++ []));
        [reflexivity|reflexivity|cbn; lia].
    + apply (num_here' (action_header 0 16 ++ be_enc 4 port) 2 _ (pad 6 ++ []));
        [reflexivity|reflexivity|cbn; lia].
  - split; [exact L|]. symmetry. apply (num_here' (action_header 15 8) 1 _ (pad 3 ++ [])); [reflexivity|reflexivity|cbn; lia].
  - split; [exact L|]. symmetry. apply (num_here' (action_header 17 8) 2 _ (pad 2 ++ [])); [reflexivity|reflexivity|cbn; lia].
  - split; [exact L|]. symmetry. apply (num_here' (action_header 19 8) 2 _ (pad 2 ++ [])); [reflexivity|reflexivity|cbn; lia].
  - split; [exact L|]. symmetry. apply (num_here' (action_header 20 8) 2 _ (pad 2 ++ [])); [reflexivity|reflexivity|cbn; lia].
  - split; [exact L|]. symmetry. apply (num_here' (action_header 21 8) 4 _ []); [reflexivity|reflexivity|cbn; lia].
  - split; [exact L|]. symmetry. apply (num_here' (action_header 22 8) 4 _ []); [reflexivity|reflexivity|cbn; lia].
  - split; [exact L|]. symmetry. apply (num_here' (action_header 23 8) 1 _ (pad 3 ++ [])); [reflexivity|reflexivity|cbn; lia].
  - pose proof W as (_ & _ & _ & Hs). pose proof (up8_ge (4 + xm_size field)) as U.
    assert (SZ : up8 (4 + xm_size field) < 272) by (unfold up8, xm_size in *; lia).
    rewrite L. split; [lia|]. split; [lia|]. cbn [enc_Action] in *.
    rewrite set_field_bytes by exact W. split.
    + symmetry. rewrite N.mod_small by lia.
      apply (num_here' (be_enc 2 25) 2 _ (enc_XM field ++ zeros (up8 (4 + xm_size field) - (4 + xm_size field))));
        [reflexivity|reflexivity|cbn [N.of_nat]; lia].
    + eexists; eexists. split; [reflexivity|]. apply represents_enc, W.
  - split; [exact L|]. symmetry. apply (num_here' (action_header 26 8) 2 _ (pad 2 ++ [])); [reflexivity|reflexivity|cbn; lia].
  - split; [exact L|]. symmetry. apply (num_here' (action_header 65535 8) 4 _ []); [reflexivity|reflexivity|cbn; lia].
Qed.

Lemma denotes_enc_all l : Forall wf_Action l -> Forall2 denotes l (map enc_Action l).
Proof. induction 1; constructor; auto. apply denotes_enc. assumption. Qed.

Lemma whole_Actions l : Forall wf_Action l -> whole dec_Actions (enc_Actions l) (fun _ => l).
Proof.
  intros W old. rewrite <- (app_nil_r (enc_Actions l)) at 1. unfold enc_Actions.
  rewrite (decode_end l _ [] old (denotes_enc_all l W)) by (cbn; lia). reflexivity.
Qed.

Lemma actions_length l : Forall wf_Action l -> length (enc_Actions l) = actions_size l.
Proof.
  intro W. unfold enc_Actions. rewrite concat_map_length. unfold actions_size. f_equal.
  induction W as [|a l Wa _ IH]; [reflexivity|]. cbn [map]. rewrite IH, action_length by exact Wa. reflexivity.
Qed.

(** ** Consequences *)
Lemma concat_enc l : enc_Actions l = concat (map enc_Action l).
Proof. reflexivity. Qed.

Lemma never_fuel old inp : fail (dec_Actions old inp) <> Some EFuel.
Proof.
  destruct (classification old inp) as (l & segs & b & _ & _ & C). cbv zeta in C.
  destruct C as [(_ & _ & ->)|[(_ & _ & _ & _ & ->)|[(_ & _ & _ & ->)|(_ & _ & _ & a & _ & _ & ->)]]];
    try congruence. destruct (accepted_cut b); congruence.
Qed.

Lemma panic_iff old inp :
  fail (dec_Actions old inp) = Some EPanic <->
  exists l segs b, inp = concat segs ++ b /\ Forall2 denotes l segs /\ 2 <= length b /\ num 0 2 b = 27%N.
Proof.
  split.
  - intro P. destruct (classification old inp) as (l & segs & b & E & F & C). cbv zeta in C. rewrite P in C.
    exists l, segs, b. split; [exact E|]. split; [exact F|].
    destruct C as [(_ & _ & C)|[(_ & _ & _ & _ & C)|[(H1 & H2 & _)|(_ & _ & _ & a & _ & _ & C)]]];
      try discriminate; auto. destruct (accepted_cut b); discriminate.
  - intros (l & segs & b & -> & F & L & T). rewrite (decode_panic l) by assumption. reflexivity.
Qed.

Lemma reported_cut l old b : Forall wf_Action l -> 2 <= length b -> In (num 0 2 b) known_types ->
  ~ (exists a seg tl, b = seg ++ tl /\ denotes a seg) ->
  let r := dec_Actions old (enc_Actions l ++ b) in
  (exists a, ofpat a = num 0 2 b /\ val r = l ++ [a])
  /\ fail r = if accepted_cut b then None else Some UnexpectedEOF.
Proof.
  intros W L K N. cbv zeta. rewrite concat_enc.
  destruct (decode_cut l _ b old (denotes_enc_all l W) (incomplete_stops b L K N)) as (a & A1 & A2 & A3).
  split; [exists a; split|]; assumption.
Qed.

Lemma dec_set_field_empty f0 tl :
  let r := dec_Action (ASetField f0) ([x00; x19; x00; x04] ++ tl) in
  fail r = Some EOF /\ val r = ASetField f0.
Proof.
  cbv zeta. cbn [app dec_Action]. rewrite (dec_set_field_eq x00 x19 x00 x04 tl f0).
  split; reflexivity.
Qed.

Lemma short_field_drops_rest l old more : Forall wf_Action l ->
  let r := dec_Actions old (enc_Actions l ++ [x00; x19; x00; x04] ++ more) in
  val r = l ++ [ASetField zero_XM] /\ fail r = None.
Proof.
  intro W. cbv zeta. rewrite concat_enc.
  destruct (dec_Actions_at l _ ([x00; x19; x00; x04] ++ more) old (denotes_enc_all l W)) as (fuel & E & _).
  rewrite E. change (2 + fuel) with (S (S fuel)). rewrite scan_at by (cbn; lia).
  change (make_action (num 0 2 ([x00; x19; x00; x04] ++ more))) with (MkOk (ASetField zero_XM)).
  pose proof (dec_set_field_empty zero_XM more) as FV. cbv zeta in FV. destruct FV as [F V].
  cbv iota zeta. rewrite F, V. split; reflexivity.
Qed.
