(** Lemmas about request framing. *)
From Coq Require Import ZifyBool ZifyNat ZifyN.
From Verif Require Export FixedFacts RequestModel RequestSpec.
Ltac Zify.zify_post_hook ::= Z.div_mod_to_equations.

(** ** Reading *)

(** [r'] is [r] after consuming [n] bytes. *)
Definition after (n : nat) (r r' : reader) : Prop :=
  data r' = skipn n (data r) /\ fin r' = fin r /\ eager r' = eager r
  /\ length (sched r') <= length (sched r).

Lemma after_trans a b r1 r2 r3 : after a r1 r2 -> after b r2 r3 -> after (a + b) r1 r3.
Proof.
  intros (D1 & F1 & E1 & S1) (D2 & F2 & E2 & S2). repeat split; try congruence; [|lia].
  rewrite D2, D1. apply skipn_skipn_add.
Qed.

Lemma after_0 r : after 0 r r.
Proof. repeat split; lia. Qed.

Lemma read1_nil k r : data r = [] ->
  exists r', read1 k r = ([], Some (fin r), r') /\ after 0 r r'.
Proof.
  intro H. unfold read1. rewrite H. eexists. split; [reflexivity|].
  repeat split; cbn [data sched]; rewrite ?H, ?skipn_nil; try reflexivity.
  destruct (sched r); cbn; lia.
Qed.

Lemma read1_cons k r : 0 < k -> data r <> [] ->
  exists m r', m <= k /\ m <= length (data r)
    /\ read1 k r = (firstn m (data r),
                    if (m =? length (data r)) && eager r then Some (fin r) else None, r')
    /\ after m r r' /\ length (data r') + length (sched r') < length (data r) + length (sched r).
Proof.
  intros Hk Hd. unfold read1.
  set (c := match sched r with [] => k | c :: _ => c end).
  destruct (data r) as [|x l] eqn:E; [congruence|]. rewrite <- E.
  exists (Nat.min (length (data r)) (Nat.min k c)).
  eexists. split; [lia|]. split; [lia|].
  assert (F : firstn (Nat.min (length (data r)) (Nat.min k c)) (data r) = firstn (Nat.min k c) (data r)).
  { destruct (Nat.le_gt_cases (Nat.min k c) (length (data r))) as [L|L].
    - replace (Nat.min (length (data r)) (Nat.min k c)) with (Nat.min k c) by lia. reflexivity.
    - replace (Nat.min (length (data r)) (Nat.min k c)) with (length (data r)) by lia.
      rewrite firstn_all, firstn_all2 by lia. reflexivity. }
  assert (K : skipn (Nat.min (length (data r)) (Nat.min k c)) (data r) = skipn (Nat.min k c) (data r)).
  { destruct (Nat.le_gt_cases (Nat.min k c) (length (data r))) as [L|L].
    - replace (Nat.min (length (data r)) (Nat.min k c)) with (Nat.min k c) by lia. reflexivity.
    - replace (Nat.min (length (data r)) (Nat.min k c)) with (length (data r)) by lia.
      rewrite skipn_all, skipn_all2 by lia. reflexivity. }
  rewrite F. split; [|split].
  - f_equal. f_equal.
    destruct (skipn (Nat.min k c) (data r)) as [|y l'] eqn:E'.
    + assert (length (skipn (Nat.min k c) (data r)) = 0) by (rewrite E'; reflexivity).
      rewrite skipn_length in H.
      replace (_ =? _) with true by (symmetry; apply Nat.eqb_eq; lia). reflexivity.
    + assert (length (skipn (Nat.min k c) (data r)) = S (length l')) by (rewrite E'; reflexivity).
      rewrite skipn_length in H.
      replace (_ =? _) with false by (symmetry; apply Nat.eqb_neq; lia). reflexivity.
  - repeat split; cbn [data sched fin eager]; [symmetry; exact K|].
    destruct (sched r); cbn; lia.
  - cbn [data sched]. rewrite skipn_length.
    assert (length (data r) > 0) by (rewrite E; cbn; lia).
    subst c. destruct (sched r); cbn [tl length]; lia.
Qed.

Lemma app_firstn {A} a b (l : list A) : firstn a l ++ firstn b (skipn a l) = firstn (a + b) l.
Proof.
  revert l. induction a as [|a IH]; intro l; [reflexivity|].
  destruct l as [|x l]; [cbn; rewrite firstn_nil; reflexivity|]. cbn. rewrite IH. reflexivity.
Qed.

Lemma nonempty_length {A} (l : list A) : l <> [] <-> 0 < length l.
Proof. destruct l; cbn; split; intro H; try congruence; try lia. Qed.

Lemma read_full_ok : forall fuel k acc r,
  length (data r) + length (sched r) < fuel ->
  length acc <= k <= length acc + length (data r) ->
  exists r', read_full fuel k acc r = (acc ++ firstn (k - length acc) (data r), None, r')
    /\ after (k - length acc) r r'.
Proof.
  induction fuel as [|fuel IH]; intros k acc r Hf Hk; [lia|]. cbn [read_full].
  destruct (Nat.leb_spec k (length acc)) as [L|L].
  - replace (k - length acc) with 0 by lia. cbn [firstn]. rewrite app_nil_r.
    exists r. split; [reflexivity|apply after_0].
  - assert (Hne : data r <> []) by (apply nonempty_length; lia).
    destruct (read1_cons (k - length acc) r ltac:(lia) Hne) as (m & r1 & Hm & Hm' & -> & Ha & Hdec).
    assert (Hl1 : length (acc ++ firstn m (data r)) = length acc + m)
      by (rewrite app_length, firstn_length; lia).
    assert (Hd1 : length (data r1) = length (data r) - m)
      by (destruct Ha as (-> & _); apply skipn_length).
    assert (Hgo : forall e : option err,
      exists r', (if k <=? length (acc ++ firstn m (data r)) then
                    (acc ++ firstn m (data r), None, r1)
                  else read_full fuel k (acc ++ firstn m (data r)) r1)
                 = (acc ++ firstn (k - length acc) (data r), None, r') /\ after (k - length acc) r r').
    { intros _. destruct (Nat.leb_spec k (length (acc ++ firstn m (data r)))) as [L'|L'].
      - assert (Em : m = k - length acc) by lia. rewrite Em in *. exists r1. split; [reflexivity|exact Ha].
      - destruct (IH k (acc ++ firstn m (data r)) r1 ltac:(lia) ltac:(lia)) as (r' & -> & Ha').
        exists r'. rewrite Hl1 in *. split.
        + do 2 f_equal. rewrite <- app_assoc. f_equal. destruct Ha as (-> & _).
          rewrite app_firstn. f_equal. lia.
        + replace (k - length acc) with (m + (k - (length acc + m))) by lia.
          eapply after_trans; eassumption. }
    destruct ((m =? length (data r)) && eager r) eqn:Ee.
    + assert (m = length (data r)) by lia.
      destruct (Nat.leb_spec k (length (acc ++ firstn m (data r)))) as [L'|L']; [|lia].
      assert (Em : m = k - length acc) by lia. rewrite Em in *. exists r1. split; [reflexivity|exact Ha].
    + destruct (Hgo None) as (r' & Hg & Ha'). exists r'. split; [|exact Ha'].
      destruct (Nat.leb_spec k (length (acc ++ firstn m (data r)))) as [L'|L'].
      * rewrite <- Hg. destruct fuel as [|fuel']; [lia|]. cbn [read_full].
        destruct (Nat.leb_spec k (length (acc ++ firstn m (data r)))); [reflexivity|lia].
      * exact Hg.
Qed.

(** What [io.ReadFull] reports for a short read. *)
Definition short_err (e : err) (got : bytes) : err :=
  match e with EOF => match got with [] => EOF | _ => UnexpectedEOF end | _ => e end.

Lemma read_full_short : forall fuel k acc r,
  length (data r) + length (sched r) < fuel ->
  length acc + length (data r) < k ->
  exists r', read_full fuel k acc r = (acc ++ data r, Some (short_err (fin r) (acc ++ data r)), r')
    /\ after (length (data r)) r r'.
Proof.
  induction fuel as [|fuel IH]; intros k acc r Hf Hk; [lia|]. cbn [read_full].
  destruct (Nat.leb_spec k (length acc)) as [L|L]; [lia|].
  destruct (data r) as [|x l] eqn:E.
  - destruct (read1_nil (k - length acc) r E) as (r1 & -> & Ha).
    rewrite app_nil_r. destruct (Nat.leb_spec k (length acc)) as [L'|L']; [lia|].
    exists r1. split; [reflexivity|]. exact Ha.
  - rewrite <- E in *.
    destruct (read1_cons (k - length acc) r ltac:(lia) ltac:(congruence)) as (m & r1 & Hm & Hm' & -> & Ha & Hdec).
    assert (Hl1 : length (acc ++ firstn m (data r)) = length acc + m)
      by (rewrite app_length, firstn_length; lia).
    assert (Hd1 : length (data r1) = length (data r) - m)
      by (destruct Ha as (-> & _); apply skipn_length).
    destruct ((m =? length (data r)) && eager r) eqn:Ee.
    + assert (m = length (data r)) by lia. subst m.
      destruct (Nat.leb_spec k (length (acc ++ firstn (length (data r)) (data r)))) as [L'|L']; [lia|].
      rewrite firstn_all. exists r1. split; [reflexivity|exact Ha].
    + destruct (IH k (acc ++ firstn m (data r)) r1 ltac:(lia) ltac:(lia)) as (r' & -> & Ha').
      exists r'. destruct Ha as (D & F & G & Sc).
      assert (Hcat : (acc ++ firstn m (data r)) ++ data r1 = acc ++ data r).
      { rewrite D, <- app_assoc, firstn_skipn. reflexivity. }
      split.
      * rewrite Hcat, F. reflexivity.
      * replace (length (data r)) with (m + length (data r1)) by lia.
        eapply after_trans; [|exact Ha']. repeat split; assumption.
Qed.

Lemma read_body_ok : forall fuel k acc r,
  length (data r) + length (sched r) < fuel ->
  length acc <= k <= length acc + length (data r) ->
  (eager r = false \/ k < length acc + length (data r) \/ k = length acc) ->
  exists r', read_body fuel k acc r = (acc ++ firstn (k - length acc) (data r), None, r')
    /\ after (k - length acc) r r'.
Proof.
  induction fuel as [|fuel IH]; intros k acc r Hf Hk He; [lia|]. cbn [read_body].
  destruct (Nat.leb_spec k (length acc)) as [L|L].
  - replace (k - length acc) with 0 by lia. cbn [firstn]. rewrite app_nil_r.
    exists r. split; [reflexivity|apply after_0].
  - assert (Hne : data r <> []) by (apply nonempty_length; lia).
    destruct (read1_cons (k - length acc) r ltac:(lia) Hne) as (m & r1 & Hm & Hm' & -> & Ha & Hdec).
    assert (Hl1 : length (acc ++ firstn m (data r)) = length acc + m)
      by (rewrite app_length, firstn_length; lia).
    assert (Hd1 : length (data r1) = length (data r) - m)
      by (destruct Ha as (-> & _); apply skipn_length).
    assert (Hg1 : eager r1 = eager r) by apply Ha.
    replace ((m =? length (data r)) && eager r) with false; cycle 1.
    { symmetry. apply andb_false_iff.
      destruct He as [He|[He|He]]; [right; exact He|left; apply Nat.eqb_neq; lia|lia]. }
    destruct (IH k (acc ++ firstn m (data r)) r1) as (r' & -> & Ha').
    + lia.
    + lia.
    + rewrite Hg1. destruct He as [He|[He|He]]; [left; exact He|right; left; lia|lia].
    + exists r'. rewrite Hl1 in *. split.
      * do 2 f_equal. rewrite <- app_assoc. f_equal. destruct Ha as (-> & _).
        rewrite app_firstn. f_equal. lia.
      * replace (k - length acc) with (m + (k - (length acc + m))) by lia.
        eapply after_trans; eassumption.
Qed.

(** The body loop fails with the reader's final error when the bytes do not
    suffice, or when they exactly suffice and the error comes with the last of them. *)
Lemma read_body_fail : forall fuel k acc r,
  length (data r) + length (sched r) < fuel ->
  length acc < k ->
  length acc + length (data r) < k \/ (eager r = true /\ length acc + length (data r) = k) ->
  exists r', read_body fuel k acc r = (acc ++ data r, Some (fin r), r')
    /\ after (length (data r)) r r'.
Proof.
  induction fuel as [|fuel IH]; intros k acc r Hf Hk He; [lia|]. cbn [read_body].
  destruct (Nat.leb_spec k (length acc)) as [L|L]; [lia|].
  destruct (data r) as [|x l] eqn:E.
  - destruct (read1_nil (k - length acc) r E) as (r1 & -> & Ha).
    exists r1. split; [reflexivity|]. exact Ha.
  - rewrite <- E in *.
    destruct (read1_cons (k - length acc) r ltac:(lia) ltac:(congruence)) as (m & r1 & Hm & Hm' & -> & Ha & Hdec).
    assert (Hl1 : length (acc ++ firstn m (data r)) = length acc + m)
      by (rewrite app_length, firstn_length; lia).
    assert (Hd1 : length (data r1) = length (data r) - m)
      by (destruct Ha as (-> & _); apply skipn_length).
    assert (Hg1 : eager r1 = eager r) by apply Ha.
    destruct ((m =? length (data r)) && eager r) eqn:Ee.
    + assert (m = length (data r)) by lia. subst m.
      rewrite firstn_all. exists r1. split; [reflexivity|exact Ha].
    + destruct (IH k (acc ++ firstn m (data r)) r1) as (r' & -> & Ha').
      * lia.
      * rewrite Hl1. destruct He as [He|[He1 He2]]; [lia|]. rewrite He1, andb_true_r in Ee.
        apply Nat.eqb_neq in Ee. lia.
      * rewrite Hl1, Hg1. destruct He as [He|[He1 He2]]; [left; lia|right; split; [exact He1|lia]].
      * exists r'. destruct Ha as (D & F & G & Sc).
        assert (Hcat : (acc ++ firstn m (data r)) ++ data r1 = acc ++ data r).
        { rewrite D, <- app_assoc, firstn_skipn. reflexivity. }
        split.
        -- rewrite Hcat, F. reflexivity.
        -- replace (length (data r)) with (m + length (data r1)) by lia.
           eapply after_trans; [|exact Ha']. repeat split; assumption.
Qed.

(** ** Header *)
Definition header_at (d : bytes) : Header :=
  MkHeader (be_dec (firstn 1 d)) (be_dec (firstn 1 (skipn 1 d)))
           (be_dec (firstn 2 (skipn 2 d))) (be_dec (firstn 4 (skipn 4 d))).

Lemma fuel_ok r : length (data r) + length (sched r) < fuel_of r.
Proof. unfold fuel_of. lia. Qed.

Lemma hdr_field_ok k set h n r : k <= length (data r) ->
  exists r', hdr_field k set (h, n, None, r) = (set (be_dec (firstn k (data r))) h, n + k, None, r')
    /\ after k r r'.
Proof.
  intro H. unfold hdr_field.
  destruct (read_full_ok (fuel_of r) k [] r (fuel_ok r) ltac:(cbn; lia)) as (r' & -> & Ha).
  cbn [app length] in *. rewrite Nat.sub_0_r in *. exists r'. split; [|exact Ha].
  rewrite firstn_length, Nat.min_l by lia. reflexivity.
Qed.

Lemma hdr_field_short k set h n r : length (data r) < k ->
  exists r', hdr_field k set (h, n, None, r)
    = (h, n + length (data r), Some (short_err (fin r) (data r)), r')
    /\ after (length (data r)) r r'.
Proof.
  intro H. unfold hdr_field.
  destruct (read_full_short (fuel_of r) k [] r (fuel_ok r) ltac:(cbn; lia)) as (r' & -> & Ha).
  cbn [app length] in *. exists r'. split; [reflexivity|exact Ha].
Qed.

Lemma read_header_ok h r : 8 <= length (data r) ->
  exists r', read_header h r = (header_at (data r), 8, None, r') /\ after 8 r r'.
Proof.
  intro H. unfold read_header.
  destruct (hdr_field_ok 1 set_Header_Version h 0 r ltac:(lia)) as (r1 & -> & A1).
  assert (L1 : length (data r1) = length (data r) - 1) by (destruct A1 as (-> & _); apply skipn_length).
  destruct (hdr_field_ok 1 set_Header_Type (set_Header_Version (be_dec (firstn 1 (data r))) h) (0 + 1) r1 ltac:(lia)) as (r2 & -> & A2).
  pose proof (after_trans _ _ _ _ _ A1 A2) as B2.
  assert (L2 : length (data r2) = length (data r) - 2) by (destruct B2 as (-> & _); apply skipn_length).
  match goal with |- context [hdr_field 2 _ (?h', ?n', None, r2)] =>
    destruct (hdr_field_ok 2 set_Header_Length h' n' r2 ltac:(lia)) as (r3 & -> & A3) end.
  pose proof (after_trans _ _ _ _ _ B2 A3) as B3.
  assert (L3 : length (data r3) = length (data r) - 4) by (destruct B3 as (-> & _); apply skipn_length).
  match goal with |- context [hdr_field 4 _ (?h', ?n', None, r3)] =>
    destruct (hdr_field_ok 4 set_Header_Transaction h' n' r3 ltac:(lia)) as (r4 & -> & A4) end.
  pose proof (after_trans _ _ _ _ _ B3 A4) as B4.
  exists r4. split; [|exact B4].
  destruct A1 as (D1 & _), B2 as (D2 & _), B3 as (D3 & _). rewrite D1, D2, D3.
  reflexivity.
Qed.

(** The error after [c < 8] header bytes of a stream that ends with [e]. *)
Definition cut_err (e : err) (c : nat) : err :=
  match e with
  | EOF => match c with 0 | 1 | 2 | 4 => EOF | _ => UnexpectedEOF end
  | _ => e
  end.

Lemma hdr_field_err k set h n e r : hdr_field k set (h, n, Some e, r) = (h, n, Some e, r).
Proof. reflexivity. Qed.

Lemma short_cut e d c : length d = c -> c < 8 ->
  forall a k, a + length d = c -> length d < k ->
  short_err e d = match e with EOF => match length d with 0 => EOF | _ => UnexpectedEOF end | _ => e end.
Proof. intros. unfold short_err. destruct e, d; reflexivity. Qed.

Lemma read_header_short h r : length (data r) < 8 ->
  exists h' r', read_header h r = (h', length (data r), Some (cut_err (fin r) (length (data r))), r')
    /\ after (length (data r)) r r'.
Proof.
  intro H. unfold read_header.
  destruct (Nat.ltb_spec (length (data r)) 1) as [C|C].
  { destruct (hdr_field_short 1 set_Header_Version h 0 r C) as (r1 & -> & A1).
    rewrite !hdr_field_err. do 2 eexists. split; [|exact A1].
    destruct (data r); [|cbn in C; lia]. cbn. destruct (fin r); reflexivity. }
  destruct (hdr_field_ok 1 set_Header_Version h 0 r ltac:(lia)) as (r1 & -> & A1).
  assert (L1 : length (data r1) = length (data r) - 1) by (destruct A1 as (-> & _); apply skipn_length).
  assert (F1 : fin r1 = fin r) by apply A1.
  destruct (Nat.ltb_spec (length (data r1)) 1) as [C1|C1].
  { match goal with |- context [hdr_field 1 set_Header_Type (?h', ?n', None, r1)] =>
      destruct (hdr_field_short 1 set_Header_Type h' n' r1 C1) as (r2 & -> & A2) end.
    rewrite !hdr_field_err. do 2 eexists. split.
    - assert (E : data r1 = []) by (destruct (data r1); [reflexivity|cbn in C1; lia]).
      rewrite E, F1. cbn [length]. replace (length (data r)) with 1 by (rewrite E in *; cbn in *; lia).
      destruct (fin r); reflexivity.
    - replace (length (data r)) with (1 + length (data r1)) by lia. eapply after_trans; eassumption. }
  match goal with |- context [hdr_field 1 set_Header_Type (?h', ?n', None, r1)] =>
    destruct (hdr_field_ok 1 set_Header_Type h' n' r1 ltac:(lia)) as (r2 & -> & A2) end.
  pose proof (after_trans _ _ _ _ _ A1 A2) as B2.
  assert (L2 : length (data r2) = length (data r) - 2) by (destruct B2 as (-> & _); apply skipn_length).
  assert (F2 : fin r2 = fin r) by apply B2.
  destruct (Nat.ltb_spec (length (data r2)) 2) as [C2|C2].
  { match goal with |- context [hdr_field 2 set_Header_Length (?h', ?n', None, r2)] =>
      destruct (hdr_field_short 2 set_Header_Length h' n' r2 C2) as (r3 & -> & A3) end.
    rewrite !hdr_field_err. do 2 eexists. split.
    - rewrite F2. replace (length (data r)) with (2 + length (data r2)) by lia.
      destruct (data r2) as [|x [|y l]]; [| |cbn in C2; lia]; cbn; destruct (fin r); reflexivity.
    - replace (length (data r)) with (1 + 1 + length (data r2)) by lia. eapply after_trans; eassumption. }
  match goal with |- context [hdr_field 2 set_Header_Length (?h', ?n', None, r2)] =>
    destruct (hdr_field_ok 2 set_Header_Length h' n' r2 ltac:(lia)) as (r3 & -> & A3) end.
  pose proof (after_trans _ _ _ _ _ B2 A3) as B3.
  assert (L3 : length (data r3) = length (data r) - 4) by (destruct B3 as (-> & _); apply skipn_length).
  assert (F3 : fin r3 = fin r) by apply B3.
  match goal with |- context [hdr_field 4 set_Header_Transaction (?h', ?n', None, r3)] =>
    destruct (hdr_field_short 4 set_Header_Transaction h' n' r3 ltac:(lia)) as (r4 & -> & A4) end.
  do 2 eexists. split.
  - rewrite F3. replace (length (data r)) with (4 + length (data r3)) by lia.
    assert (C3 : length (data r3) < 4) by lia.
    destruct (data r3) as [|x [|y [|z [|w l]]]]; [| | | |cbn in C3; lia]; cbn; destruct (fin r); reflexivity.
  - replace (length (data r)) with (1 + 1 + 2 + length (data r3)) by lia. eapply after_trans; eassumption.
Qed.

(** ** Request.ReadFrom *)
Lemma read_from_header_short req r : length (data r) < 8 ->
  let x := read_from req r in
  rfail x = Some (cut_err (fin r) (length (data r)))
  /\ rcount x = length (data r) /\ after (length (data r)) r (rreader x).
Proof.
  intro H. unfold read_from.
  destruct (read_header_short (Request_Header req) r H) as (h' & r' & -> & Ha).
  cbn. auto.
Qed.

Definition minor_of (h : Header) : Z := Z.of_N (uwrap 1 (Header_Version h + 255)).

Lemma read_from_corrupted req r : 8 <= length (data r) ->
  (Header_Length (header_at (data r)) < 8)%N ->
  let x := read_from req r in
  rfail x = Some ECorrupted /\ rcount x = 8 /\ after 8 r (rreader x)
  /\ rreq x = MkRequest (header_at (data r)) (Request_Body req) 1 (minor_of (header_at (data r)))
                (Request_ContentLength req).
Proof.
  intros H HL. unfold read_from.
  destruct (read_header_ok (Request_Header req) r H) as (r' & -> & Ha).
  cbn [set_header Request_Body Request_ContentLength].
  destruct (Z.ltb_spec (Z.of_N (Header_Length (header_at (data r))) - 8) 0) as [L|L]; [|lia].
  cbn. auto.
Qed.

Lemma read_from_ok req r len : 8 <= len -> len <= length (data r) ->
  N.to_nat (Header_Length (header_at (data r))) = len ->
  (eager r = false \/ len < length (data r) \/ len = 8) ->
  let x := read_from req r in
  let h := header_at (data r) in
  rfail x = None /\ rcount x = len /\ after len r (rreader x)
  /\ rreq x = MkRequest h (BBuf (firstn (len - 8) (skipn 8 (data r)))) 1 (minor_of h)
                (Z.of_nat (len - 8)).
Proof.
  intros H8 Hd HL He. unfold read_from.
  destruct (read_header_ok (Request_Header req) r ltac:(lia)) as (r1 & -> & Ha).
  assert (Hd1 : data r1 = skipn 8 (data r)) by apply Ha.
  assert (Hl1 : length (data r1) = length (data r) - 8) by (rewrite Hd1; apply skipn_length).
  assert (Hg1 : eager r1 = eager r) by apply Ha.
  destruct (Z.ltb_spec (Z.of_N (Header_Length (header_at (data r))) - 8) 0) as [L|L]; [lia|].
  replace (Z.to_nat (Z.of_N (Header_Length (header_at (data r))) - 8)) with (len - 8) by lia.
  destruct (read_body_ok (fuel_of r1) (len - 8) [] r1 (fuel_ok r1)) as (r2 & -> & Ha2).
  { cbn [length]. lia. }
  { rewrite Hg1. cbn [length]. destruct He as [He|He]; [left; exact He|right; lia]. }
  cbn [length app] in *. rewrite Nat.sub_0_r in *. cbn [rfail rcount rreader rreq].
  split; [reflexivity|]. split; [|split].
  - rewrite firstn_length. lia.
  - replace len with (8 + (len - 8)) by lia. eapply after_trans; eassumption.
  - unfold minor_of. rewrite Hd1. f_equal. lia.
Qed.

Lemma read_from_body_fail req r : 8 <= length (data r) ->
  let len := N.to_nat (Header_Length (header_at (data r))) in
  8 < len ->
  length (data r) < len \/ (eager r = true /\ length (data r) = len) ->
  let x := read_from req r in
  rfail x = Some (fin r) /\ rcount x = length (data r) /\ after (length (data r)) r (rreader x).
Proof.
  intros H8 len HL He. subst len. unfold read_from.
  destruct (read_header_ok (Request_Header req) r ltac:(lia)) as (r1 & -> & Ha).
  assert (Hd1 : data r1 = skipn 8 (data r)) by apply Ha.
  assert (Hl1 : length (data r1) = length (data r) - 8) by (rewrite Hd1; apply skipn_length).
  assert (Hg1 : eager r1 = eager r) by apply Ha.
  assert (Hf1 : fin r1 = fin r) by apply Ha.
  destruct (Z.ltb_spec (Z.of_N (Header_Length (header_at (data r))) - 8) 0) as [L|L]; [lia|].
  destruct (read_body_fail (fuel_of r1) (Z.to_nat (Z.of_N (Header_Length (header_at (data r))) - 8)) [] r1 (fuel_ok r1))
    as (r2 & -> & Ha2).
  { cbn [length]. lia. }
  { rewrite Hg1. cbn [length]. destruct He as [He|[He1 He2]]; [left; lia|right; split; [exact He1|lia]]. }
  cbn [app rfail rcount rreader].
  rewrite Hf1. split; [reflexivity|]. split; [lia|].
  replace (length (data r)) with (8 + length (data r1)) by lia. eapply after_trans; eassumption.
Qed.

(** ** Frames *)
Lemma tiles_cover t : forall from size p, tiles from t size = true -> from <= p < size ->
  exists off i, In (off, i) t /\ off <= p < off + width i.
Proof.
  induction t as [|[off i] t IH]; intros from size p HT Hp; cbn [tiles] in HT.
  - apply Nat.eqb_eq in HT. lia.
  - apply andb_prop in HT. destruct HT as [HO HT]. apply Nat.eqb_eq in HO. subst off.
    destruct (Nat.ltb_spec p (from + width i)) as [L|L].
    + exists from, i. split; [left; reflexivity|lia].
    + destruct (IH _ _ p HT ltac:(lia)) as (o & j & Hin & Hj). exists o, j. split; [right; exact Hin|exact Hj].
Qed.

Lemma nth_error_ext {A} (a b : list A) :
  length a = length b -> (forall p, p < length a -> nth_error a p = nth_error b p) -> a = b.
Proof.
  revert b. induction a as [|x a IH]; intros [|y b] HL HN; try discriminate; [reflexivity|].
  pose proof (HN 0 ltac:(cbn; lia)) as H0. cbn in H0. injection H0 as ->. f_equal.
  apply IH; [cbn in HL; lia|]. intros p Hp. apply (HN (S p)). cbn. lia.
Qed.

Lemma laid_out_unique e1 e2 size t : laid_out e1 size t -> laid_out e2 size t -> e1 = e2.
Proof.
  intros (L1 & T & C1) (L2 & _ & C2). apply nth_error_ext; [congruence|].
  intros p Hp. destruct (tiles_cover t 0 size p T ltac:(lia)) as (off & i & Hin & Hr).
  specialize (C1 _ _ Hin (p - off) ltac:(lia)). specialize (C2 _ _ Hin (p - off) ltac:(lia)).
  replace (off + (p - off)) with p in * by lia.
  destruct (nth_error e1 p) as [a|], (nth_error e2 p) as [b|]; cbn in C1, C2; try discriminate.
  f_equal. apply to_N_inj. congruence.
Qed.

Lemma frame_intro v t x b :
  is_frame (enc_Header (MkHeader v t (8 + lenN b) x) ++ b) v t x b.
Proof.
  unfold is_frame. apply laid_out_intro.
  - repeat constructor; exact I.
  - cbn [tiles width Nat.eqb andb]. apply Nat.eqb_eq. lia.
  - cbn [map snd render concat]. unfold enc_Header. cbn [concat Header_Version Header_Type Header_Length Header_Transaction].
    rewrite !app_nil_r, <- !app_assoc. reflexivity.
Qed.

Lemma frame_eq e v t x b : is_frame e v t x b <-> e = enc_Header (MkHeader v t (8 + lenN b) x) ++ b.
Proof.
  split; intro H.
  - eapply laid_out_unique; [exact H|apply frame_intro].
  - subst e. apply frame_intro.
Qed.

Lemma enc_Header_length h : length (enc_Header h) = 8.
Proof. unfold enc_Header, u8, u16, u32. cbn [concat]. rewrite !app_length, !be_enc_length. reflexivity. Qed.

Lemma header_at_enc h tl : wf_Header h -> header_at (enc_Header h ++ tl) = h.
Proof.
  destruct h as [v t l x]. intros (H1 & H2 & H3 & H4).
  cbn [Header_Version Header_Type Header_Length Header_Transaction] in *.
  unfold enc_Header, u8, u16, u32.
  cbn [concat Header_Version Header_Type Header_Length Header_Transaction].
  rewrite <- !app_assoc, app_nil_l. unfold header_at.
  assert (S1 : skipn 1 (be_enc 1 v ++ be_enc 1 t ++ be_enc 2 l ++ be_enc 4 x ++ tl)
               = be_enc 1 t ++ be_enc 2 l ++ be_enc 4 x ++ tl)
    by (apply skipn_app_len, be_enc_length).
  assert (S2 : skipn 2 (be_enc 1 v ++ be_enc 1 t ++ be_enc 2 l ++ be_enc 4 x ++ tl)
               = be_enc 2 l ++ be_enc 4 x ++ tl).
  { rewrite app_assoc. apply skipn_app_len. rewrite app_length, !be_enc_length. reflexivity. }
  assert (S4 : skipn 4 (be_enc 1 v ++ be_enc 1 t ++ be_enc 2 l ++ be_enc 4 x ++ tl)
               = be_enc 4 x ++ tl).
  { rewrite !app_assoc. rewrite <- (app_assoc _ (be_enc 4 x) tl). apply skipn_app_len. rewrite !app_length, !be_enc_length. reflexivity. }
  rewrite S1, S2, S4, !firstn_app_len by apply be_enc_length.
  rewrite !be_dec_enc_fits by assumption. reflexivity.
Qed.

Lemma header_at_declared d : 8 <= length d -> Header_Length (header_at d) = declared d.
Proof.
  intro H. destruct d as [|a [|b [|c [|e l]]]]; try (cbn in H; lia).
  unfold header_at, declared. cbn [Header_Length skipn firstn nth].
  rewrite !be_dec_cons. cbn [length]. change (256 ^ N.of_nat 1)%N with 256%N.
  change (256 ^ N.of_nat 0)%N with 1%N. change (be_dec []) with 0%N. lia.
Qed.

(** ** Request.WriteTo *)
Lemma drain_all : forall fuel acc r,
  length (data r) + length (sched r) + 1 < fuel ->
  exists r', drain fuel acc r
    = (acc ++ data r, match fin r with EOF => None | e => Some e end, r').
Proof.
  induction fuel as [|fuel IH]; intros acc r Hf; [lia|]. cbn [drain].
  destruct (data r) as [|x l] eqn:E.
  - destruct (read1_nil 512 r E) as (r1 & -> & Ha). exists r1.
    destruct (fin r); reflexivity.
  - rewrite <- E in *.
    destruct (read1_cons 512 r ltac:(lia) ltac:(congruence)) as (m & r1 & Hm & Hm' & -> & Ha & Hdec).
    destruct Ha as (D & F & G & Sc).
    destruct ((m =? length (data r)) && eager r) eqn:Ee.
    + assert (m = length (data r)) by lia. subst m. rewrite firstn_all. exists r1.
      destruct (fin r); reflexivity.
    + destruct (IH (acc ++ firstn m (data r)) r1 ltac:(lia)) as (r' & ->).
      exists r'. rewrite D, F, <- app_assoc, firstn_skipn. reflexivity.
Qed.

Lemma copy_body_content b : b <> BNil ->
  exists b', copy_body b = (fst (content b), snd (content b), b').
Proof.
  destruct b as [|w rb re o|x|r]; intro H; cbn [copy_body content]; [congruence| | |].
  - destruct w as [p|]; cbn; eexists; reflexivity.
  - eexists. reflexivity.
  - destruct (drain_all (fuel_of r) [] r) as (r' & ->); [unfold fuel_of; lia|].
    eexists. reflexivity.
Qed.

Lemma uwrap_len b : (lenN b <= 65527)%N -> uwrap 2 (8 + uwrap 2 (lenN b)) = (8 + lenN b)%N.
Proof. intro H. unfold uwrap. change (256 ^ N.of_nat 2)%N with 65536%N. lia. Qed.

Lemma set_Length_frame h b : (lenN b <= 65527)%N ->
  enc_Header (set_Header_Length (uwrap 2 (8 + uwrap 2 (lenN b))) h) ++ b
  = enc_Header (MkHeader (Header_Version h) (Header_Type h) (8 + lenN b) (Header_Transaction h)) ++ b.
Proof.
  intro H. unfold set_Header_Length. do 2 f_equal.
  unfold uwrap. change (256 ^ N.of_nat 2)%N with 65536%N. f_equal. lia.
Qed.

Lemma write_to_fails w r b e : Request_Body r <> BNil -> content (Request_Body r) = (b, Some e) ->
  werr (write_to w r) = Some e /\ wcalls (write_to w r) = [] /\ wcount (write_to w r) = length b.
Proof.
  intros Hn Hc. unfold write_to. destruct (copy_body_content _ Hn) as [b' E].
  rewrite Hc in E. cbn [fst snd] in E.
  destruct (Request_Body r) eqn:Eb; [congruence| | |]; rewrite E; cbn; auto.
Qed.

Lemma write_to_toolong w r b : content (Request_Body r) = (b, None) -> (65527 < lenN b)%N ->
  werr (write_to w r) = Some ETooLong /\ wcalls (write_to w r) = [] /\ wcount (write_to w r) = 0.
Proof.
  intros Hc HL. assert (Hn : Request_Body r <> BNil).
  { intro E. rewrite E in Hc. injection Hc as <-. cbn in HL. lia. }
  unfold write_to. destruct (copy_body_content _ Hn) as [b' E].
  rewrite Hc in E. cbn [fst snd] in E.
  assert (L : (65535 <? lenN b + 8)%N = true) by lia.
  destruct (Request_Body r) eqn:Eb; [congruence| | |]; rewrite E, L; auto.
Qed.

Lemma write_to_ok w r b : content (Request_Body r) = (b, None) -> (lenN b <= 65527)%N ->
  let h := Request_Header r in
  let h' := MkHeader (Header_Version h) (Header_Type h) (8 + lenN b) (Header_Transaction h) in
  exists r', write_to w r = emit w r' (enc_Header h' ++ b) /\ Request_Header r' = h'.
Proof.
  intros Hc HL h h'.
  destruct (Request_Body r) eqn:Eb.
  - injection Hc as <-. unfold write_to. rewrite Eb. exists (set_header h' r). split; [|reflexivity].
    rewrite app_nil_r. subst h h'. destruct (Request_Header r). reflexivity.
  - unfold write_to. rewrite Eb.
    destruct (copy_body_content (BCopy w0 rbuf rerr once) ltac:(congruence)) as [b' E].
    rewrite Hc in E. cbn [fst snd] in E. rewrite E.
    destruct (N.ltb_spec 65535 (lenN b + 8)) as [L|L]; [lia|].
    eexists. split; [rewrite set_Length_frame by exact HL; reflexivity|].
    cbn [Request_Header set_header set_body]. unfold set_Header_Length. rewrite uwrap_len by exact HL.
    reflexivity.
  - unfold write_to. rewrite Eb.
    destruct (copy_body_content (BBuf b0) ltac:(congruence)) as [b' E].
    rewrite Hc in E. cbn [fst snd] in E. rewrite E.
    destruct (N.ltb_spec 65535 (lenN b + 8)) as [L|L]; [lia|].
    eexists. split; [rewrite set_Length_frame by exact HL; reflexivity|].
    cbn [Request_Header set_header set_body]. unfold set_Header_Length. rewrite uwrap_len by exact HL.
    reflexivity.
  - unfold write_to. rewrite Eb.
    destruct (copy_body_content (BReader r0) ltac:(congruence)) as [b' E].
    rewrite Hc in E. cbn [fst snd] in E. rewrite E.
    destruct (N.ltb_spec 65535 (lenN b + 8)) as [L|L]; [lia|].
    eexists. split; [rewrite set_Length_frame by exact HL; reflexivity|].
    cbn [Request_Header set_header set_body]. unfold set_Header_Length. rewrite uwrap_len by exact HL.
    reflexivity.
Qed.

(** ** Statements in the form used by the property files *)
Lemma write_frame w r : werr (write_to w r) = None ->
  let h := Request_Header r in
  exists b e, content (Request_Body r) = (b, None) /\ wcalls (write_to w r) = [e]
    /\ is_frame e (Header_Version h) (Header_Type h) (Header_Transaction h) b
    /\ wcount (write_to w r) = length e
    /\ Request_Header (wreq (write_to w r))
       = MkHeader (Header_Version h) (Header_Type h) (lenN e) (Header_Transaction h).
Proof.
  intros H h. destruct (content (Request_Body r)) as [b [e|]] eqn:Ec.
  - destruct (Request_Body r) eqn:Eb; [discriminate Ec| | |];
      (destruct (write_to_fails w r b e) as (E & _); [rewrite Eb; discriminate|rewrite Eb; exact Ec|]; congruence).
  - destruct (N.ltb_spec 65527 (lenN b)) as [L|L].
    + destruct (write_to_toolong w r b Ec L) as (E & _). congruence.
    + destruct (write_to_ok w r b Ec L) as (r' & E & Eh). cbv zeta in E, Eh. fold h in E, Eh.
      set (e := enc_Header (MkHeader (Header_Version h) (Header_Type h) (8 + lenN b) (Header_Transaction h)) ++ b) in *.
      exists b, e. rewrite E in *. unfold emit in *. destruct (w e) as [m o] eqn:Ew.
      cbn [wcalls wcount wreq werr] in *.
      destruct o; [discriminate|]. destruct (Nat.eqb_spec m (length e)) as [Em|Em]; [|discriminate].
      split; [reflexivity|]. split; [reflexivity|]. split; [apply frame_intro|]. split; [exact Em|].
      rewrite Eh. f_equal. subst e. unfold lenN. rewrite app_length, enc_Header_length. lia.
Qed.

Lemma write_sink r b : content (Request_Body r) = (b, None) -> (lenN b <= 65527)%N ->
  let h := Request_Header r in
  exists e, wcalls (write_to sink r) = [e] /\ werr (write_to sink r) = None
    /\ wcount (write_to sink r) = length e
    /\ is_frame e (Header_Version h) (Header_Type h) (Header_Transaction h) b.
Proof.
  intros Hc HL h. destruct (write_to_ok sink r b Hc HL) as (r' & -> & _). eexists.
  cbn [emit sink wcalls werr wcount]. rewrite Nat.eqb_refl.
  split; [reflexivity|]. split; [reflexivity|]. split; [reflexivity|]. apply frame_intro.
Qed.

Lemma frame_length e v t x b : is_frame e v t x b -> length e = 8 + length b.
Proof. intros (H & _). exact H. Qed.

Lemma frame_header e v t x b tl : is_frame e v t x b -> ranges v t x -> (lenN b <= 65527)%N ->
  header_at (e ++ tl) = MkHeader v t (8 + lenN b) x.
Proof.
  intros He (Hv & Ht & Hx) HL. apply frame_eq in He. subst e. rewrite <- app_assoc.
  apply header_at_enc. repeat split; cbn [Header_Version Header_Type Header_Length Header_Transaction]; auto.
  unfold fits. change (256 ^ N.of_nat 2)%N with 65536%N. lia.
Qed.

Lemma receive_frame e v t x b : is_frame e v t x b -> ranges v t x -> (lenN b <= 65527)%N ->
  forall req tl s f eg, (eg = false \/ tl <> [] \/ b = []) ->
  let y := read_from req (MkReader (e ++ tl) s f eg) in
  rfail y = None /\ rcount y = length e /\ received v t x b (rreq y)
  /\ data (rreader y) = tl /\ fin (rreader y) = f /\ eager (rreader y) = eg
  /\ Request_ProtoMajor (rreq y) = 1%Z
  /\ Request_ProtoMinor (rreq y) = Z.of_N (if (v =? 0)%N then 255 else v - 1).
Proof.
  intros He Hr HL req tl s f eg Hg y.
  pose proof (frame_length _ _ _ _ _ He) as Hl.
  pose proof (frame_header _ _ _ _ _ tl He Hr HL) as Hh.
  destruct (read_from_ok req (MkReader (e ++ tl) s f eg) (length e)) as (A & B & C & D).
  - lia.
  - cbn [data]. rewrite app_length. lia.
  - cbn [data]. rewrite Hh. cbn [Header_Length]. unfold lenN. lia.
  - cbn [data eager]. rewrite app_length. destruct Hg as [Hg|[Hg|Hg]].
    + left. exact Hg.
    + right. left. apply nonempty_length in Hg. lia.
    + right. right. rewrite Hl, Hg. reflexivity.
  - fold y in A, B, C, D. cbn [data] in D. rewrite Hh in D.
    split; [exact A|]. split; [exact B|]. destruct C as (C1 & C2 & C3 & _). cbn [data fin eager] in C1, C2, C3.
    rewrite skipn_app_exact in C1.
    assert (Eb : firstn (length e - 8) (skipn 8 (e ++ tl)) = b).
    { apply frame_eq in He. rewrite He at 2. rewrite <- app_assoc.
      rewrite skipn_app_len by apply enc_Header_length.
      apply firstn_app_len. lia. }
    rewrite Eb in D. rewrite D. split; [|split; [exact C1|split; [exact C2|split; [exact C3|]]]].
    + repeat split; cbn [Request_Header Request_Body Request_ContentLength]; auto. lia.
    + split; [reflexivity|]. cbn [Request_ProtoMinor]. unfold minor_of. cbn [Header_Version].
      destruct Hr as (Hv & _). unfold fits in Hv. change (256 ^ N.of_nat 1)%N with 256%N in Hv.
      unfold uwrap. change (256 ^ N.of_nat 1)%N with 256%N.
      destruct (N.eqb_spec v 0) as [->|Hnz]; [reflexivity|]. f_equal. lia.
Qed.

Lemma receive_stream msgs : Forall msg_ok msgs ->
  forall es, Forall2 frame_of es msgs -> forall s,
  exists qs r', receive_all (S (length msgs)) (MkReader (concat es) s EOF false) = (qs, Some EOF, r')
    /\ Forall2 received_as msgs qs /\ data r' = [].
Proof.
  induction 1 as [|[[[v t] x] b] msgs [Hr HL] Hok IH]; intros es He s.
  - inversion He. subst. cbn [concat length receive_all]. unfold receive.
    destruct (read_from_header_short zero_Request (MkReader [] s EOF false) ltac:(cbn; lia)) as (A & B & C).
    cbn [data fin cut_err length] in A. rewrite A. do 2 eexists. split; [reflexivity|].
    split; [constructor|]. destruct C as (C & _). rewrite C. reflexivity.
  - inversion He as [|e m es' msgs' Hf Hes E1 E2]. subst. cbn [frame_of] in Hf.
    cbn [concat length]. remember (S (length msgs)) as n eqn:En. cbn [receive_all]. unfold receive.
    destruct (receive_frame e v t x b Hf Hr HL zero_Request (concat es') s EOF false (or_introl eq_refl))
      as (A & B & C & D & F & G & _).
    rewrite A. destruct (rreader (read_from zero_Request (MkReader (e ++ concat es') s EOF false))) as [d s' f g] eqn:Er.
    cbn [data fin eager] in D, F, G. subst d f g.
    destruct (IH es' Hes s') as (qs & r' & -> & Hq & Hd).
    do 2 eexists. split; [reflexivity|]. split; [constructor; assumption|exact Hd].
Qed.

Lemma receive_bounds req r :
  let y := read_from req r in
  exists used, data r = used ++ data (rreader y) /\ rcount y = length used
    /\ (8 <= length (data r) -> length used <= Nat.max 8 (N.to_nat (declared (data r))))
    /\ length used <= length (data r)
    /\ (length (data r) < 8 -> length used <= 8)
    /\ (rfail y = None ->
        8 <= length used /\ length used = N.to_nat (declared (data r))
        /\ Request_Body (rreq y) = BBuf (skipn 8 used)
        /\ Request_ContentLength (rreq y) = (Z.of_N (declared (data r)) - 8)%Z).
Proof.
  intro y.
  assert (Hafter : forall n, after n r (rreader y) -> n <= length (data r) -> rcount y = n ->
     data r = firstn n (data r) ++ data (rreader y) /\ rcount y = length (firstn n (data r))
     /\ length (firstn n (data r)) = n).
  { intros n (D & _) Hn Hc. rewrite D, firstn_skipn, firstn_length. repeat split; lia. }
  destruct (Nat.ltb_spec (length (data r)) 8) as [S|S].
  - destruct (read_from_header_short req r S) as (A & B & C). fold y in A, B, C.
    destruct (Hafter _ C ltac:(lia) B) as (P1 & P2 & P3). eexists. split; [exact P1|]. split; [exact P2|].
    split; [lia|]. split; [lia|]. split; [lia|]. congruence.
  - pose proof (header_at_declared (data r) S) as HD.
    destruct (N.ltb_spec (Header_Length (header_at (data r))) 8) as [L|L].
    + destruct (read_from_corrupted req r S L) as (A & B & C & _). fold y in A, B, C.
      destruct (Hafter _ C ltac:(lia) B) as (P1 & P2 & P3). eexists. split; [exact P1|]. split; [exact P2|].
      split; [lia|]. split; [lia|]. split; [lia|]. congruence.
    + set (len := N.to_nat (declared (data r))).
      assert (Hcase : (len <= length (data r) /\ (eager r = false \/ len < length (data r) \/ len = 8))
        \/ (8 < len /\ (length (data r) < len \/ (eager r = true /\ length (data r) = len)))).
      { destruct (eager r); lia. }
      destruct Hcase as [(H1 & H2)|(H1 & H2)].
      * destruct (read_from_ok req r len ltac:(lia) H1 ltac:(rewrite HD; reflexivity) H2) as (A & B & C & D).
        fold y in A, B, C, D.
        destruct (Hafter _ C ltac:(lia) B) as (P1 & P2 & P3). eexists. split; [exact P1|]. split; [exact P2|].
        split; [lia|]. split; [lia|]. split; [lia|]. intros _. rewrite D. cbn [Request_Body Request_ContentLength].
        split; [lia|]. split; [exact P3|]. split; [|lia]. f_equal.
        rewrite skipn_firstn_comm. reflexivity.
      * assert (HL' : N.to_nat (Header_Length (header_at (data r))) = len) by (rewrite HD; reflexivity).
        destruct (read_from_body_fail req r S) as (A & B & C).
        { rewrite HL'. exact H1. }
        { rewrite HL'. exact H2. }
        fold y in A, B, C.
        destruct (Hafter _ C ltac:(lia) B) as (P1 & P2 & P3). eexists. split; [exact P1|]. split; [exact P2|].
        split; [lia|]. split; [lia|]. split; [lia|]. congruence.
Qed.

Lemma receive_corrupted req r : 8 <= length (data r) -> (declared (data r) < 8)%N ->
  let y := read_from req r in
  rfail y = Some ECorrupted /\ rcount y = 8 /\ data (rreader y) = skipn 8 (data r).
Proof.
  intros S L. rewrite <- header_at_declared in L by exact S.
  destruct (read_from_corrupted req r S L) as (A & B & C & _). repeat split; auto. apply C.
Qed.

Lemma receive_not_corrupted req r : (length (data r) < 8 \/ (8 <= declared (data r))%N) ->
  fin r <> ECorrupted -> rfail (read_from req r) <> Some ECorrupted.
Proof.
  intros H Hf. destruct (Nat.ltb_spec (length (data r)) 8) as [S|S].
  - destruct (read_from_header_short req r S) as (A & _). rewrite A.
    unfold cut_err. destruct (fin r); try congruence.
    destruct (length (data r)) as [|[|[|[|[|]]]]]; congruence.
  - destruct H as [H|H]; [lia|].
    pose proof (header_at_declared (data r) S) as HD.
    set (len := N.to_nat (declared (data r))).
    assert (HL' : N.to_nat (Header_Length (header_at (data r))) = len) by (rewrite HD; reflexivity).
    assert (Hcase : (len <= length (data r) /\ (eager r = false \/ len < length (data r) \/ len = 8))
        \/ (8 < len /\ (length (data r) < len \/ (eager r = true /\ length (data r) = len)))).
    { destruct (eager r); lia. }
    destruct Hcase as [(H1 & H2)|(H1 & H2)].
    + destruct (read_from_ok req r len ltac:(lia) H1 HL' H2) as (A & _). congruence.
    + destruct (read_from_body_fail req r S) as (A & _); [rewrite HL'; exact H1|rewrite HL'; exact H2|].
      rewrite A. congruence.
Qed.

Lemma receive_cut e v t x b : is_frame e v t x b -> ranges v t x -> (lenN b <= 65527)%N ->
  forall c req s eg, c < length e ->
  rfail (read_from req (MkReader (firstn c e) s EOF eg))
  = Some (match c with 3 | 5 | 6 | 7 => UnexpectedEOF | _ => EOF end)
  /\ rcount (read_from req (MkReader (firstn c e) s EOF eg)) = c.
Proof.
  intros He Hr HL c req s eg Hc. pose proof (frame_length _ _ _ _ _ He) as Hl.
  set (r := MkReader (firstn c e) s EOF eg).
  assert (Hd : length (data r) = c) by (cbn; rewrite firstn_length; lia).
  destruct (Nat.ltb_spec c 8) as [C|C].
  - destruct (read_from_header_short req r ltac:(lia)) as (A & B & _). rewrite A, B, Hd.
    split; [|reflexivity]. cbn [fin r cut_err].
    do 8 (destruct c as [|c]; [reflexivity|]). lia.
  - assert (Hh : header_at (data r) = MkHeader v t (8 + lenN b) x).
    { cbn [data r]. apply frame_eq in He. subst e. rewrite firstn_app, enc_Header_length.
      rewrite firstn_all2 by (rewrite enc_Header_length; lia).
      apply header_at_enc. destruct Hr as (Hv & Ht & Hx).
      repeat split; cbn [Header_Version Header_Type Header_Length Header_Transaction]; auto.
      unfold fits. change (256 ^ N.of_nat 2)%N with 65536%N. lia. }
    destruct (read_from_body_fail req r ltac:(lia)) as (A & B & _).
    + rewrite Hh. cbn [Header_Length]. unfold lenN. lia.
    + left. rewrite Hh. cbn [Header_Length]. unfold lenN. lia.
    + rewrite A, B, Hd. split; [|reflexivity].
      do 8 (destruct c as [|c]; [lia|]). reflexivity.
Qed.

Lemma receive_eager e v t x b : is_frame e v t x b -> ranges v t x -> (lenN b <= 65527)%N ->
  b <> [] -> forall req s f,
  rfail (read_from req (MkReader e s f true)) = Some f
  /\ rcount (read_from req (MkReader e s f true)) = length e.
Proof.
  intros He Hr HL Hb req s f. pose proof (frame_length _ _ _ _ _ He) as Hl.
  pose proof (frame_header _ _ _ _ _ [] He Hr HL) as Hh. rewrite app_nil_r in Hh.
  apply nonempty_length in Hb.
  destruct (read_from_body_fail req (MkReader e s f true)) as (A & B & _).
  - cbn [data]. lia.
  - cbn [data]. rewrite Hh. cbn [Header_Length]. unfold lenN. lia.
  - right. split; [reflexivity|]. cbn [data]. rewrite Hh. cbn [Header_Length]. unfold lenN. lia.
  - auto.
Qed.

Lemma resend_stable n : forall r w rb re o p, Request_Body r = BCopy (Some w) rb re o ->
  w = MkPayload p None -> (lenN p <= 65527)%N ->
  let h := Request_Header r in
  exists r', resend n r = r' /\ Request_Body r' = BCopy (Some w) rb re o
    /\ Header_Version (Request_Header r') = Header_Version h
    /\ Header_Type (Request_Header r') = Header_Type h
    /\ Header_Transaction (Request_Header r') = Header_Transaction h.
Proof.
  induction n as [|n IH]; intros r w rb re o p Hb Hw HL h.
  - exists r. cbn. auto.
  - cbn [resend].
    assert (E : Request_Body (wreq (write_to sink r)) = BCopy (Some w) rb re o
        /\ Header_Version (Request_Header (wreq (write_to sink r))) = Header_Version h
        /\ Header_Type (Request_Header (wreq (write_to sink r))) = Header_Type h
        /\ Header_Transaction (Request_Header (wreq (write_to sink r))) = Header_Transaction h).
    { unfold write_to. rewrite Hb. cbn [copy_body copy_write]. subst w. cbn [pbytes perr].
      assert (L : (65535 <? lenN p + 8)%N = false) by lia. rewrite L.
      cbn [emit sink wreq set_header set_body Request_Body Request_Header].
      repeat split; auto. }
    destruct E as (E1 & E2 & E3 & E4).
    destruct (IH (wreq (write_to sink r)) w rb re o p E1 Hw HL) as (r' & H1 & H2 & H3 & H4 & H5).
    exists r'. rewrite H3, H4, H5, E2, E3, E4. auto.
Qed.

Lemma resend_new t x p : (lenN p <= 65527)%N ->
  let r := set_header (MkHeader 4 t 0 x) (new_request t (Some (MkPayload p None))) in
  exists e, is_frame e 4 t x p /\ forall n, wcalls (write_to sink (resend n r)) = [e]
    /\ werr (write_to sink (resend n r)) = None.
Proof.
  intros HL r. exists (enc_Header (MkHeader 4 t (8 + lenN p) x) ++ p). split; [apply frame_intro|].
  intro n. destruct (resend_stable n r (MkPayload p None) [] None false p eq_refl eq_refl HL)
    as (r' & -> & Hb & H1 & H2 & H3).
  destruct (write_sink r' p) as (e & A & B & _ & C).
  - rewrite Hb. reflexivity.
  - exact HL.
  - rewrite A. split; [|exact B]. f_equal. rewrite H1, H2, H3 in C. apply frame_eq in C. exact C.
Qed.

Lemma resend_received q b : Request_Body q = BBuf b -> (lenN b <= 65527)%N ->
  let h := Request_Header q in
  (exists e, is_frame e (Header_Version h) (Header_Type h) (Header_Transaction h) b
             /\ wcalls (write_to sink q) = [e])
  /\ forall n, exists e, is_frame e (Header_Version h) (Header_Type h) (Header_Transaction h) []
             /\ wcalls (write_to sink (resend (S n) q)) = [e] /\ length e = 8.
Proof.
  intros Hb HL h. split.
  - destruct (write_sink q b) as (e & A & _ & _ & B); [rewrite Hb; reflexivity|exact HL|]. eauto.
  - assert (Hone : forall q' b', Request_Body q' = BBuf b' -> (lenN b' <= 65527)%N ->
      Request_Body (wreq (write_to sink q')) = BBuf []
      /\ Header_Version (Request_Header (wreq (write_to sink q'))) = Header_Version (Request_Header q')
      /\ Header_Type (Request_Header (wreq (write_to sink q'))) = Header_Type (Request_Header q')
      /\ Header_Transaction (Request_Header (wreq (write_to sink q'))) = Header_Transaction (Request_Header q')).
    { intros q' b' Hb' HL'. unfold write_to. rewrite Hb'. cbn [copy_body].
      assert (L : (65535 <? lenN b' + 8)%N = false) by lia. rewrite L. cbn. auto. }
    assert (Hn : forall n q' , Request_Body q' = BBuf [] ->
      Request_Body (resend n q') = BBuf []
      /\ Header_Version (Request_Header (resend n q')) = Header_Version (Request_Header q')
      /\ Header_Type (Request_Header (resend n q')) = Header_Type (Request_Header q')
      /\ Header_Transaction (Request_Header (resend n q')) = Header_Transaction (Request_Header q')).
    { induction n as [|n IH]; intros q' Hb'; [cbn; auto|]. cbn [resend].
      destruct (Hone q' [] Hb' ltac:(cbn; lia)) as (A & B & C & D).
      destruct (IH _ A) as (A' & B' & C' & D'). rewrite A', B', C', D'. auto. }
    intro n. cbn [resend]. destruct (Hone q b Hb HL) as (A & B & C & D).
    destruct (Hn n _ A) as (A' & B' & C' & D').
    destruct (write_sink (resend n (wreq (write_to sink q))) []) as (e & E1 & _ & _ & E2).
    + rewrite A'. reflexivity.
    + cbn. lia.
    + exists e. rewrite B', C', D', B, C, D in E2. split; [exact E2|]. split; [exact E1|].
      apply (frame_length _ _ _ _ _ E2).
Qed.

Lemma buffer_reads : forall ks w b, Forall (fun k => 0 < k) ks ->
  concat (map fst (body_reads ks (BCopy w b None true))) = firstn (list_sum ks) b
  /\ forall i, i < length ks ->
     option_map snd (nth_error (body_reads ks (BCopy w b None true)) i)
     = Some (if length b <=? list_sum (firstn i ks) then Some EOF else None).
Proof.
  induction ks as [|k ks IH]; intros w b Hk.
  - split; [reflexivity|]. intros i Hi. cbn in Hi. lia.
  - inversion Hk as [|k0 ks0 Hk0 Hks E]. subst.
    cbn [body_reads body_read copy_read]. destruct b as [|x b].
    + cbn [buffer_read]. replace (k =? 0) with false by (symmetry; apply Nat.eqb_neq; lia).
      cbn [map concat fst]. destruct (IH w [] Hks) as [IH1 IH2]. split.
      * rewrite IH1. cbn [app]. rewrite !firstn_nil. reflexivity.
      * intros [|i] Hi; [reflexivity|]. cbn [nth_error]. rewrite IH2 by (cbn in Hi; lia). reflexivity.
    + unfold buffer_read. cbn [map concat fst].
      destruct (IH w (skipn k (x :: b)) Hks) as [IH1 IH2]. split.
      * rewrite IH1. change (list_sum (k :: ks)) with (k + list_sum ks). apply app_firstn.
      * intros [|i] Hi.
        -- cbn [nth_error option_map snd firstn list_sum fold_right length]. reflexivity.
        -- cbn [nth_error]. rewrite IH2 by (cbn in Hi; lia). f_equal.
           cbn [firstn]. change (list_sum (k :: firstn i ks)) with (k + list_sum (firstn i ks)).
           rewrite skipn_length. destruct (Nat.leb_spec (length (x :: b) - k) (list_sum (firstn i ks)));
             destruct (Nat.leb_spec (length (x :: b)) (k + list_sum (firstn i ks))); try reflexivity; lia.
Qed.

Lemma new_body_reads ks p : Forall (fun k => 0 < k) ks ->
  let outs := body_reads ks (BCopy (Some (MkPayload p None)) [] None false) in
  concat (map fst outs) = firstn (list_sum ks) p
  /\ forall i, i < length ks ->
     option_map snd (nth_error outs i)
     = Some (if length p <=? list_sum (firstn i ks) then Some EOF else None).
Proof.
  intros Hk outs.
  assert (E : outs = body_reads ks (BCopy (Some (MkPayload p None)) p None true)) by (destruct ks; reflexivity).
  rewrite E. apply buffer_reads, Hk.
Qed.

Lemma failing_body_reads k ks p e : 0 < k ->
  body_reads (k :: ks) (BCopy (Some (MkPayload p (Some e))) [] None false)
  = (firstn k p, match p with [] => Some EOF | _ => None end) :: map (fun _ => ([], Some e)) ks.
Proof.
  intro Hk. cbn [body_reads body_read copy_read copy_write pbytes perr app].
  assert (Hs : forall b, body_reads ks (BCopy (Some (MkPayload p (Some e))) b (Some e) true)
                         = map (fun _ => ([], Some e)) ks).
  { intro b. induction ks as [|k' ks IH]; [reflexivity|]. cbn. rewrite IH. reflexivity. }
  destruct p as [|x p].
  - cbn [buffer_read]. replace (k =? 0) with false by (symmetry; apply Nat.eqb_neq; lia).
    rewrite Hs, firstn_nil. reflexivity.
  - unfold buffer_read. rewrite Hs. reflexivity.
Qed.

Lemma proto_lex q a b : proto_at_least q a b = true <->
  (a < Request_ProtoMajor q \/ (a = Request_ProtoMajor q /\ b <= Request_ProtoMinor q))%Z.
Proof.
  unfold proto_at_least. split; intro H; destruct (Request_ProtoMajor q >? a)%Z eqn:E1;
    destruct (Request_ProtoMajor q =? a)%Z eqn:E2; destruct (Request_ProtoMinor q >=? b)%Z eqn:E3;
    cbn in H |- *; lia.
Qed.

Lemma new_request_received t w b : fits 1 t -> content (Request_Body (new_request t w)) = (b, None) ->
  (lenN b <= 65527)%N ->
  exists e, wcalls (write_to sink (new_request t w)) = [e] /\
  forall tl s, let y := read_from zero_Request (MkReader (e ++ tl) s EOF false) in
    rfail y = None /\ Request_ProtoMajor (rreq y) = 1%Z /\ Request_ProtoMinor (rreq y) = 3%Z.
Proof.
  intros Ht Hc HL. destruct (write_sink (new_request t w) b Hc HL) as (e & A & _ & _ & B).
  exists e. split; [exact A|]. intros tl s.
  change (Header_Version (Request_Header (new_request t w))) with 4%N in B.
  change (Header_Type (Request_Header (new_request t w))) with t in B.
  change (Header_Transaction (Request_Header (new_request t w))) with 0%N in B.
  assert (Hr : ranges 4 t 0) by (split; [reflexivity|split; [exact Ht|reflexivity]]).
  destruct (receive_frame e 4 t 0 b B Hr HL zero_Request tl s EOF false (or_introl eq_refl))
    as (R1 & _ & _ & _ & _ & _ & R2 & R3). auto.
Qed.

Lemma version_zero : exists d, nth 0 d xff = x00 /\
  let y := read_from zero_Request (MkReader d [] EOF false) in
  rfail y = None /\ forall m, (m <= 255)%Z -> proto_at_least (rreq y) 1 m = true.
Proof.
  exists [x00; x00; x00; x08; x00; x00; x00; x00]. split; [reflexivity|].
  cbv zeta. split; [vm_compute; reflexivity|]. intros m Hm. apply proto_lex.
  right. split; [vm_compute; reflexivity|].
  replace (Request_ProtoMinor _) with 255%Z by (vm_compute; reflexivity). exact Hm.
Qed.
