(** C101: writing a value into a destination that may fail. *)
From Verif Require Import WriterFacts.

(** The count is what the destination kept, which is a beginning of the
    encoding, and no error means all of it. *)
Theorem C101_honest : forall v b w, encoding_of v = inl b -> obeys w ->
  let o := write_value v w [] in
  count o = length (kept w [] (calls o))
  /\ exists t, b = kept w [] (calls o) ++ t /\ (error o = None -> t = []).
Proof.
  intros v b w E W o. destruct (runs_value v b E w [] W) as (cs & C & N & O). fold o in C, N, O. cbn [app] in C.
  rewrite C, N. split; [reflexivity|]. destruct (offered_prefix w _ _ _ W O) as (t & P & Q).
  rewrite concat_filled, (parts_concat v b E) in P. exists t. auto.
Qed.
Print Assumptions C101_honest.

(** Takes at most [n] bytes per call, from the second call on only [k]. *)
Definition stingy (n k : nat) : destination := fun h b =>
  let m := Nat.min (length b) (match h with [] => n | _ => k end) in
  (m, if m =? length b then None else Some (EUser 7)).

Example C101_honest_ex :
  let m := MkGroupMod 0 1 9 [MkBucket 0 1 2 [AGroup 3]; MkBucket 0 1 2 []] in
  let o := write_value (OGroupMod m) (stingy 20 20) [] in
  obeys (stingy 20 20) /\ count o = 28 /\ error o = Some (EUser 7) /\ length (calls o) = 2
  /\ kept (stingy 20 20) [] (calls o) = firstn 28 (enc_GroupMod m).
Proof. split; [intros h b; cbn; lia|]. vm_compute. auto. Qed.

(** The parts are offered in order, each whole and once, until a call fails;
    after that nothing is called and that failure is returned. *)
Theorem C101_parts : forall v b w, encoding_of v = inl b -> obeys w ->
  let o := write_value v w [] in
  concat (parts v) = b /\ offered w [] (filter filled (parts v)) (calls o) (error o).
Proof.
  intros v b w E W o. destruct (runs_value v b E w [] W) as (cs & C & N & O). fold o in C, N, O. cbn [app] in C.
  rewrite C. split; [exact (parts_concat v b E)|exact O].
Qed.
Print Assumptions C101_parts.

Example C101_parts_ex : forall w, obeys w ->
  let o := write_value (OMeterBands [BandDrop 1 2; BandDrop 3 4]) w [] in
  offered w [] [enc_MeterBand (BandDrop 1 2); enc_MeterBand (BandDrop 3 4)] (calls o) (error o).
Proof. intros w W. exact (proj2 (C101_parts (OMeterBands [BandDrop 1 2; BandDrop 3 4]) _ w eq_refl W)). Qed.

(** A destination that takes everything gets everything. *)
Theorem C101_complete : forall v b w, encoding_of v = inl b -> (forall h c, w h c = (length c, None)) ->
  let o := write_value v w [] in error o = None /\ count o = length b /\ concat (calls o) = b.
Proof.
  intros v b w E T o. assert (W : obeys w) by (intros h c; rewrite T; apply Nat.le_refl).
  destruct (C101_parts v b w E W) as (P & O). fold o in O. destruct (error o) as [e|] eqn:F.
  - destruct O as (f & c & t & _ & _ & _ & [B|(_ & B & _)]); rewrite T in B; cbn in B; [discriminate|lia].
  - destruct O as (-> & S). rewrite concat_filled. split; [reflexivity|]. split; [|exact P].
    destruct (C101_honest v b w E W) as (N & t & Q & R). fold o in N, Q, R. rewrite (R F), app_nil_r in Q. congruence.
Qed.
Print Assumptions C101_complete.

Example C101_complete_ex :
  let o := write_value (OFixed KRoleRequest (MkRoleRequest 2 1)) (fun h c => (length c, None)) [] in
  error o = None /\ count o = 16 /\ length (calls o) = 1.
Proof. vm_compute. auto. Qed.

(** Most values are handed over in one call, so that a destination that takes a
    call whole or not at all holds the whole value or nothing. *)
Theorem C101_one_call : forall v b w, encoding_of v = inl b -> obeys w -> in_one_piece v ->
  calls (write_value v w []) = match b with [] => [] | _ => [b] end.
Proof.
  intros v b w E W I. assert (P : parts v = [b]).
  { destruct v as [ | | | | | | | | | | | | | | | | | | | | | | | | | |p| ]; try destruct I;
      try (cbn [parts]; rewrite E; reflexivity).
    destruct p; try destruct I; cbn [parts]; rewrite E; reflexivity. }
  destruct (C101_parts v b w E W) as (_ & O). rewrite P in O. cbn [filter] in O.
  destruct (error (write_value v w [])) as [e|].
  - destruct O as (f & c & t & F & -> & _). destruct b as [|x b]; cbn [filled] in F; [destruct f; discriminate|].
    destruct f as [|y [|z f]]; try discriminate. injection F as <- _. reflexivity.
  - destruct O as (-> & _). destruct b; reflexivity.
Qed.
Print Assumptions C101_one_call.

Example C101_one_call_ex :
  let m := MkPacketOut 1 2 [AGroup 3] [x01; x02] in
  in_one_piece (OVarying VPacketOut m) /\ length (calls (write_value (OVarying VPacketOut m) (stingy 3 0) [])) = 1.
Proof. split; [exact I|reflexivity]. Qed.

(** A call that takes everything or nothing, the latter with an error. *)
Definition all_or_nothing (w : destination) : Prop :=
  forall h c, w h c = (length c, None) \/ fst (w h c) = 0 /\ snd (w h c) <> None.

Lemma all_or_nothing_obeys : forall w, all_or_nothing w -> obeys w.
Proof. intros w A h c. destruct (A h c) as [->|(-> & _)]; cbn; lia. Qed.

Lemma all_or_nothing_kept : forall w ps cs e, all_or_nothing w -> offered w [] ps cs e ->
  exists j, kept w [] cs = concat (firstn j ps) /\ (e = None -> j = length ps) /\ (e <> None -> j < length ps).
Proof.
  intros w ps cs [e|] A O.
  - destruct O as (f & c & t & -> & -> & S & B). exists (length f).
    rewrite kept_app, (kept_smooth _ _ _ S). cbn [kept app].
    assert (Z : fst (w f c) = 0).
    { destruct (A f c) as [X|(X & _)]; [|exact X]. cbn [app] in B.
      destruct B as [B|(_ & B & _)]; rewrite X in B; cbn in B; [discriminate|lia]. }
    rewrite Z, firstn_app, firstn_all, Nat.sub_diag. cbn. rewrite !app_nil_r.
    split; [reflexivity|]. split; [discriminate|]. intros _. rewrite app_length. cbn. lia.
  - destruct O as (-> & S). exists (length ps). rewrite firstn_all, (kept_smooth _ _ _ S). split; [reflexivity|].
    split; [reflexivity|]. intros H. destruct (H eq_refl).
Qed.

Lemma filter_all : forall (A : Type) (f : A -> bool) l, (forall x, In x l -> f x = true) -> filter f l = l.
Proof.
  intros A f l. induction l as [|x l IH]; intros H; [reflexivity|]. cbn. rewrite (H x (or_introl eq_refl)). f_equal.
  apply IH. intros y Y. apply H. right. exact Y.
Qed.

(** A group modification broken off between two calls is a group modification
    with the first buckets only. *)
Theorem C101_group_cut : forall m w, all_or_nothing w ->
  let o := write_value (OGroupMod m) w [] in
  kept w [] (calls o) = []
  \/ exists j, kept w [] (calls o) = enc_GroupMod (set_GroupMod_Buckets (firstn j (GroupMod_Buckets m)) m)
       /\ (error o = None -> j = length (GroupMod_Buckets m)) /\ (error o <> None -> j < length (GroupMod_Buckets m)).
Proof.
  intros m w A o. destruct (C101_parts (OGroupMod m) _ w eq_refl (all_or_nothing_obeys w A)) as (_ & O). fold o in O.
  rewrite filter_all in O.
  2:{ intros x [<-|X]; [reflexivity|]. apply in_map_iff in X as (y & <- & _). reflexivity. }
  destruct (all_or_nothing_kept w _ _ _ A O) as (j & K & L & M). cbn [parts] in K, L, M. cbn [length] in L, M.
  rewrite map_length in L, M. destruct j as [|j]; [left; exact K|right]. exists j. rewrite K.
  split; [|split; [intros F; specialize (L F); lia|intros F; specialize (M F); lia]].
  rewrite firstn_cons, firstn_map, pieces_GroupMod. unfold enc_GroupMod. cbn. rewrite app_nil_r. reflexivity.
Qed.
Print Assumptions C101_group_cut.

(** It can break off after every bucket. *)
Theorem C101_group_every_cut : forall m j, j < length (GroupMod_Buckets m) -> exists w, all_or_nothing w
  /\ error (write_value (OGroupMod m) w []) <> None
  /\ kept w [] (calls (write_value (OGroupMod m) w [])) = enc_GroupMod (set_GroupMod_Buckets (firstn j (GroupMod_Buckets m)) m).
Proof.
  intros m j J. set (w := (fun h c => if length h <=? j then (length c, None) else (0, Some (EUser 7))) : destination).
  assert (A : all_or_nothing w).
  { intros h c. unfold w. destruct (length h <=? j); [left; reflexivity|right]. split; [reflexivity|discriminate]. }
  exists w. split; [exact A|].
  pose proof (C101_parts (OGroupMod m) _ w eq_refl (all_or_nothing_obeys w A)) as (_ & O). cbv zeta in O.
  rewrite filter_all in O.
  2:{ intros x [<-|X]; [reflexivity|]. apply in_map_iff in X as (y & <- & _). reflexivity. }
  assert (L : length (parts (OGroupMod m)) = 1 + length (GroupMod_Buckets m)) by (cbn [parts length]; rewrite map_length; reflexivity).
  destruct (error (write_value (OGroupMod m) w [])) as [e|] eqn:E.
  - split; [discriminate|]. destruct O as (f & c & t & P & C & S & B). rewrite C, kept_app, (kept_smooth _ _ _ S). cbn [app kept] in *.
    assert (F : length f = 1 + j).
    { assert (SM : forall h f, smooth w h f -> length h <= j + 1 -> length (h ++ f) <= j + 1).
      { clear. intros h f. revert h. induction f as [|x f IH]; intros h H I; [rewrite app_nil_r; exact I|].
        destruct H as (X & Y). unfold w in X. destruct (Nat.leb_spec (length h) j); [|discriminate].
        specialize (IH (h ++ [x]) Y). rewrite <- app_assoc in IH. cbn in IH. apply IH. rewrite app_length. cbn. lia. }
      specialize (SM [] f S ltac:(cbn; lia)). cbn [app] in SM.
      unfold broke, w in B. destruct (Nat.leb_spec (length f) j); [cbn in B; destruct B as [B|(_ & B & _)]; [discriminate|lia]|lia]. }
    replace (fst (w f c)) with 0 by (unfold w; destruct (Nat.leb_spec (length f) j); [lia|reflexivity]).
    cbn [firstn]. rewrite !app_nil_r.
    assert (G : f = firstn (1 + j) (parts (OGroupMod m))).
    { rewrite P, <- F, firstn_app, firstn_all, Nat.sub_diag, app_nil_r. reflexivity. }
    rewrite G. cbn [parts]. change (1 + j) with (Datatypes.S j). rewrite firstn_cons, firstn_map, pieces_GroupMod.
    unfold enc_GroupMod. cbn. rewrite app_nil_r. reflexivity.
  - exfalso. destruct O as (C & S). rewrite C in S. remember (parts (OGroupMod m)) as ps eqn:P. clear P C E.
    assert (SM : forall h f, smooth w h f -> length h <= j + 1 -> length (h ++ f) <= j + 1).
    { clear. intros h f. revert h. induction f as [|x f IH]; intros h H I; [rewrite app_nil_r; exact I|].
      destruct H as (X & Y). unfold w in X. destruct (Nat.leb_spec (length h) j); [|discriminate].
      specialize (IH (h ++ [x]) Y). rewrite <- app_assoc in IH. cbn in IH. apply IH. rewrite app_length. cbn. lia. }
    specialize (SM [] ps S ltac:(cbn; lia)). cbn [app] in SM. lia.
Qed.
Print Assumptions C101_group_every_cut.

Example C101_group_cut_ex :
  let m := MkGroupMod 0 1 9 [MkBucket 0 1 2 [AGroup 3]; MkBucket 0 1 2 []] in
  let w : destination := fun h c => if length h <=? 1 then (length c, None) else (0, Some (EUser 7)) in
  let o := write_value (OGroupMod m) w [] in
  error o = Some (EUser 7) /\ kept w [] (calls o) = enc_GroupMod (MkGroupMod 0 1 9 [MkBucket 0 1 2 [AGroup 3]]).
Proof. vm_compute. auto. Qed.

(** So does a list of meter bands. *)
Theorem C101_bands_cut : forall l w, all_or_nothing w ->
  let o := write_value (OMeterBands l) w [] in
  exists j, kept w [] (calls o) = enc_MeterBands (firstn j l)
    /\ (error o = None -> j = length l) /\ (error o <> None -> j < length l).
Proof.
  intros l w A o. destruct (C101_parts (OMeterBands l) _ w eq_refl (all_or_nothing_obeys w A)) as (_ & O). fold o in O.
  rewrite filter_all in O.
  2:{ intros x X. apply in_map_iff in X as ([] & <- & _); reflexivity. }
  destruct (all_or_nothing_kept w _ _ _ A O) as (j & K & L & M). cbn [parts] in K, L, M. rewrite map_length in L, M.
  exists j. rewrite K, firstn_map. auto.
Qed.
Print Assumptions C101_bands_cut.

Example C101_bands_cut_ex :
  let w : destination := fun h c => if length h <=? 0 then (length c, None) else (0, Some (EUser 7)) in
  kept w [] (calls (write_value (OMeterBands [BandDrop 1 2; BandDrop 3 4]) w [])) = enc_MeterBands [BandDrop 1 2].
Proof. vm_compute. reflexivity. Qed.

(** "A destination that takes a call whole or not at all ends up with the whole
    value or nothing." *)
Theorem C101_whole_refuted : exists v b w, encoding_of v = inl b /\ all_or_nothing w
  /\ kept w [] (calls (write_value v w [])) <> [] /\ kept w [] (calls (write_value v w [])) <> b.
Proof.
  set (m := MkGroupMod 0 1 9 [MkBucket 0 1 2 []]).
  destruct (C101_group_every_cut m 0 ltac:(cbn; lia)) as (w & A & _ & K).
  exists (OGroupMod m), (enc_GroupMod m), w. split; [reflexivity|]. split; [exact A|]. rewrite K.
  split; vm_compute; discriminate.
Qed.
Print Assumptions C101_whole_refuted.

(** An element that fails (the body of a multipart request): nothing is written. *)
Theorem C101_unencodable : forall v e w, encoding_of v = inr e ->
  write_value v w [] = Outcome 0 (Some e) [].
Proof. intros v e w E. destruct v; try discriminate. cbn [write_value]. rewrite E. reflexivity. Qed.
Print Assumptions C101_unencodable.

Example C101_unencodable_ex :
  encoding_of (OMultipartRequest (MkMultipartRequest 1 0 (MPlain (MkReader [] [] EOF false)))) = inr EInvalid.
Proof. reflexivity. Qed.

(** A destination that takes everything. *)
Definition taking : destination := fun _ c => (length c, None).

(** As the payload of a request every value is sent in one call together with
    the header, whole or, with an error, up to where the destination stopped. *)
Theorem C101_in_request : forall t v b w, encoding_of v = inl b -> (lenN b <= 65527)%N ->
  let r := write_to w (new_request t (Some (MkPayload (concat (calls (write_value v taking []))) None))) in
  exists h, wcalls r = [enc_Header h ++ b] /\ N.to_nat (Header_Length h) = 8 + length b
    /\ Header_Type h = t /\ (werr r = None <-> w (enc_Header h ++ b) = (8 + length b, None)).
Proof.
  intros t v b w E L. destruct (C101_complete v b taking E ltac:(reflexivity)) as (_ & _ & C).
  cbv zeta in C. rewrite C. unfold write_to, new_request. cbn [Request_Body copy_body copy_write pbytes perr set_header set_body Request_Header].
  destruct (N.ltb_spec 65535 (lenN b + 8)); [lia|].
  set (h := set_Header_Length _ _). exists h.
  assert (HL : length (enc_Header h ++ b) = 8 + length b) by (rewrite app_length; reflexivity).
  unfold emit. destruct (w (enc_Header h ++ b)) as [k e]. cbn [wcalls werr].
  split; [reflexivity|]. split.
  { unfold h, set_Header_Length, uwrap, lenN in *. cbn [Header_Length]. change (2 ^ (8 * N.of_nat 2))%N with 65536%N.
    rewrite (N.mod_small (N.of_nat (length b))) by lia. rewrite N.mod_small by lia. lia. }
  split; [reflexivity|]. rewrite HL. destruct e as [e|]; [split; discriminate|].
  destruct (Nat.eqb_spec k (8 + length b)) as [->|N]; split; try reflexivity; try discriminate. intros X. injection X as X. contradiction.
Qed.
Print Assumptions C101_in_request.

Example C101_in_request_ex :
  let v := OGroupMod (MkGroupMod 0 1 9 [MkBucket 0 1 2 []]) in
  let r := write_to sink (new_request 15 (Some (MkPayload (concat (calls (write_value v taking []))) None))) in
  encoding_of v = inl (enc_GroupMod (MkGroupMod 0 1 9 [MkBucket 0 1 2 []])) /\ map (@length _) (wcalls r) = [32] /\ wcount r = 32.
Proof. vm_compute. auto. Qed.
