(** C122: lists that hold elements of the user's own types, or nil. *)
From Verif Require Import LengthFacts ElemSpec RequestFacts P_Request.
From Verif Require ConnModel P_Conn.

Lemma collect_spec l :
  collect l = match first_error l with Some e => inr e | None => inl (bytes_of l) end.
Proof.
  induction l as [|x l IH]; [reflexivity|]. cbn [collect first_error].
  destruct (eerr x); [reflexivity|]. rewrite IH. destruct (first_error l); reflexivity.
Qed.

Lemma first_app a b : first_error (a ++ b) = match first_error a with Some e => Some e | None => first_error b end.
Proof. induction a as [|x a IH]; [reflexivity|]. cbn. destruct (eerr x); [reflexivity|exact IH]. Qed.

Lemma first_nest (A : Type) (leaf : A -> list elem) (e : A -> elem) l :
  (forall x, eerr (e x) = first_error (leaf x)) -> first_error (map e l) = first_error (flat_map leaf l).
Proof.
  intro H. induction l as [|x l IH]; [reflexivity|]. cbn [map flat_map first_error].
  rewrite first_app, H, IH. reflexivity.
Qed.

Lemma wrapping_err f l : eerr (as_elem (wrapping f (collect l))) = first_error l.
Proof. rewrite collect_spec. destruct (first_error l); reflexivity. Qed.

Lemma instruction_err i : eerr (instruction_elem i) = first_error (instruction_leaves i).
Proof.
  destruct i as [x|t l]; cbn [instruction_elem instruction_leaves first_error].
  - destruct (eerr x); reflexivity.
  - apply wrapping_err.
Qed.

Lemma result_err v :
  match first_error (leaves v) with
  | Some e => own_result v = inr e
  | None => exists b, own_result v = inl b
  end.
Proof.
  assert (W : forall l, match first_error l with Some e => collect l = inr e | None => exists b, collect l = inl b end).
  { intro l. rewrite collect_spec. destruct (first_error l); eauto. }
  assert (G : forall f l, match first_error l with Some e => wrapping f (collect l) = inr e
                          | None => exists b, wrapping f (collect l) = inl b end).
  { intros f l. rewrite collect_spec. destruct (first_error l); cbn; eauto. }
  destruct v; cbn [leaves own_result]; try apply W; try apply G;
    try (rewrite <- (first_nest _ instruction_leaves instruction_elem _ instruction_err); first [apply W|apply G]).
  - rewrite <- instruction_err. generalize (W [instruction_elem i]). cbn [first_error].
    destruct (eerr (instruction_elem i)); exact (fun x => x).
  - rewrite <- (first_nest _ own_actions (fun k => as_elem (bucket_result k)));
      [apply G|intro k; apply wrapping_err].
  - rewrite <- (first_nest _ own_actions (fun k => as_elem (bucket_result k)));
      [apply G|intro k; apply wrapping_err].
  - rewrite <- (first_nest _ own_props (fun k => as_elem (queue_result k)));
      [apply G|intro k; apply wrapping_err].
Qed.

Lemma whole v w h : in_pieces v = false -> write_own v w h = write_elems (own_result v) w h.
Proof. destruct v; try (destruct i); cbn [in_pieces]; intro H; try discriminate H; reflexivity. Qed.

(** C122: an element that fails, or a nil one, which panics, keeps the whole message
    from being written: not a byte reaches the destination. *)
Theorem C122_refused : forall v w h e, first_error (leaves v) = Some e -> in_pieces v = false ->
  write_own v w h = Outcome 0 (Some e) h.
Proof.
  intros v w h e F P. rewrite (whole v w h P). generalize (result_err v). rewrite F. intros ->. reflexivity.
Qed.
Print Assumptions C122_refused.

(** A nil action in a bucket of a group description, and an own action that fails in a
    packet-out. *)
Example C122_refused_ex :
  leaves (WGroupDescStats 0 7 [MkOwnBucket 1 2 3 [lib [x01]]; MkOwnBucket 1 2 3 [nil_elem]])
  = [lib [x01]; nil_elem]
  /\ first_error [lib [x01]; nil_elem] = Some EPanic
  /\ forall w, write_own (WPacketOut 1 2 [lib [x01]; MkElem [x02; x03] (Some (EUser 5))] [xaa]) w []
              = Outcome 0 (Some (EUser 5)) [].
Proof. repeat split. Qed.

(** What has gone to a destination that takes everything when the pieces end. *)
Fixpoint spilled (l : list elem) : bytes :=
  match l with
  | [] => []
  | x :: l' => ebytes x ++ match eerr x with Some _ => [] | None => spilled l' end
  end.

Lemma at_once_buffer b h : exists h', at_once b buffer h = Outcome (length b) None h' /\ concat h' = concat h ++ b.
Proof.
  destruct b as [|c b].
  - exists h. split; [reflexivity|]. rewrite app_nil_r. reflexivity.
  - exists (h ++ [c :: b]). unfold at_once, write_elems, buffer_to, buffer.
    rewrite Nat.ltb_irrefl, Nat.eqb_refl. split; [reflexivity|].
    rewrite concat_app. cbn [concat]. rewrite app_nil_r. reflexivity.
Qed.

Lemma elem_to_buffer x h : exists h', elem_to x buffer h = Outcome (length (ebytes x)) (eerr x) h'
  /\ concat h' = concat h ++ ebytes x.
Proof.
  unfold elem_to. destruct (at_once_buffer (ebytes x) h) as (h' & A & C). exists h'. split; [|exact C].
  cbn [one_by_one]. rewrite A. cbn [WriterModel.error WriterModel.calls WriterModel.count].
  destruct (eerr x); cbn [WriterModel.error WriterModel.calls WriterModel.count]; f_equal; lia.
Qed.

Lemma result_buffer r h : exists h', write_elems r buffer h = Outcome (length (ebytes (as_elem r))) (eerr (as_elem r)) h'
  /\ concat h' = concat h ++ ebytes (as_elem r).
Proof.
  destruct r as [b|e]; [exact (at_once_buffer b h)|]. exists h. split; [reflexivity|].
  cbn. rewrite app_nil_r. reflexivity.
Qed.

Lemma pieces_buffer (A : Type) (f : A -> writing) (e : A -> elem) :
  (forall x h, exists h', f x buffer h = Outcome (length (ebytes (e x))) (eerr (e x)) h'
                          /\ concat h' = concat h ++ ebytes (e x)) ->
  forall l h, exists n h', one_by_one (map f l) buffer h = Outcome n (first_error (map e l)) h'
    /\ concat h' = concat h ++ spilled (map e l).
Proof.
  intro F. induction l as [|x l IH]; intro h.
  - exists 0, h. split; [reflexivity|]. cbn. rewrite app_nil_r. reflexivity.
  - destruct (F x h) as (h1 & E & C). cbn [map one_by_one first_error spilled]. rewrite E.
    cbn [WriterModel.error WriterModel.calls WriterModel.count]. destruct (eerr (e x)).
    + exists (length (ebytes (e x))), h1. split; [reflexivity|]. rewrite app_nil_r. exact C.
    + destruct (IH h1) as (n & h2 & E2 & C2). rewrite E2.
      cbn [WriterModel.error WriterModel.calls WriterModel.count]. eexists _, h2. split; [reflexivity|].
      rewrite C2, C, app_assoc. reflexivity.
Qed.

Lemma spilled_all l : first_error l = None -> spilled l = bytes_of l.
Proof.
  induction l as [|x l IH]; [reflexivity|]. cbn [first_error spilled]. destruct (eerr x); [discriminate|].
  intro H. rewrite (IH H). reflexivity.
Qed.

Lemma group_buffer c t g l : exists n h',
  write_own (WGroupMod c t g l) buffer [] = Outcome n (first_error (flat_map own_actions l)) h'
  /\ concat h' = concat [u16 c; u8 t; pad 1; u32 g] ++ spilled (map (fun k => as_elem (bucket_result k)) l).
Proof.
  cbn [write_own]. set (front := concat [u16 c; u8 t; pad 1; u32 g]). clearbody front.
  destruct (at_once_buffer front []) as (h1 & E & C). cbn [one_by_one]. rewrite E.
  cbn [WriterModel.error WriterModel.calls WriterModel.count].
  destruct (pieces_buffer _ (fun k => write_elems (bucket_result k)) (fun k => as_elem (bucket_result k))
              (fun k => result_buffer (bucket_result k)) l h1) as (n & h2 & E2 & C2).
  rewrite E2. cbn [WriterModel.error WriterModel.calls WriterModel.count].
  rewrite (first_nest _ own_actions (fun k => as_elem (bucket_result k))) by (intro k; apply wrapping_err).
  destruct (first_error (flat_map own_actions l)).
  - eexists _, h2. split; [reflexivity|]. rewrite C2, C. reflexivity.
  - cbn [WriterModel.error WriterModel.calls WriterModel.count]. eexists _, h2. split; [reflexivity|].
    rewrite C2, C. reflexivity.
Qed.

Lemma to_buffer v :
  WriterModel.error (write_own v buffer []) = first_error (leaves v)
  /\ forall b, own_result v = inl b -> concat (WriterModel.calls (write_own v buffer [])) = b.
Proof.
  generalize (result_err v). destruct (in_pieces v) eqn:P.
  - destruct v; try discriminate P; intro R.
    + destruct i as [x|]; [|discriminate P]. cbn [leaves instruction_leaves own_result write_own instruction_elem] in *.
      destruct (elem_to_buffer x []) as (h & E & C). rewrite E. cbn [WriterModel.error WriterModel.calls].
      cbn [first_error collect] in *. destruct (eerr x); [split; [reflexivity|discriminate]|].
      split; [reflexivity|]. intros b B. inversion B. rewrite C, app_nil_r. reflexivity.
    + destruct (group_buffer c t g l) as (n & h & E & C). rewrite E. split; [reflexivity|].
      cbn [WriterModel.calls]. intros b B. rewrite C. cbn [own_result] in B. rewrite collect_spec in B.
      destruct (first_error (map (fun k => as_elem (bucket_result k)) l)) eqn:F; [discriminate|].
      rewrite (spilled_all _ F). inversion B. cbn [concat]. rewrite !app_nil_r, <- !app_assoc. reflexivity.
    + cbn [write_own]. destruct (pieces_buffer _ elem_to (fun x => x) elem_to_buffer l []) as (n & h & E & C).
      rewrite E, map_id in *. split; [reflexivity|]. cbn [WriterModel.calls own_result]. intros b B.
      rewrite collect_spec in B. destruct (first_error l) eqn:F; [discriminate|]. inversion B.
      rewrite C, (spilled_all _ F). reflexivity.
  - intro R. rewrite (whole v buffer [] P). destruct (result_buffer (own_result v) []) as (h & E & C). rewrite E.
    cbn [WriterModel.error WriterModel.calls]. destruct (first_error (leaves v)).
    + rewrite R. split; [reflexivity|discriminate].
    + destruct R as (b & R). rewrite R in *. split; [reflexivity|]. intros b' B. inversion B. subst b'. exact C.
Qed.

(** C122: otherwise it is written, whatever the types of its elements. *)
Theorem C122_written : forall v, first_error (leaves v) = None ->
  exists b, payload_of v = MkPayload b None /\ own_result v = inl b
  /\ (in_pieces v = false -> forall w h, write_own v w h = buffer_to b w h).
Proof.
  intros v F. generalize (result_err v). rewrite F. intros (b & R). exists b.
  destruct (to_buffer v) as (E & C). unfold payload_of. rewrite E, (C b R), F. split; [reflexivity|].
  split; [exact R|]. intros P w h. rewrite (whole v w h P), R. reflexivity.
Qed.
Print Assumptions C122_written.

Example C122_written_ex :
  payload_of (WGroupMod 0 1 9 [MkOwnBucket 1 2 3 [lib [xde; xad]]])
  = MkPayload [x00; x00; x01; x00; x00; x00; x00; x09;
               x00; x12; x00; x01; x00; x00; x00; x02; x00; x00; x00; x03; x00; x00; x00; x00; xde; xad] None.
Proof. vm_compute. reflexivity. Qed.

(** C122: a group modification hands over its fixed part and the buckets before the one
    with the failing action. *)
Theorem C122_group_cut : forall c t g l e, first_error (flat_map own_actions l) = Some e ->
  exists l1 k l2 bs, l = l1 ++ k :: l2 /\ first_error (own_actions k) = Some e
  /\ map (fun k => own_result (WBucket k)) l1 = map inl bs
  /\ WriterModel.error (write_own (WGroupMod c t g l) buffer []) = Some e
  /\ concat (WriterModel.calls (write_own (WGroupMod c t g l) buffer []))
     = be_enc 2 c ++ be_enc 1 t ++ [x00] ++ be_enc 4 g ++ concat bs.
Proof.
  intros c t g l e F. destruct (group_buffer c t g l) as (n & h & E & C). rewrite E.
  cbn [WriterModel.error WriterModel.calls].
  assert (S : exists l1 k l2 bs, l = l1 ++ k :: l2 /\ first_error (own_actions k) = Some e
    /\ map (fun k => own_result (WBucket k)) l1 = map inl bs
    /\ spilled (map (fun k => as_elem (bucket_result k)) l) = concat bs).
  { clear E C n h. induction l as [|k l IH]; [discriminate|]. cbn [flat_map] in F. rewrite first_app in F.
    cbn [map spilled]. assert (W : eerr (as_elem (bucket_result k)) = first_error (own_actions k)) by apply wrapping_err.
    rewrite W. destruct (first_error (own_actions k)) as [e'|] eqn:K.
    - inversion F; subst e'. exists [], k, l, []. repeat split; try assumption.
      unfold bucket_result. rewrite collect_spec, K. reflexivity.
    - destruct (IH F) as (l1 & k' & l2 & bs & -> & Ke & Bs & Sp).
      generalize (result_err (WBucket k)). cbn [leaves own_result]. rewrite K. intros (b & B).
      exists (k :: l1), k', l2, (b :: bs). repeat split; try assumption.
      + cbn [map own_result]. rewrite B. f_equal. exact Bs.
      + rewrite Sp, B. reflexivity. }
  destruct S as (l1 & k & l2 & bs & -> & Ke & Bs & Sp). exists l1, k, l2, bs.
  repeat split; try assumption. rewrite C, Sp. cbn [concat]. rewrite app_nil_r, <- !app_assoc. reflexivity.
Qed.
Print Assumptions C122_group_cut.

Example C122_group_cut_ex :
  let o := write_own (WGroupMod 0 1 9 [MkOwnBucket 1 2 3 []; MkOwnBucket 4 5 6 [nil_elem]]) buffer [] in
  WriterModel.error o = Some EPanic /\ length (concat (WriterModel.calls o)) = 24.
Proof. vm_compute. repeat split. Qed.

(** C122: a list of bands hands over the bands before the failing one, and what that
    one wrote. *)
Theorem C122_bands_cut : forall l e, first_error l = Some e ->
  exists l1 x l2, l = l1 ++ x :: l2 /\ first_error l1 = None /\ eerr x = Some e
  /\ WriterModel.error (write_own (WMeterBands l) buffer []) = Some e
  /\ concat (WriterModel.calls (write_own (WMeterBands l) buffer [])) = bytes_of l1 ++ ebytes x.
Proof.
  intros l e F. cbn [write_own]. destruct (pieces_buffer _ elem_to (fun x => x) elem_to_buffer l []) as (n & h & E & C).
  rewrite E, map_id in *. cbn [WriterModel.error WriterModel.calls]. rewrite F, C. clear E C n h. cbn [concat app].
  assert (S : exists l1 x l2, l = l1 ++ x :: l2 /\ first_error l1 = None /\ eerr x = Some e
    /\ spilled l = bytes_of l1 ++ ebytes x).
  { induction l as [|y l IH]; [discriminate|]. cbn [first_error spilled] in *. destruct (eerr y) as [e'|] eqn:Y.
    - inversion F; subst e'. exists [], y, l. repeat split; try assumption. rewrite app_nil_r. reflexivity.
    - destruct (IH F) as (l1 & x & l2 & -> & A & B & D). exists (y :: l1), x, l2. repeat split; try assumption.
      + cbn [first_error]. rewrite Y. exact A.
      + rewrite D. unfold bytes_of. cbn [map concat]. apply app_assoc. }
  destruct S as (l1 & x & l2 & -> & A & B & D). exists l1, x, l2. repeat split; assumption.
Qed.
Print Assumptions C122_bands_cut.

Example C122_bands_cut_ex :
  write_own (WMeterBands [lib [x01; x02]; MkElem [x03] (Some (EUser 5)); lib [x04]]) buffer []
  = Outcome 3 (Some (EUser 5)) [[x01; x02]; [x03]].
Proof. reflexivity. Qed.

(** So a WriteTo that returns an error may have written part of the message. *)
Theorem C122_nothing_written_refuted : exists v e, first_error (leaves v) = Some e
  /\ WriterModel.calls (write_own v buffer []) <> [].
Proof.
  exists (WGroupMod 0 1 9 [MkOwnBucket 4 5 6 [nil_elem]]), EPanic. split; [reflexivity|]. vm_compute. discriminate.
Qed.
Print Assumptions C122_nothing_written_refuted.

(** C122: nothing of such a message goes out when it is the body of a request or of a
    reply, and the connection stays as it was. *)
Theorem C122_sent_whole : forall v e t, first_error (leaves v) = Some e ->
  (forall w, werr (write_to w (new_request t (Some (payload_of v)))) = Some e
             /\ wcalls (write_to w (new_request t (Some (payload_of v)))) = [])
  /\ (forall ver h c, ConnModel.c_respond ver h (Some (payload_of v)) c = (Some e, c)).
Proof.
  intros v e t F. destruct (to_buffer v) as (E & _). unfold payload_of. rewrite E, F. split.
  - intro w. destruct (C03_failing_body w (new_request t (Some (MkPayload (concat (WriterModel.calls (write_own v buffer []))) (Some e))))
      (concat (WriterModel.calls (write_own v buffer []))) e) as (A & B & _); [discriminate|reflexivity|].
    split; assumption.
  - intros ver h c. eapply P_Conn.C19_reply_fails. reflexivity.
Qed.
Print Assumptions C122_sent_whole.

Example C122_sent_whole_ex :
  let v := WGroupMod 0 1 9 [MkOwnBucket 1 2 3 []; MkOwnBucket 4 5 6 [nil_elem]] in
  length (pbytes (payload_of v)) = 24
  /\ wcalls (write_to sink (new_request 15 (Some (payload_of v)))) = [].
Proof. vm_compute. split; reflexivity. Qed.

Lemma wrapped f l b : wrapping f (collect l) = inl b -> first_error l = None /\ b = f (bytes_of l).
Proof. rewrite collect_spec. destruct (first_error l); [discriminate|]. intro H. inversion H. split; reflexivity. Qed.

Lemma last_part n l (x : bytes) : length (concat l) = n -> skipn n (concat (l ++ [x])) = x.
Proof.
  intros <-. rewrite concat_app. cbn [concat]. rewrite app_nil_r.
  rewrite skipn_app, skipn_all, Nat.sub_diag. reflexivity.
Qed.

Lemma behind_u16 n (x : bytes) : skipn 2 (concat [u16 n; x]) = x.
Proof. apply (last_part 2 [u16 n] x). reflexivity. Qed.

(** [pos]: pieces before the length field. *)
Ltac own_length pos :=
  intros; match goal with H : _ = inl _ |- _ =>
    cbn [own_result] in H; apply wrapped in H; destruct H as (_ & ->) end;
  match goal with |- context [bytes_of ?l] => generalize (bytes_of l) end; intro B; split;
  [declared pos; rewrite ?wrap16_twice, ?wrap16; len_simpl; rewrite ?fixtext_length; f_equal; lia
  |match goal with |- skipn ?n (concat ?l) = ?x =>
     let a := eval cbn [removelast] in (removelast l) in
     apply (last_part n a x); len_simpl; rewrite ?fixtext_length; reflexivity end].

(** C122: the length fields cover the elements whatever their type, and the elements
    stand behind the fixed part as they were written. *)
Theorem C122_lengths_bucket : forall k b, own_result (WBucket k) = inl b ->
  says 0 b (length b) /\ skipn 16 b = bytes_of (own_actions k).
Proof. own_length 0. Qed.
Print Assumptions C122_lengths_bucket.

Theorem C122_lengths_queue : forall q b, own_result (WPacketQueue q) = inl b ->
  says 8 b (length b) /\ skipn 16 b = bytes_of (own_props q).
Proof. own_length 2. Qed.
Print Assumptions C122_lengths_queue.

Theorem C122_lengths_meter : forall f m l b, own_result (WMeterConfig f m l) = inl b ->
  says 0 b (length b) /\ skipn 8 b = bytes_of l.
Proof. own_length 0. Qed.
Print Assumptions C122_lengths_meter.

Theorem C122_lengths_table : forall m l b, own_result (WTableFeatures m l) = inl b ->
  says 0 b (length b) /\ skipn 64 b = bytes_of l.
Proof. own_length 0. Qed.
Print Assumptions C122_lengths_table.

Theorem C122_lengths_packet : forall x p l d b, own_result (WPacketOut x p l d) = inl b ->
  says 8 b (length (bytes_of l)) /\ skipn 16 b = bytes_of l ++ d.
Proof.
  intros x p l d b H. cbn [own_result] in H. apply wrapped in H. destruct H as (_ & ->). generalize (bytes_of l). intro B.
  split; [declared 2; rewrite wrap16_twice; reflexivity|].
  replace (concat [u32 x; u32 p; u16 (uwrap 2 (N.of_nat (length B))); pad 6; B; d])
    with (concat ([u32 x; u32 p; u16 (uwrap 2 (N.of_nat (length B))); pad 6] ++ [B ++ d])).
  - apply last_part. len_simpl. reflexivity.
  - cbn [concat app]. rewrite !app_nil_r. reflexivity.
Qed.
Print Assumptions C122_lengths_packet.

Lemma buckets_ok l : first_error (map (fun k => as_elem (bucket_result k)) l) = None ->
  exists bs, map bucket_result l = map inl bs /\ bytes_of (map (fun k => as_elem (bucket_result k)) l) = concat bs.
Proof.
  induction l as [|k l IH]; intro F; [exists []; split; reflexivity|]. cbn [map first_error] in *.
  destruct (bucket_result k) as [b|]; cbn [as_elem eerr] in F; [|discriminate].
  destruct (IH F) as (bs & A & B). exists (b :: bs). split; [cbn [map]; f_equal; exact A|].
  unfold bytes_of in *. cbn [map concat as_elem ebytes]. rewrite B. reflexivity.
Qed.

Theorem C122_lengths_group : forall t g l b, own_result (WGroupDescStats t g l) = inl b ->
  says 0 b (length b)
  /\ exists bs, map (fun k => own_result (WBucket k)) l = map inl bs /\ skipn 8 b = concat bs.
Proof.
  intros t g l b H. assert (F := H). cbn [own_result] in F. apply wrapped in F. destruct F as (F & _).
  destruct (buckets_ok l F) as (bs & A & B).
  assert (L : says 0 b (length b) /\ skipn 8 b = bytes_of (map (fun k => as_elem (bucket_result k)) l)).
  { clear F A B. own_length 0. }
  destruct L as (L & S). split; [exact L|]. exists bs. split; [exact A|]. rewrite S. exact B.
Qed.
Print Assumptions C122_lengths_group.

Theorem C122_lengths_instruction : forall t l b, own_result (WInstruction (IActions t l)) = inl b ->
  says 2 b (length b) /\ skipn 8 b = bytes_of l.
Proof.
  intros t l b H. cbn [own_result instruction_elem collect] in H.
  assert (K : wrapping (fun b => concat [u16 t; u16 (uwrap 2 (uwrap 2 (N.of_nat (length b)) + 8)); pad 4; b])
                        (collect l) = inl b).
  { destruct (wrapping _ _); cbn [as_elem eerr ebytes] in H; [rewrite app_nil_r in H; exact H|discriminate]. }
  clear H. apply wrapped in K. destruct K as (_ & ->). generalize (bytes_of l). intro B. split.
  - declared 1. rewrite !wrap16. len_simpl. rewrite !N.mod_mod, N.add_mod_idemp_l by discriminate. f_equal. lia.
  - apply (last_part 8 [u16 t; u16 (uwrap 2 (uwrap 2 (N.of_nat (length B)) + 8)); pad 4] B). len_simpl. reflexivity.
Qed.
Print Assumptions C122_lengths_instruction.

Theorem C122_lengths_flow : forall m l b, own_result (WFlowStats m l) = inl b ->
  says 0 b (length b)
  /\ skipn 2 b = skipn 2 (enc_FlowStats (set_FlowStats_Instructions [] m)) ++ bytes_of (map instruction_elem l).
Proof.
  intros m l b H. cbn [own_result] in H. apply wrapped in H. destruct H as (_ & ->). cbv zeta.
  generalize (skipn 2 (enc_FlowStats (set_FlowStats_Instructions [] m)) ++ bytes_of (map instruction_elem l)). intro B.
  split; [|reflexivity]. apply (says_concat 0 [] [B] (uwrap 2 (N.of_nat (length B + 2)))).
  - cbn [concat app]. rewrite app_nil_r. reflexivity.
  - reflexivity.
  - rewrite wrap16_twice, app_length. unfold u16. rewrite be_enc_length. f_equal. lia.
Qed.
Print Assumptions C122_lengths_flow.

Example C122_lengths_ex :
  own_result (WInstruction (IActions 4 [MkElem [xff; xff; x00; x0c; xde; xad; xbe; xef; x00; x00; x00; x00] None]))
  = inl [x00; x04; x00; x14; x00; x00; x00; x00; xff; xff; x00; x0c; xde; xad; xbe; xef; x00; x00; x00; x00].
Proof. vm_compute. reflexivity. Qed.

Lemma lib_list (A : Type) (f : A -> bytes) l : collect (map (fun a => lib (f a)) l) = inl (concat (map f l)).
Proof. induction l as [|a l IH]; [reflexivity|]. cbn [map collect lib eerr ebytes concat]. rewrite IH. reflexivity. Qed.

Lemma lib_list' (A : Type) (g : A -> elem) (f : A -> bytes) l : (forall a, g a = lib (f a)) ->
  collect (map g l) = inl (concat (map f l)).
Proof. intro H. rewrite (map_ext g (fun a => lib (f a)) H). apply lib_list. Qed.

Lemma lib_instr i : instruction_elem (lib_instruction i) = lib (enc_Instruction i).
Proof.
  destruct i; cbn [lib_instruction instruction_elem]; try reflexivity; rewrite lib_list; reflexivity.
Qed.

Lemma lib_buck k : bucket_result (lib_bucket k) = inl (enc_Bucket k).
Proof. unfold bucket_result, lib_bucket. cbn [own_actions]. rewrite lib_list. reflexivity. Qed.

Lemma lib_que q : queue_result (lib_queue q) = inl (enc_PacketQueue q).
Proof. unfold queue_result, lib_queue. cbn [own_props]. rewrite lib_list. reflexivity. Qed.

(** C122: with elements of the package this is what the package writes. *)
Theorem C122_library :
  (forall l, own_result (WActions (map (fun a => lib (enc_Action a)) l)) = inl (enc_Actions l))
  /\ (forall l, own_result (WInstructions (map lib_instruction l)) = inl (enc_Instructions l))
  /\ (forall i, own_result (WInstruction (lib_instruction i)) = inl (enc_Instruction i))
  /\ (forall m, own_result (WPacketOut (PacketOut_Buffer m) (PacketOut_InPort m)
                              (map (fun a => lib (enc_Action a)) (PacketOut_Actions m)) (PacketOut_Data m))
                = inl (enc_PacketOut m))
  /\ (forall m, own_result (WFlowMod m (map lib_instruction (FlowMod_Instructions m))) = inl (enc_FlowMod m))
  /\ (forall m, own_result (WFlowStats m (map lib_instruction (FlowStats_Instructions m))) = inl (enc_FlowStats m))
  /\ (forall k, own_result (WBucket (lib_bucket k)) = inl (enc_Bucket k))
  /\ (forall m, own_result (WGroupMod (GroupMod_Command m) (GroupMod_Type m) (GroupMod_Group m)
                              (map lib_bucket (GroupMod_Buckets m))) = inl (enc_GroupMod m))
  /\ (forall m, own_result (WGroupDescStats (GroupDescStats_Type m) (GroupDescStats_Group m)
                              (map lib_bucket (GroupDescStats_Buckets m))) = inl (enc_GroupDescStats m))
  /\ (forall l, own_result (WMeterBands (map (fun x => lib (enc_MeterBand x)) l)) = inl (enc_MeterBands l))
  /\ (forall m, own_result (WMeterMod (MeterMod_Command m) (MeterMod_Flags m) (MeterMod_Meter m)
                              (map (fun x => lib (enc_MeterBand x)) (MeterMod_Bands m))) = inl (enc_MeterMod m))
  /\ (forall m, own_result (WMeterConfig (MeterConfig_Flags m) (MeterConfig_Meter m)
                              (map (fun x => lib (enc_MeterBand x)) (MeterConfig_Bands m))) = inl (enc_MeterConfig m))
  /\ (forall m, own_result (WHello (map (fun x => lib (enc_HelloElem x)) (Hello_Elements m))) = inl (enc_Hello m))
  /\ (forall q, own_result (WPacketQueue (lib_queue q)) = inl (enc_PacketQueue q))
  /\ (forall m, own_result (WQueueGetConfigReply (QueueGetConfigReply_Port m) (map lib_queue (QueueGetConfigReply_Queues m)))
                = inl (enc_QueueGetConfigReply m))
  /\ (forall m, own_result (WTableFeatures m (map (fun x => lib (enc_TableProp x)) (TableFeatures_Properties m)))
                = inl (enc_TableFeatures m)).
Proof.
  assert (I : forall l, collect (map instruction_elem (map lib_instruction l)) = inl (enc_Instructions l)).
  { intro l. rewrite map_map. apply (lib_list' _ _ enc_Instruction). exact lib_instr. }
  assert (B : forall l, collect (map (fun k => as_elem (bucket_result k)) (map lib_bucket l)) = inl (concat (map enc_Bucket l))).
  { intro l. rewrite map_map. apply (lib_list' _ _ enc_Bucket). intro k. rewrite lib_buck. reflexivity. }
  assert (Q : forall l, collect (map (fun k => as_elem (queue_result k)) (map lib_queue l)) = inl (concat (map enc_PacketQueue l))).
  { intro l. rewrite map_map. apply (lib_list' _ _ enc_PacketQueue). intro k. rewrite lib_que. reflexivity. }
  repeat split; intros; cbn [own_result]; rewrite ?lib_list, ?I, ?B, ?Q, ?lib_buck, ?lib_que, ?lib_instr; try reflexivity.
  - cbn [collect lib eerr ebytes]. rewrite app_nil_r. reflexivity.
  - cbn [wrapping]. f_equal. unfold enc_FlowMod, set_FlowMod_Instructions. cbn [concat enc_Instructions map FlowMod_Cookie FlowMod_CookieMask FlowMod_Table FlowMod_Command FlowMod_IdleTimeout FlowMod_HardTimeout FlowMod_Priority FlowMod_Buffer FlowMod_OutPort FlowMod_OutGroup FlowMod_Flags FlowMod_Match FlowMod_Instructions].
    unfold enc_Instructions. cbn [map concat]. rewrite !app_nil_r, <- !app_assoc. reflexivity.
  - cbn [wrapping]. f_equal. cbv zeta.
    assert (E : skipn 2 (enc_FlowStats (set_FlowStats_Instructions [] m)) ++ enc_Instructions (FlowStats_Instructions m)
                = skipn 2 (enc_FlowStats m)).
    { unfold enc_FlowStats, set_FlowStats_Instructions. cbv zeta. cbn [FlowStats_Table FlowStats_DurationSec FlowStats_DurationNSec FlowStats_Priority FlowStats_IdleTimeout FlowStats_HardTimeout FlowStats_Flags FlowStats_Cookie FlowStats_PacketCount FlowStats_ByteCount FlowStats_Match FlowStats_Instructions].
      rewrite !behind_u16. cbn [concat]. unfold enc_Instructions at 1. cbn [map concat].
      rewrite !app_nil_r, <- !app_assoc. reflexivity. }
    rewrite E. unfold enc_FlowStats. cbv zeta. rewrite behind_u16. cbn [concat]. rewrite !app_nil_r. reflexivity.
Qed.
Print Assumptions C122_library.

Example C122_library_ex :
  own_result (WActions (map (fun a => lib (enc_Action a)) [AOutput 1 2])) = inl (enc_Actions [AOutput 1 2]).
Proof. reflexivity. Qed.
