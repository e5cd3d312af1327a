(** C53, C72, C73: table features and their properties. *)
From Verif Require Import TableFacts.
Ltac Zify.zify_post_hook ::= Z.div_mod_to_equations.

(** C53: a property survives, into any property of the same kind, with anything
    behind it. *)
Theorem C53_property_roundtrip : forall p z tl, wf_TableProp p -> same_tprop p z ->
  dec_TableProp z (enc_TableProp p ++ tl) = Res (prop_read z p) (prop_size p) None tl.
Proof. exact prop_rt. Qed.
Print Assumptions C53_property_roundtrip.

Theorem C53_property_layout : forall p, wf_TableProp p ->
  laid_out (enc_TableProp p) (prop_size p) (prop_layout p).
Proof. intros p W. apply lays_laid_out, prop_lays, W. Qed.
Print Assumptions C53_property_layout.

Example C53_property_ex :
  let p := TNextTables true [1; 2; 255]%N in
  wf_TableProp p /\ same_tprop p (TNextTables false [9; 9; 9; 9]%N)
  /\ enc_TableProp p = [x00; x03; x00; x07; x01; x02; xff; x00]
  /\ dec_TableProp (TNextTables false [9; 9; 9; 9]%N) (enc_TableProp p ++ [xaa]) = Res p 8 None [xaa]
  /\ enc_TableProp (TWriteSetField true [MkXM 32768 4 [] []])
     = [x00; x0d; x00; x08; x80; x00; x08; x00].
Proof. split; [split; [repeat constructor|reflexivity]|]. split; [exact I|]. vm_compute. repeat split; reflexivity. Qed.

(** C53: table features survive, into any receiver, with anything behind them. *)
Theorem C53_features_roundtrip : forall m old tl, wf_TableFeatures m ->
  dec_TableFeatures old (enc_TableFeatures m ++ tl) = Res (features_arrive m) (features_size m) None tl.
Proof.
  intros m old tl W. rewrite (rt_TableFeatures m W old tl), (lays_length _ _ _ (features_lays m W)). reflexivity.
Qed.
Print Assumptions C53_features_roundtrip.

Theorem C53_features_layout : forall m, wf_TableFeatures m ->
  laid_out (enc_TableFeatures m) (features_size m) (features_layout m).
Proof. intros m W. apply lays_laid_out, features_lays, W. Qed.
Print Assumptions C53_features_layout.

(** C53: nothing is changed if the name has 32 bytes and no experimenter property
    is one for table-miss. *)
Theorem C53_features_exact : forall m, length (TableFeatures_Name m) = 32 ->
  (forall e x d, ~ In (TExperimenter true e x d) (TableFeatures_Properties m)) ->
  features_arrive m = m.
Proof.
  intros m L H. destruct m as [t n a b c k ps]. unfold features_arrive.
  cbn [TableFeatures_Table TableFeatures_Name TableFeatures_MetadataMatch TableFeatures_MetadataWrite
       TableFeatures_Config TableFeatures_MaxEntries TableFeatures_Properties] in *.
  rewrite firstn_app_len by exact L. f_equal.
  induction ps as [|p ps IH]; [reflexivity|]. cbn [map]. f_equal.
  - destruct p; try reflexivity. destruct miss; [|reflexivity]. exfalso. eapply H. left. reflexivity.
  - apply IH. intros e x d I. apply (H e x d). right. exact I.
Qed.
Print Assumptions C53_features_exact.

Definition example_features : TableFeatures :=
  MkTableFeatures 7 (map byte_of_N [116; 97; 98; 108; 101]%N) 255 18446744073709551615 3 1000
    [TInstructions false [1; 3; 4]%N; TNextTables true [8; 9]%N; TWriteActions false [0; 22]%N; TApplyActions true [];
     TMatch [MkXM 32768 0 [] []; MkXM 32768 5 [] []]; TWildcards [MkXM 32768 5 [] []];
     TWriteSetField true []; TApplySetField false [MkXM 32768 3 [] []]; TExperimenter false 9 1 [x01; x02; x03]].

Example C53_features_ex :
  wf_TableFeatures example_features
  /\ dec_TableFeatures (MkTableFeatures 1 [x01] 1 1 1 1 [TMatch []]) (enc_TableFeatures example_features ++ [xee])
     = Res (features_arrive example_features) 168 None [xee]
  /\ features_size example_features = 168.
Proof.
  split; [|vm_compute; split; reflexivity].
  unfold wf_TableFeatures, example_features. cbn -[N.lt N.of_nat features_size wf_TableProp].
  repeat (split; [reflexivity|]). split; [|reflexivity].
  repeat (constructor; [split; [repeat constructor|reflexivity]|]). constructor.
Qed.

(** C53: the exceptions.  A property for table-miss becomes one for regular
    entries; a short name grows. *)
Theorem C53_miss_experimenter_refuted : exists m, wf_TableFeatures m /\ length (TableFeatures_Name m) = 32
  /\ forall old, TableFeatures_Properties (val (dec_TableFeatures old (enc_TableFeatures m)))
                 <> TableFeatures_Properties m.
Proof.
  set (m := MkTableFeatures 0 (zeros 32) 0 0 0 0 [TExperimenter true 1 2 []]). exists m.
  assert (W : wf_TableFeatures m).
  { unfold m, wf_TableFeatures. repeat (split; [reflexivity|]). split; [|reflexivity].
    repeat constructor. }
  split; [exact W|]. split; [reflexivity|]. intros old.
  pose proof (C53_features_roundtrip m old [] W) as E. rewrite app_nil_r in E. rewrite E. discriminate.
Qed.
Print Assumptions C53_miss_experimenter_refuted.

(** C53: the length field of a match property counts four bytes per entry, whatever
    the entries write. *)
Theorem C53_values_not_counted : forall p l,
  (p = TMatch l \/ p = TWildcards l \/ exists m, p = TWriteSetField m l \/ p = TApplySetField m l) ->
  Forall wf_XM l -> (N.of_nat (4 + 4 * length l) < 65536)%N ->
  let e := enc_TableProp p in
  num 2 2 e = N.of_nat (4 + 4 * length l)
  /\ length e = prop_size p + list_sum (map (fun x => length (XM_Value x) + length (XM_Mask x)) l).
Proof.
  intros p l H W L.
  assert (E : enc_TableProp p = enc_prop_xm (ofptfpt p) l /\ prop_size p = up8 (4 + 4 * length l)).
  { unfold enc_TableProp. cbv zeta. rewrite prop_type_ofptfpt. destruct H as [->|[->|[m [->| ->]]]]; split; reflexivity. }
  destruct E as [-> ->]. cbv zeta. unfold enc_prop_xm. cbv zeta. split.
  - unfold prop_header, num. cbn [concat]. rewrite <- app_assoc. unfold u16 at 1.
    rewrite skipn_app_len by apply be_enc_length. rewrite firstn_app_len by apply be_enc_length.
    unfold u16. rewrite be_dec_enc, !uwrap2 by (rewrite ?uwrap2; exact L). reflexivity.
  - cbn [concat]. rewrite app_nil_r, !app_length, fields_length by exact W. unfold prop_header, u16, pad.
    rewrite app_length, !be_enc_length, zeros_length.
    assert (S : fields_size l = 4 * length l + list_sum (map (fun x => length (XM_Value x) + length (XM_Mask x)) l)).
    { clear. unfold fields_size. induction l as [|x l IH]; [reflexivity|]. cbn [map length].
      change (list_sum (xm_size x :: map xm_size l)) with (xm_size x + list_sum (map xm_size l)). rewrite IH.
      change (list_sum ((length (XM_Value x) + length (XM_Mask x)) :: ?r))
        with ((length (XM_Value x) + length (XM_Mask x)) + list_sum r).
      cbn [list_sum fold_right]. unfold xm_size, list_sum. lia. }
    rewrite S, <- up8_pad. pose proof (up8_ge (4 + 4 * length l)). lia.
Qed.
Print Assumptions C53_values_not_counted.

Definition match_with_value : TableFeatures :=
  MkTableFeatures 0 (zeros 32) 0 0 0 0 [TMatch [MkXM 32768 0 [x00; x00; x00; x01] []]; TNextTables false [1%N]].

Theorem C53_values_refuted : exists m, Forall wf_XM (flat_map get_xms (TableFeatures_Properties m))
  /\ fail (dec_TableFeatures zero_TableFeatures (enc_TableFeatures m)) = None
  /\ length (TableFeatures_Properties (val (dec_TableFeatures zero_TableFeatures (enc_TableFeatures m))))
     = length (TableFeatures_Properties m)
  /\ In (TNextTables false [1%N]) (TableFeatures_Properties m)
  /\ In (TInstructions false [2; 256]%N)
       (TableFeatures_Properties (val (dec_TableFeatures zero_TableFeatures (enc_TableFeatures m)))).
Proof.
  exists match_with_value. split; [repeat constructor; cbn; auto; lia|]. vm_compute. auto 10.
Qed.
Print Assumptions C53_values_refuted.

Example C53_values_ex :
  let p := TMatch [MkXM 32768 0 [x00; x00; x00; x01] []] in
  enc_TableProp p = [x00; x08; x00; x08; x80; x00; x00; x04; x00; x00; x00; x01].
Proof. vm_compute. reflexivity. Qed.

(** C72: the lists of fields as other implementations write them (headers of
    match entries with the length a payload would have): accepted, but every
    field comes back with a value (and mask) of zeros. *)
Theorem C72_standard_fields : forall l tl, Forall wf_field_id l -> (N.of_nat (4 + 4 * length l) < 65536)%N ->
  let r x := Res x (up8 (4 + 4 * length l)) None tl in
  let f := map field_id_read l in
  (forall z, dec_TableProp (TMatch z) (standard_fields 8 l ++ tl) = r (TMatch f))
  /\ (forall z, dec_TableProp (TWildcards z) (standard_fields 10 l ++ tl) = r (TWildcards f))
  /\ (forall m m' z, dec_TableProp (TWriteSetField m' z) (standard_fields (12 + N.b2n m) l ++ tl) = r (TWriteSetField m f))
  /\ (forall m m' z, dec_TableProp (TApplySetField m' z) (standard_fields (14 + N.b2n m) l ++ tl) = r (TApplySetField m f)).
Proof.
  intros l tl W L.
  assert (LN : forall t, length (standard_fields t l) = up8 (4 + 4 * length l)).
  { intro t. unfold standard_fields. cbv zeta. rewrite !app_length, !be_enc_length, ids_length, zeros_length.
    pose proof (up8_ge (4 + 4 * length l)). lia. }
  cbv zeta. split; [|split; [|split]]; intros; unfold dec_TableProp.
  - eapply rt_at; [apply rt_standard; [reflexivity|assumption..]|reflexivity|apply LN].
  - eapply rt_at; [apply rt_standard; [reflexivity|assumption..]|reflexivity|apply LN].
  - eapply rt_at; [apply rt_standard; [destruct m; reflexivity|assumption..]| |apply LN].
    rewrite (testbit_miss 6). reflexivity.
  - eapply rt_at; [apply rt_standard; [destruct m; reflexivity|assumption..]| |apply LN].
    rewrite (testbit_miss 7). reflexivity.
Qed.
Print Assumptions C72_standard_fields.

Example C72_standard_fields_ex :
  let l := [MkFieldId 32768 0 false 4; MkFieldId 32768 3 true 12] in
  Forall wf_field_id l
  /\ standard_fields 8 l = [x00; x08; x00; x0c; x80; x00; x00; x04; x80; x00; x07; x0c; x00; x00; x00; x00]
  /\ map field_id_read l = [MkXM 32768 0 (zeros 4) []; MkXM 32768 3 (zeros 6) (zeros 6)].
Proof. split; [repeat constructor|]. vm_compute. split; reflexivity. Qed.

(** C72: sending such a property on writes these zeros, which the length field
    does not count: the result is longer than what was received by all of them. *)
Theorem C72_forwarded_longer : forall l, Forall wf_field_id l ->
  length (enc_TableProp (TMatch (map field_id_read l)))
  = length (standard_fields 8 l)
    + list_sum (map (fun i => if id_masked i then N.to_nat (id_len i) / 2 * 2 else N.to_nat (id_len i)) l).
Proof.
  intros l W. unfold enc_TableProp, enc_prop_xm, standard_fields. cbv zeta. cbn [concat].
  rewrite app_nil_r, !app_length, !be_enc_length, ids_length, zeros_length. unfold prop_header, u16, pad.
  rewrite app_length, !be_enc_length, zeros_length, map_length, <- up8_pad.
  assert (S : length (concat (map enc_XM (map field_id_read l)))
    = 4 * length l + list_sum (map (fun i => if id_masked i then N.to_nat (id_len i) / 2 * 2 else N.to_nat (id_len i)) l)).
  { induction W as [|i l Wi W IH]; [reflexivity|]. cbn [map concat length]. rewrite app_length, IH.
    change (list_sum (?a :: ?r)) with (a + list_sum r).
    assert (Ei : length (enc_XM (field_id_read i))
      = 4 + (if id_masked i then N.to_nat (id_len i) / 2 * 2 else N.to_nat (id_len i))).
    { unfold enc_XM. cbv zeta. cbn [concat]. rewrite app_nil_r, !app_length. unfold u16, u8. rewrite !be_enc_length.
      unfold field_id_read. cbv zeta. destruct (id_masked i); cbn [XM_Value XM_Mask]; rewrite ?zeros_length; cbn [length]; lia. }
    rewrite Ei. cbn [list_sum fold_right]. lia. }
  rewrite S. lia.
Qed.
Print Assumptions C72_forwarded_longer.

(** Received, sent on and received again: accepted, with a property that was
    never there. *)
Theorem C72_forward_refuted : exists e, let r := dec_TableFeatures zero_TableFeatures e in
  fail r = None /\ rest r = []
  /\ let r' := dec_TableFeatures zero_TableFeatures (enc_TableFeatures (val r)) in
     fail r' = None
     /\ TableFeatures_Properties (val r') = TableFeatures_Properties (val r) ++ [TInstructions false []].
Proof.
  exists ([x00; x48; x00] ++ zeros 61 ++ standard_fields 8 [MkFieldId 32768 0 false 4]).
  vm_compute. repeat split; reflexivity.
Qed.
Print Assumptions C72_forward_refuted.

(** C73: an unknown property type after any properties is reported and leaves the
    properties before it decoded. *)
Theorem C73_unknown_reported : forall h l b old tl, length h = 64 -> Forall wf_TableProp l -> 2 <= length b ->
  num 0 2 h = N.of_nat (64 + length (concat (map enc_TableProp l) ++ b)) ->
  ~ In (num 0 2 b) known_props ->
  let r := dec_TableFeatures old (h ++ (concat (map enc_TableProp l) ++ b) ++ tl) in
  fail r = Some (EUnknown (num 0 2 b)) /\ TableFeatures_Properties (val r) = map prop_arrives l /\ rest r = tl.
Proof.
  intros h l b old tl H W L E U. destruct (features_at h old ((concat (map enc_TableProp l) ++ b) ++ tl) H) as (m & _ & F).
  cbv zeta in F. set (body := concat (map enc_TableProp l) ++ b) in *.
  replace (N.to_nat (num 0 2 h) - 64) with (length body) in F by (rewrite E; lia).
  rewrite firstn_app_exact, skipn_app_exact in F. cbv zeta.
  rewrite (F _ _ _ _ (props_unknown l b [] W L U)). repeat split.
Qed.
Print Assumptions C73_unknown_reported.

Example C73_unknown_ex :
  fail (dec_TableFeatures zero_TableFeatures ([x00; x50; x00] ++ zeros 61
    ++ enc_TableProp (TNextTables false [1%N]) ++ [x00; x09; x00; x04; x00; x00; x00; x00])) = Some (EUnknown 9).
Proof. vm_compute. reflexivity. Qed.

(** C73: decoding ends on every input. *)
Theorem C73_terminates : forall old inp, fail (dec_TableFeatures old inp) <> Some EFuel.
Proof. exact nofuel_TableFeatures. Qed.
Print Assumptions C73_terminates.

Example C73_terminates_ex :
  fail (dec_TableFeatures zero_TableFeatures ([xff; xff; x00] ++ zeros 70)) = Some UnexpectedEOF.
Proof. vm_compute. reflexivity. Qed.
