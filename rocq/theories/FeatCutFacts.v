(** What the decoder of table features reports for the beginnings of encodings. *)
From Verif Require Export TableFacts FeatCutSpec ShortFacts TruncFacts.
Ltac Zify.zify_post_hook ::= Z.div_mod_to_equations.

(** ** Entries read until the end of the stream *)
Lemma snaps_readfunc {A S} (zero : A) (rd : step A) (fn : A -> S -> S) (enc : A -> bytes) (v : A -> nat -> finding) l :
  rd zero [] = Res zero 0 (Some EOF) [] ->
  (forall a, In a l -> 1 <= length (enc a)
     /\ (forall tl, fail (rd zero (enc a ++ tl)) = None /\ rest (rd zero (enc a ++ tl)) = tl)
     /\ forall n, n <= length (enc a) -> fail (rd zero (firstn n (enc a))) = told (v a n)
          /\ (v a n <> Broken -> rest (rd zero (firstn n (enc a))) = [])) ->
  snaps (readfunc zero rd fn) (concat (map enc l)) (until_end (map (fun a => (length (enc a), v a)) l)).
Proof.
  intros Z H s n Hn. destruct (snaps_readslice (S := S) zero rd enc v l Z H s n Hn) as [E R].
  unfold readslice, readfunc in E, R. unfold readfunc.
  assert (K : forall fuel s inp,
    fail (readfunc_loop fuel zero rd fn s inp) = fail (readfunc_loop fuel zero rd (fun _ s => s) s inp)
    /\ rest (readfunc_loop fuel zero rd fn s inp) = rest (readfunc_loop fuel zero rd (fun _ s => s) s inp)).
  { clear. assert (I : forall fuel (s s' : S) inp,
      fail (readfunc_loop fuel zero rd fn s inp) = fail (readfunc_loop fuel zero rd (fun _ s => s) s' inp)
      /\ rest (readfunc_loop fuel zero rd fn s inp) = rest (readfunc_loop fuel zero rd (fun _ s => s) s' inp)).
    { induction fuel as [|fuel IH]; intros s s' inp; [auto|]. cbn [readfunc_loop].
      destruct (fail (rd zero inp)); cbn [fail rest]; [auto|]. apply IH. }
    intros. apply I. }
  destruct (K (Datatypes.S (length (firstn n (concat (map enc l))))) s (firstn n (concat (map enc l)))) as [-> ->].
  auto.
Qed.

Lemma plain_bare : plain [2; 2] dec_bare.
Proof. unfold dec_bare. plainly. Qed.

Lemma snaps_types l : Forall (fits 2) l ->
  snaps (pre (set_types []) (readfunc 0%N dec_bare (fun t p => set_types (get_types p ++ [t]) p)))
    (bare l) (until_end (map (fun _ => (4, fields [2; 2])) l)).
Proof.
  intro W. apply snaps_pre. unfold bare.
  replace (map (fun _ : N => (4, fields [2; 2])) l)
    with (map (fun t : N => (length (u16 t ++ u16 4), fields [2; 2])) l) by (apply map_ext; reflexivity).
  apply (snaps_readfunc 0%N dec_bare _ (fun t => u16 t ++ u16 4) (fun _ => fields [2; 2])).
  - reflexivity.
  - intros t Ht. split; [rewrite app_length; unfold u16; rewrite !be_enc_length; lia|].
    assert (L : length (u16 t ++ u16 4) = list_sum [2; 2]) by reflexivity. split.
    + intro tl. exact (plain_passes _ _ _ plain_bare L 0%N tl).
    + intros n Hn. split; [apply (plain_snaps _ _ _ plain_bare L 0%N n Hn)|].
      apply (clears_plain _ _ _ plain_bare L 0%N n Hn).
Qed.

(** ** Fields without values *)
Lemma xm_loop_cut l : Forall wf_field_id l -> forall fuel acc n, n < fuel ->
  xm_loop fuel false acc (firstn n (concat (map field_id_bytes l)))
  = (acc ++ map field_id_read (firstn (n / 4) l), None).
Proof.
  induction 1 as [|i l W _ IH]; intros fuel acc n F; (destruct fuel as [|fuel]; [lia|]); cbn [map concat].
  - rewrite !firstn_nil. cbn. rewrite app_nil_r. reflexivity.
  - cbn [xm_loop]. rewrite firstn_length, app_length, id_bytes_length.
    destruct (Nat.ltb_spec (min n (4 + length (concat (map field_id_bytes l)))) 4) as [K|K].
    + assert (n / 4 = 0) as -> by lia. cbn. rewrite app_nil_r. reflexivity.
    + rewrite firstn_behind by (rewrite id_bytes_length; lia). rewrite dec_id by exact W.
      cbn [fail val rest]. rewrite id_bytes_length, IH by lia.
      assert (n / 4 = Datatypes.S ((n - 4) / 4)) as -> by lia.
      cbn [firstn map]. rewrite <- app_assoc. reflexivity.
Qed.

Lemma names_cut l old n : Forall names_field l -> n <= 4 * length l ->
  (pre (set_xms []) (sub get_xms set_xms (read_all_xm false))) old (firstn n (concat (map enc_XM l)))
  = Res (set_xms (firstn (n / 4) l) old) n None [].
Proof.
  intros W Hn. destruct (bare_ids l W) as (E1 & E2 & E3). rewrite E1. unfold pre, sub, read_all_xm.
  assert (L : length (firstn n (concat (map field_id_bytes (map bare_id l)))) = n)
    by (rewrite firstn_length, ids_length, map_length; lia).
  rewrite L, xm_loop_cut by (exact E3 || lia). cbn [val cnt fail rest].
  rewrite <- firstn_map, E2. destruct old; reflexivity.
Qed.

Lemma snaps_names l : Forall names_field l ->
  snaps (pre (set_xms []) (sub get_xms set_xms (read_all_xm false))) (concat (map enc_XM l)) (fun _ => Fine).
Proof.
  intros W s n Hn. rewrite names_total in Hn by exact W. rewrite names_cut by assumption. auto.
Qed.

(** ** Properties *)
Lemma snaps_prop_body f t body g v : fits 2 t -> (N.of_nat (4 + length body) < 65536)%N ->
  whole f body g -> snaps f body v ->
  snaps (prop_body f)
    (concat [prop_header t (uwrap 2 (N.of_nat (4 + length body))); body; pad (pad_len (4 + length body))])
    (followed 4 (fields [4]) (followed (length body) v (fields [pad_len (4 + length body)]))).
Proof.
  intros Ht Hl Hw Hv. unfold prop_body. cbn [concat]. rewrite app_nil_r. apply snaps_local.
  front_length. eapply snaps_andthen.
  - apply rt_prop_head; assumption.
  - apply plain_snaps; [apply plain_take|reflexivity].
  - intro s. cbn [fst snd]. apply snaps_then.
    + eapply rt_passes. apply rt_limited; [apply sub16_4, Hl|apply whole_sub, Hw].
    + apply snaps_limited; [|apply snaps_sub, Hv]. pose proof (sub16_4 _ Hl). lia.
    + rewrite Nat2N.id. apply plain_snaps; [apply plain_take|]. unfold pad. rewrite zeros_length.
      unfold list_sum. cbn [fold_right]. lia.
  - left. intros n Hn. apply fields_short. exact Hn.
Qed.

Lemma snaps_prop_types t l : fits 2 t -> Forall (fits 2) l -> (N.of_nat (4 + 4 * length l) < 65536)%N ->
  snaps dec_prop_types (enc_prop_actions t l)
    (followed 4 (fields [4])
       (followed (4 * length l) (until_end (map (fun _ => (4, fields [2; 2])) l)) (fields [up8 (4 + 4 * length l) - (4 + 4 * length l)]))).
Proof.
  intros Ht W L. unfold enc_prop_actions, dec_prop_types. cbv zeta. rewrite up8_pad, <- bare_length in *.
  eapply snaps_prop_body; [exact Ht|exact L|apply types_whole, W|apply snaps_types, W].
Qed.

Lemma snaps_prop_xm t l : fits 2 t -> Forall names_field l -> (N.of_nat (4 + 4 * length l) < 65536)%N ->
  snaps dec_prop_xm (enc_prop_xm t l)
    (followed 4 (fields [4])
       (followed (4 * length l) (fun _ => Fine) (fields [up8 (4 + 4 * length l) - (4 + 4 * length l)]))).
Proof.
  intros Ht W L. unfold enc_prop_xm, dec_prop_xm. cbv zeta. rewrite up8_pad, <- (names_total l W) in *.
  eapply snaps_prop_body; [exact Ht|exact L|apply names_whole, W|apply snaps_names, W].
Qed.

Lemma fields_cons_followed w ws n : fields (w :: ws) n = followed w (fields [w]) (fields ws) n.
Proof.
  unfold followed. cbn [fields]. destruct (Nat.leb_spec w n), (Nat.ltb_spec n w); try lia; [reflexivity|].
  destruct (n =? 0); reflexivity.
Qed.

Lemma snaps_prop_tables t l : fits 2 t -> Forall (fits 1) l -> (N.of_nat (4 + length l) < 65536)%N ->
  snaps dec_prop_tables (enc_prop_tables t l) (fields [4; length l; up8 (4 + length l) - (4 + length l)]).
Proof.
  intros Ht W L. unfold enc_prop_tables, dec_prop_tables. cbv zeta. rewrite up8_pad.
  change (concat [prop_header t (uwrap 2 (N.of_nat (4 + length l))); uarr 1 l; pad (pad_len (4 + length l))])
    with (prop_header t (uwrap 2 (N.of_nat (4 + length l))) ++ concat [uarr 1 l; pad (pad_len (4 + length l))]).
  apply (snaps_ext _ _ (followed 4 (fields [4]) (fields [length l; pad_len (4 + length l)])));
    [intros n _; apply fields_cons_followed|].
  apply snaps_local. front_length.
  eapply snaps_andthen.
  - apply rt_prop_head; assumption.
  - apply plain_snaps; [apply plain_take|reflexivity].
  - intro s. cbn [fst snd]. apply snaps_pre.
    assert (K : N.to_nat (sub16 (N.of_nat (4 + length l)) 4) = length l) by (rewrite sub16_small by lia; lia).
    rewrite K, Nat2N.id. apply plain_snaps.
    + apply plain_cons; [|apply plain_cons; [apply plain_take|apply plain_nil]].
      unfold fus. rewrite Nat.mul_1_l. apply plain_take.
    + cbn [concat]. rewrite !app_length, uarr_length. unfold pad. rewrite zeros_length.
      unfold list_sum. cbn [fold_right length]. lia.
  - left. intros n Hn. apply fields_short. exact Hn.
Qed.

Lemma snaps_prop_experimenter t e x (d : bytes) : fits 4 e -> fits 4 x -> (N.of_nat (12 + length d) < 65536)%N ->
  snaps dec_prop_experimenter (enc_prop_experimenter t e x d)
    (followed 12 (fields [4; 4; 4])
       (followed (length d) (fun _ => Fine) (fields [up8 (12 + length d) - (12 + length d)]))).
Proof.
  intros He Hx L. unfold enc_prop_experimenter, dec_prop_experimenter. cbv zeta. rewrite up8_pad.
  replace (4 + length d + 8) with (12 + length d) by lia. rewrite small_len by exact L.
  rewrite (uwrap2 (N.of_nat (12 + length d))) by exact L.
  set (n := 12 + length d) in *.
  assert (E : concat [prop_header t (N.of_nat n); u32 e; u32 x; d; pad (pad_len n)]
    = concat [prop_header t (N.of_nat n); u32 e; u32 x] ++ d ++ pad (pad_len n))
    by (cbn [concat]; rewrite !app_nil_r, <- !app_assoc; reflexivity).
  rewrite E. clear E. apply snaps_local. front_length. eapply snaps_andthen.
  - eapply rt_concat_cons; [apply rt_take; reflexivity|].
    eapply rt_concat_cons; [apply rt_sub, rt_fu, He|].
    eapply rt_concat_cons; [apply rt_sub, rt_fu, Hx|apply rt_concat_nil].
  - apply plain_snaps; [plainly|reflexivity].
  - intro s. cbn [fst snd]. unfold prop_header. rewrite skip_u16, uwrap2 by exact L.
    assert (K : Z.to_nat (Z.of_N (sub16 (N.of_nat n) 12)) = length d) by (rewrite sub16_small by lia; lia).
    apply snaps_then.
    + eapply rt_passes. apply rt_limited; [exact K|apply whole_sub, whole_readall].
    + apply snaps_limited; [lia|]. apply snaps_sub, snaps_readall.
    + rewrite pad16 by exact L. apply plain_snaps; [apply plain_take|]. unfold pad. rewrite zeros_length.
      unfold list_sum. cbn [fold_right]. lia.
  - left. intros k Hk. apply fields_short. exact Hk.
Qed.

Lemma snaps_prop p z : wf_TableProp p -> same_tprop p z ->
  forall n, n <= length (enc_TableProp p) ->
  fail (dec_TableProp z (firstn n (enc_TableProp p))) = told (prop_cut p n)
  /\ (prop_cut p n = Fine -> rest (dec_TableProp z (firstn n (enc_TableProp p))) = []).
Proof.
  intros W K. pose proof (ofptfpt_fits p) as Ht.
  destruct W as [W L]. unfold enc_TableProp. cbv zeta. rewrite prop_type_ofptfpt.
  destruct p as [m l|m l|m l|m l|l|l|m l|m l|m e x d], z; try contradiction K; clear K;
    cbn [prop_len] in L; unfold dec_TableProp, prop_cut, prop_size; cbn [prop_len].
  - unfold enc_prop_instructions. cbv zeta. rewrite small_len by exact L. exact (snaps_prop_types _ l Ht W L _).
  - exact (snaps_prop_tables _ l Ht W L _).
  - exact (snaps_prop_types _ l Ht W L _).
  - exact (snaps_prop_types _ l Ht W L _).
  - exact (snaps_prop_xm _ l Ht W L _).
  - exact (snaps_prop_xm _ l Ht W L _).
  - exact (snaps_prop_xm _ l Ht W L _).
  - exact (snaps_prop_xm _ l Ht W L _).
  - destruct W as [We Wx]. exact (snaps_prop_experimenter _ e x d We Wx L _).
Qed.

Lemma snaps_props l : Forall wf_TableProp l ->
  snaps (scan make_prop dec_TableProp) (concat (map enc_TableProp l)) 
    (elements (map (fun p => (prop_size p, prop_cut p)) l)).
Proof.
  intro W. 
  replace (map (fun p => (prop_size p, prop_cut p)) l) with (map (fun p => (length (enc_TableProp p), prop_cut p)) l).
  2: { apply map_ext_in. rewrite Forall_forall in W. intros a H. rewrite prop_length by auto. reflexivity. }
  apply snaps_scan. intros a Ha. destruct (props_in l W a Ha) as (z0 & _ & H2 & _).
  rewrite Forall_forall in W. specialize (W a Ha).
  destruct (make_prop_tag a) as (z & M & K & _). exists z. split; [exact M|]. split; [exact H2|]. split.
  - intro tl. rewrite prop_rt by assumption. auto.
  - apply snaps_prop; assumption.
Qed.

Lemma snaps_TableFeatures m : wf_TableFeatures m -> snaps dec_TableFeatures (enc_TableFeatures m) (features_cut m).
Proof.
  unfold enc_TableFeatures, dec_TableFeatures. cbv zeta. intros (W1 & W2 & W3 & W4 & W5 & WP & WS).
  rewrite props_length by exact WP. fold (features_size m). split_last 8.
  assert (L64 : forall a b c d e f g : bytes, length a = 2 -> length b = 1 -> length c = 5 -> length d = 32 ->
     length e = 8 -> length f = 8 -> length g = 4 -> forall h : bytes, length h = 4 -> length (concat [a; b; c; d; e; f; g; h]) = 64).
  { intros. cbn [concat]. rewrite !app_length. cbn [length]. lia. }
  apply snaps_local. unfold features_cut.
  match goal with |- snaps _ (?x ++ _) (followed ?n _ _) => assert (L : n = length x) end.
  { symmetry. apply L64; try reflexivity. apply fixtext_length. }
  rewrite (followed_eq _ _ _ _ L). clear L64. eapply snaps_andthen.
  - eapply rt_concat_cons; [apply rt_fu, uwrap_fits|].
    eapply rt_concat_cons; [apply rt_sub; rt_elem|].
    eapply rt_concat_cons; [apply rt_zeros|].
    eapply rt_concat_cons; [apply rt_take, fixtext_length|]. flow_rt.
  - apply plain_snaps; [unfold features_front; plainly|]. rewrite <- L. reflexivity.
  - intros s. rewrite <- L. apply snaps_pre, snaps_limited.
    + cbn [fst snd]. rewrite uwrap2 by exact WS. rewrite props_length by exact WP. unfold features_size. lia.
    + apply snaps_sub, snaps_sub, snaps_props, WP.
  - left. intros n Hn. apply fields_short. rewrite <- L in Hn. exact Hn.
Qed.

(** ** The value read *)
Lemma features_split m : wf_TableFeatures m ->
  exists h, enc_TableFeatures m = h ++ concat (map enc_TableProp (TableFeatures_Properties m)) /\ length h = 64
  /\ forall old tl v n e, length tl <= list_sum (map prop_size (TableFeatures_Properties m)) ->
     scan make_prop dec_TableProp [] tl = Res v n e [] ->
     dec_TableFeatures old (h ++ tl) = Res (set_TableFeatures_Properties v (features_arrive m)) (64 + n) e [].
Proof.
  intros (W1 & W2 & W3 & W4 & W5 & WP & WS). unfold enc_TableFeatures. cbv zeta.
  rewrite props_length by exact WP. fold (features_size m).
  set (buf := concat (map enc_TableProp (TableFeatures_Properties m))).
  eexists. split; [apply (concat_snoc [_; _; _; _; _; _; _; _] buf)|]. split.
  { cbn [concat]. rewrite !app_length, fixtext_length. reflexivity. }
  intros old tl v n e Hl E.
  match goal with |- dec_TableFeatures _ (?x ++ _) = _ => assert (L : length x = 64) end.
  { cbn [concat]. rewrite !app_length, fixtext_length. reflexivity. }
  unfold dec_TableFeatures. 
  apply (with_local_eq _ _ _ _ ((N.of_nat (features_size m), fixtext 32 (TableFeatures_Name m)),
           set_TableFeatures_Properties v (features_arrive m))).
  rewrite <- L. eapply andthen_both.
  - match goal with |- seqr ?fs _ (concat ?l ++ _) = _ => eassert (H : rt (seqr fs) (concat l) _) end; [|apply H].
    eapply rt_concat_cons; [apply rt_fu, uwrap_fits|].
    eapply rt_concat_cons; [apply rt_sub; rt_elem|].
    eapply rt_concat_cons; [apply rt_zeros|].
    eapply rt_concat_cons; [apply rt_take, fixtext_length|]. flow_rt.
  - cbv beta. cbn [fst snd]. unfold pre. cbn [fst snd].
    rewrite L, (uwrap2 (N.of_nat (features_size m))) by exact WS.
    set (k := Z.to_nat (Z.of_N (N.of_nat (features_size m)) - Z.of_nat 64)).
    assert (K : firstn k tl = tl).
    { apply firstn_all2. unfold k. unfold features_size. lia. }
    rewrite <- K in E.
    assert (K' : skipn k tl = []).
    { apply skipn_all2. unfold k, features_size. lia. }
    etransitivity; [apply limited_eq; eapply (sub_eq snd); eapply (sub_eq TableFeatures_Properties); exact E|].
    fold k. rewrite K'. cbn [app]. f_equal. unfold features_arrive. rewrite <- fixtext_name.
    destruct old. reflexivity.
Qed.

Lemma scan_partial l1 p k z q c e : Forall wf_TableProp l1 ->
  make_prop (be_dec (firstn 2 (enc_TableProp p))) = MkOk z -> 2 <= k -> k <= length (enc_TableProp p) ->
  dec_TableProp z (firstn k (enc_TableProp p)) = Res q c e [] -> e = None \/ e = Some EOF ->
  scan make_prop dec_TableProp [] (concat (map enc_TableProp l1) ++ firstn k (enc_TableProp p))
  = Res (map prop_arrives l1 ++ [q]) (list_sum (map prop_size l1) + c) None [].
Proof.
  intros W M K2 Kl D He. unfold scan. pose proof (length_props l1) as P.
  rewrite (scan_loop_arrives make_prop dec_TableProp enc_TableProp prop_arrives l1 (props_in l1 W))
    by (rewrite app_length; lia).
  rewrite <- props_length by exact W. cbv zeta. rewrite app_length.
  assert (L : length (firstn k (enc_TableProp p)) = k) by (rewrite firstn_length; lia). rewrite L.
  set (a := length (concat (map enc_TableProp l1))) in *.
  replace (S (a + k) - length l1) with (S (S (a + k - length l1 - 1))) by lia.
  generalize (a + k - length l1 - 1) as fuel. intro fuel.
  remember (S fuel) as fuel'. cbn [scan_loop]. rewrite L. destruct (Nat.ltb_spec k 2); [lia|].
  assert (T : firstn 2 (firstn k (enc_TableProp p)) = firstn 2 (enc_TableProp p))
    by (rewrite firstn_firstn, Nat.min_l by lia; reflexivity).
  rewrite T, M, D. cbn [fail val rest cnt app].
  destruct He as [->| ->]; cbn [fail val rest cnt skip_eof]; [|reflexivity].
  subst fuel'. cbn. rewrite Nat.add_0_r. reflexivity.
Qed.

Lemma features_partial m old l1 p l2 k z q e : wf_TableFeatures m ->
  TableFeatures_Properties m = l1 ++ p :: l2 ->
  make_prop (be_dec (firstn 2 (enc_TableProp p))) = MkOk z -> 2 <= k -> k <= length (enc_TableProp p) ->
  dec_TableProp z (firstn k (enc_TableProp p)) = Res q k e [] -> e = None \/ e = Some EOF ->
  dec_TableFeatures old (firstn (behind l1 + k) (enc_TableFeatures m))
  = Res (arrives_with (map prop_arrives l1 ++ [q]) m) (behind l1 + k) None [].
Proof.
  intros W E M K2 Kl D He. destruct (features_split m W) as (h & Eh & Lh & H).
  pose proof W as (_ & _ & _ & _ & _ & WP & _). rewrite E in WP. rewrite Forall_app in WP. destruct WP as [W1 Wp].
  inversion Wp as [|? ? Wp' Wl2]; subst.
  assert (B : firstn (behind l1 + k) (enc_TableFeatures m)
              = h ++ concat (map enc_TableProp l1) ++ firstn k (enc_TableProp p)).
  { rewrite Eh, E. unfold behind. rewrite firstn_behind by lia. f_equal.
    rewrite map_app, concat_app. cbn [map concat]. rewrite firstn_behind by (rewrite props_length by exact W1; lia).
    f_equal. rewrite props_length by exact W1.
    replace (_ - _ - _) with k by lia. rewrite firstn_app. replace (k - length (enc_TableProp p)) with 0 by lia.
    apply app_nil_r. }
  rewrite B. unfold behind. rewrite <- Nat.add_assoc.
  apply H; [|apply (scan_partial l1 p k z q k e W1 M K2 Kl D He)].
  rewrite E, map_app, list_sum_app. cbn [map]. rewrite app_length, props_length by exact W1.
  unfold list_sum at 3. cbn [fold_right]. rewrite firstn_length, <- prop_length by exact Wp'. lia.
Qed.

(** ** The value of a property that is cut *)
Lemma prop_body_cut f t n body z v : fits 2 t -> (N.of_nat (4 + n) < 65536)%N -> length body <= n ->
  f (set_miss (N.testbit t 0) z) body = Res v (length body) None [] ->
  exists e, prop_body f z (prop_header t (uwrap 2 (N.of_nat (4 + n))) ++ body) = Res v (4 + length body) e []
    /\ (e = None \/ e = Some EOF).
Proof.
  intros Ht Hn Hl H. unfold prop_body. set (k := Z.to_nat (Z.of_N (sub16 (N.of_nat (4 + n)) 4))).
  assert (K : k = n) by (apply sub16_4, Hn).
  assert (E1 : firstn k body = body) by (apply firstn_all2; lia).
  assert (E2 : skipn k body = []) by (apply skipn_all2; lia).
  set (p := pad_len (4 + n)).
  exists (if 0 <? p then Some EOF else None). split; [|destruct (0 <? p); auto].
  apply (with_local_eq _ _ _ _ (N.of_nat (4 + n), v)).
  eapply (andthen_both _ _ _ _ _ 4); [apply (rt_prop_head t (4 + n) Ht Hn)|]. cbv beta. cbn [fst snd].
  replace (length body) with (length body + 0) by lia. rewrite Nat2N.id. fold p.
  eapply andthen_both.
  - rewrite <- E1 in H at 1. etransitivity; [apply limited_eq; eapply (sub_eq snd); exact H|].
    fold k. rewrite E2. reflexivity.
  - unfold fpad, take_full. cbn [app length fst snd]. destruct (0 <? p) eqn:P; [reflexivity|].
    apply Nat.ltb_ge in P. assert (p = 0) as -> by lia. reflexivity.
Qed.

Lemma xm_prop_cut t l z n : fits 2 t -> Forall names_field l -> (N.of_nat (4 + 4 * length l) < 65536)%N ->
  n <= 4 * length l -> exists e,
  dec_prop_xm z (firstn (4 + n) (enc_prop_xm t l))
  = Res (set_xms (firstn (n / 4) l) (set_miss (N.testbit t 0) z)) (4 + n) e [] /\ (e = None \/ e = Some EOF).
Proof.
  intros Ht W L Hn. unfold enc_prop_xm. cbv zeta.
  assert (B : firstn (4 + n) (concat [prop_header t (uwrap 2 (N.of_nat (4 + 4 * length l)));
     concat (map enc_XM l); pad (pad_len (4 + 4 * length l))])
    = prop_header t (uwrap 2 (N.of_nat (4 + 4 * length l))) ++ firstn n (concat (map enc_XM l))).
  { cbn [concat]. rewrite firstn_behind by (cbn; lia).
    replace (4 + n - _) with n by (cbn; lia). f_equal. rewrite firstn_app, names_total by exact W.
    replace (n - 4 * length l) with 0 by lia. apply app_nil_r. }
  rewrite B.
  assert (Lb : length (firstn n (concat (map enc_XM l))) = n) by (rewrite firstn_length, names_total by exact W; lia).
  edestruct (prop_body_cut (pre (set_xms []) (sub get_xms set_xms (read_all_xm false))) t (4 * length l)
    (firstn n (concat (map enc_XM l))) z) as (e & E & He); [exact Ht|exact L|lia|rewrite Lb; apply names_cut; assumption|].
  exists e. split; [|exact He]. unfold dec_prop_xm. rewrite E, Lb. reflexivity.
Qed.

(** Instructions and actions. *)
Lemma bare_loop l : Forall (fits 2) l -> forall fuel p n, n < fuel -> n <= 4 * length l -> n mod 2 = 0 ->
  readfunc_loop fuel 0%N dec_bare (fun t p => set_types (get_types p ++ [t]) p) p (firstn n (bare l))
  = Res (set_types (get_types p ++ firstn (n / 4) l) p) n None [].
Proof.
  unfold bare. induction 1 as [|t l Wt W IH]; intros fuel p n F Hn E; (destruct fuel as [|fuel]; [lia|]); cbn [map concat].
  - assert (n = 0) as -> by (cbn in Hn; lia). cbn [firstn readfunc_loop]. rewrite app_nil_r.
    destruct p; reflexivity.
  - assert (L4 : length (u16 t ++ u16 4) = 4) by reflexivity. cbn [length] in Hn.
    destruct (Nat.lt_ge_cases n 4) as [K|K].
    + rewrite firstn_before by lia. assert (n / 4 = 0) as -> by lia. cbn [firstn]. rewrite app_nil_r.
      assert (n = 0 \/ n = 2) as [-> | ->] by lia; destruct p; reflexivity.
    + rewrite firstn_behind by lia. cbn [readfunc_loop]. rewrite !(rt_bare t Wt). cbn [fail val rest cnt].
      rewrite L4, IH by lia. cbn [fail val rest cnt].
      assert (n / 4 = S ((n - 4) / 4)) as -> by lia. cbn [firstn].
      f_equal; [|lia]. destruct p; cbn [set_types get_types]; rewrite <- ?app_assoc; reflexivity.
Qed.

Lemma types_cut l old n : Forall (fits 2) l -> n <= 4 * length l -> n mod 2 = 0 ->
  (pre (set_types []) (readfunc 0%N dec_bare (fun t p => set_types (get_types p ++ [t]) p))) old (firstn n (bare l))
  = Res (set_types (firstn (n / 4) l) old) n None [].
Proof.
  intros W Hn E. unfold pre, readfunc.
  assert (L : length (firstn n (bare l)) = n) by (rewrite firstn_length, bare_length; lia).
  rewrite L, bare_loop by (assumption || lia). f_equal. destruct old; reflexivity.
Qed.

Lemma types_prop_cut t l z n : fits 2 t -> Forall (fits 2) l -> (N.of_nat (4 + 4 * length l) < 65536)%N ->
  n <= 4 * length l -> n mod 2 = 0 -> exists e,
  dec_prop_types z (firstn (4 + n) (enc_prop_actions t l))
  = Res (set_types (firstn (n / 4) l) (set_miss (N.testbit t 0) z)) (4 + n) e [] /\ (e = None \/ e = Some EOF).
Proof.
  intros Ht W L Hn E. unfold enc_prop_actions. cbv zeta.
  assert (B : firstn (4 + n) (concat [prop_header t (uwrap 2 (N.of_nat (4 + 4 * length l)));
     bare l; pad (pad_len (4 + 4 * length l))])
    = prop_header t (uwrap 2 (N.of_nat (4 + 4 * length l))) ++ firstn n (bare l)).
  { cbn [concat]. rewrite firstn_behind by (cbn; lia).
    replace (4 + n - _) with n by (cbn; lia). f_equal. rewrite firstn_app, bare_length.
    replace (n - 4 * length l) with 0 by lia. apply app_nil_r. }
  rewrite B.
  assert (Lb : length (firstn n (bare l)) = n) by (rewrite firstn_length, bare_length; lia).
  edestruct (prop_body_cut (pre (set_types []) (readfunc 0%N dec_bare (fun t p => set_types (get_types p ++ [t]) p))) t
    (4 * length l) (firstn n (bare l)) z) as (e & E' & He); [exact Ht|exact L|lia|rewrite Lb; apply types_cut; assumption|].
  exists e. split; [|exact He]. unfold dec_prop_types. rewrite E', Lb. reflexivity.
Qed.

(** The data of an experimenter. *)
Lemma experimenter_prop_cut t e x (d : bytes) z n : fits 4 e -> fits 4 x -> (N.of_nat (12 + length d) < 65536)%N ->
  n <= length d -> exists o,
  dec_prop_experimenter z (firstn (12 + n) (enc_prop_experimenter t e x d))
  = Res (set_prop_data (firstn n d) (set_prop_exptype x (set_prop_experimenter e z))) (12 + n) o []
  /\ (o = None \/ o = Some EOF).
Proof.
  intros He Hx L Hn. unfold enc_prop_experimenter, dec_prop_experimenter. cbv zeta.
  replace (4 + length d + 8) with (12 + length d) by lia. rewrite small_len by exact L.
  rewrite (uwrap2 (N.of_nat (12 + length d))) by exact L.
  set (k := 12 + length d) in *.
  assert (E : firstn (12 + n) (concat [prop_header t (N.of_nat k); u32 e; u32 x; d; pad (pad_len k)])
    = concat [prop_header t (N.of_nat k); u32 e; u32 x] ++ firstn n d).
  { assert (E : concat [prop_header t (N.of_nat k); u32 e; u32 x; d; pad (pad_len k)]
      = concat [prop_header t (N.of_nat k); u32 e; u32 x] ++ d ++ pad (pad_len k))
      by (cbn [concat]; rewrite !app_nil_r, <- !app_assoc; reflexivity).
    rewrite E, firstn_behind by (cbn; lia). replace (12 + n - _) with n by (cbn; lia). f_equal.
    rewrite firstn_app. replace (n - length d) with 0 by lia. apply app_nil_r. }
  rewrite E. clear E. set (p := pad_len k).
  assert (K : Z.to_nat (Z.of_N (sub16 (N.of_nat k) 12)) = length d) by (rewrite sub16_small by lia; lia).
  assert (E1 : firstn (length d) (firstn n d) = firstn n d) by (apply firstn_all2; rewrite firstn_length; lia).
  assert (E2 : skipn (length d) (firstn n d) = []) by (apply skipn_all2; rewrite firstn_length; lia).
  assert (Ln : length (firstn n d) = n) by (rewrite firstn_length; lia).
  exists (if 0 <? p then Some EOF else None). split; [|destruct (0 <? p); auto].
  apply (with_local_eq _ _ _ _ (N.of_nat k, set_prop_data (firstn n d) (set_prop_exptype x (set_prop_experimenter e z)))).
  eapply (andthen_both _ _ _ _ _ 12).
  - match goal with |- seqr ?fs _ (concat ?l ++ _) = _ => eassert (H : rt (seqr fs) (concat l) _) end; [|apply H].
    eapply rt_concat_cons; [apply rt_take; reflexivity|].
    eapply rt_concat_cons; [apply rt_sub, rt_fu, He|].
    eapply rt_concat_cons; [apply rt_sub, rt_fu, Hx|apply rt_concat_nil].
  - cbv beta. cbn [fst snd]. unfold prop_header. rewrite skip_u16, uwrap2 by exact L.
    rewrite pad16 by exact L. fold p. replace n with (n + 0) at 3 by lia. eapply andthen_both.
    + etransitivity; [apply limited_eq; rewrite K, E1; eapply (sub_eq snd); reflexivity|].
      rewrite K, E2, Ln. reflexivity.
    + unfold fpad, take_full. cbn [app length fst snd]. destruct (0 <? p) eqn:P; [reflexivity|].
      apply Nat.ltb_ge in P. assert (p = 0) as -> by lia. reflexivity.
Qed.

(** The list of tables. *)
Lemma tables_prop_cut t l z : fits 2 t -> Forall (fits 1) l -> (N.of_nat (4 + length l) < 65536)%N -> l <> [] ->
  dec_prop_tables z (firstn 4 (enc_prop_tables t l))
  = Res (set_types (repeat 0%N (length l)) (set_miss (N.testbit t 0) z)) 4 (Some EOF) [].
Proof.
  intros Ht W L Nl. unfold enc_prop_tables, dec_prop_tables. cbv zeta.
  assert (B : firstn 4 (concat [prop_header t (uwrap 2 (N.of_nat (4 + length l))); uarr 1 l; pad (pad_len (4 + length l))])
    = prop_header t (uwrap 2 (N.of_nat (4 + length l))) ++ []).
  { cbn [concat]. rewrite firstn_behind by (cbn; lia). f_equal. }
  rewrite B.
  assert (K : N.to_nat (sub16 (N.of_nat (4 + length l)) 4) = length l) by (rewrite sub16_small by lia; lia).
  apply (with_local_eq _ _ _ _ (N.of_nat (4 + length l), set_types (repeat 0%N (length l)) (set_miss (N.testbit t 0) z))).
  etransitivity; [eapply (andthen_both _ _ _ _ _ 4); [apply (rt_prop_head t (4 + length l) Ht L)|]|].
  - cbv beta. cbn [fst snd]. unfold pre. rewrite K. cbn [fst snd]. apply seqr_err.
    unfold fus, take_full. rewrite Nat.mul_1_l. cbn [length]. destruct l; [contradiction|]. reflexivity.
  - reflexivity.
Qed.
