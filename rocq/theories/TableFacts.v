(** Proofs about table features and their properties. *)
From Verif Require Export ListFacts TableModel.
From Verif Require Export ActionSpec TableSpec.
Ltac Zify.zify_post_hook ::= Z.div_mod_to_equations.

(** ** Layouts *)
Lemma prop_type_ofptfpt p : prop_type p = ofptfpt p.
Proof. destruct p; try destruct miss; reflexivity. Qed.

Lemma ofptfpt_fits p : fits 2 (ofptfpt p).
Proof. destruct p; try destruct miss; reflexivity. Qed.

Lemma header_lays t n : lays (prop_header t (uwrap 2 (N.of_nat n))) 4 [(0, Num 2 t); (2, Num 2 (N.of_nat n))].
Proof.
  split; [repeat constructor|split; [reflexivity|]].
  cbn [map snd render concat]. unfold prop_header, u16. rewrite be_enc_uwrap, app_nil_r. reflexivity.
Qed.

Lemma pad_lays n : lays (pad n) n [(0, Zero n)].
Proof.
  split; [repeat constructor|split; [cbn; apply Nat.eqb_refl|]].
  cbn [map snd render concat]. rewrite app_nil_r. reflexivity.
Qed.

(** A header, a body and the padding. *)
Lemma three_lays t body k lay (e : bytes) :
  lays body k lay ->
  e = concat [prop_header t (uwrap 2 (N.of_nat (4 + k))); body; pad (pad_len (4 + k))] ->
  lays e (up8 (4 + k))
    ([(0, Num 2 t); (2, Num 2 (N.of_nat (4 + k)))] ++ shift 4 lay ++ [(4 + k, Zero (up8 (4 + k) - (4 + k)))]).
Proof.
  intros L ->. pose proof (up8_ge (4 + k)) as U.
  assert (E : [(4 + k, Zero (up8 (4 + k) - (4 + k)))] = shift 4 (shift k [(0, Zero (up8 (4 + k) - (4 + k)))])).
  { rewrite shift_shift. unfold shift. cbn [map fst snd]. rewrite Nat.add_0_r. reflexivity. }
  rewrite E, <- shift_app. rewrite <- up8_pad. set (q := up8 (4 + k) - (4 + k)) in *.
  assert (Q : up8 (4 + k) = 4 + (k + q)) by lia. clearbody q. rewrite Q. clear Q U E.
  cbn [concat]. rewrite app_nil_r. apply lays_app; [apply header_lays|].
  apply lays_app; [exact L|apply pad_lays].
Qed.

Lemma bare_lays l : lays (bare l) (4 * length l)
  (one_after_another (fun _ => 4) (fun t => [(0, Num 2 t); (2, Num 2 4)]) 0 l).
Proof. rewrite <- list_sum_const. apply lays_list. intros a _. lay_table. Qed.

Lemma bytes_lays l : lays (uarr 1 l) (length l)
  (one_after_another (fun _ => 1) (fun t => [(0, Num 1 t)]) 0 l).
Proof.
  rewrite <- (Nat.mul_1_l (length l)), <- list_sum_const. apply (lays_list _ _ (be_enc 1)). intros a _. lay_table.
Qed.

Lemma names_wf x : names_field x -> wf_XM x.
Proof. intros (H1 & H2 & H3 & H4). unfold wf_XM. rewrite H3, H4. cbn. repeat split; auto. lia. Qed.

Lemma names_enc x : names_field x ->
  enc_XM x = be_enc 2 (XM_Class x) ++ be_enc 1 (2 * XM_Type x) ++ be_enc 1 0.
Proof.
  intro W. rewrite (enc_XM_eq x (names_wf x W)). destruct W as (_ & _ & V & M). unfold has_mask.
  rewrite V, M. cbn [length]. rewrite !app_nil_r. cbn [Nat.add N.of_nat]. rewrite N.add_0_r. reflexivity.
Qed.

Lemma names_length x : names_field x -> length (enc_XM x) = 4.
Proof. intro W. rewrite names_enc by exact W. rewrite !app_length, !be_enc_length. reflexivity. Qed.

Lemma names_lays l : Forall names_field l -> lays (concat (map enc_XM l)) (4 * length l)
  (one_after_another (fun _ => 4)
     (fun x => [(0, Num 2 (XM_Class x)); (2, Num 1 (2 * XM_Type x)); (3, Num 1 0)]) 0 l).
Proof.
  intro W. rewrite <- list_sum_const. apply lays_list. rewrite Forall_forall in W. intros a Ha.
  rewrite names_enc by apply W, Ha. lay_table.
Qed.

Lemma experimenter_prop_lays e x d : lays (u32 e ++ u32 x ++ d) (8 + length d)
  [(0, Num 4 e); (4, Num 4 x); (8, Raw (length d) d)].
Proof.
  rewrite app_assoc.
  apply (lays_app (u32 e ++ u32 x) 8 [(0, Num 4 e); (4, Num 4 x)] d _ [(0, Raw _ d)]); [lay_table|apply lays_raw].
Qed.

Lemma oaa_at {A} size lay k (l : list A) :
  one_after_another size lay k l = shift k (one_after_another size lay 0 l).
Proof. rewrite <- oaa_shift, Nat.add_0_r. reflexivity. Qed.

Lemma small_len n : (N.of_nat n < 65536)%N -> N.to_nat (uwrap 2 (N.of_nat n)) = n.
Proof. intro H. rewrite uwrap2 by exact H. lia. Qed.

Lemma prop_lays p : wf_TableProp p -> lays (enc_TableProp p) (prop_size p) (prop_layout p).
Proof.
  intros [W L]. unfold enc_TableProp, prop_size, prop_layout. cbv zeta. rewrite prop_type_ofptfpt.
  generalize (ofptfpt p) as t. intro t.
  destruct p; cbn [prop_len] in *; rewrite ?(oaa_at _ _ 4).
  - apply (three_lays t (bare l)); [apply bare_lays|]. unfold enc_prop_instructions. rewrite small_len by exact L. reflexivity.
  - apply (three_lays t (uarr 1 l)); [apply bytes_lays|reflexivity].
  - apply (three_lays t (bare l)); [apply bare_lays|reflexivity].
  - apply (three_lays t (bare l)); [apply bare_lays|reflexivity].
  - apply (three_lays t (concat (map enc_XM l))); [apply names_lays, W|reflexivity].
  - apply (three_lays t (concat (map enc_XM l))); [apply names_lays, W|reflexivity].
  - apply (three_lays t (concat (map enc_XM l))); [apply names_lays, W|reflexivity].
  - apply (three_lays t (concat (map enc_XM l))); [apply names_lays, W|reflexivity].
  - apply (three_lays t (u32 experimenter ++ u32 exptype ++ d) (8 + length d)
      [(0, Num 4 experimenter); (4, Num 4 exptype); (8, Raw (length d) d)]); [apply experimenter_prop_lays|].
    unfold enc_prop_experimenter. rewrite (Nat.add_comm (4 + length d) 8).
    change (8 + (4 + length d)) with (4 + (8 + length d)). cbv zeta.
    rewrite small_len by exact L. cbn [concat]. rewrite !app_nil_r, <- !app_assoc. reflexivity.
Qed.

Lemma prop_length p : wf_TableProp p -> length (enc_TableProp p) = prop_size p.
Proof. intro W. apply (lays_length _ _ _ (prop_lays p W)). Qed.

(** ** Round trips *)
Lemma first_u16 a b : be_dec (firstn 2 (u16 a ++ b)) = uwrap 2 a.
Proof. unfold u16. rewrite firstn_app_len by apply be_enc_length. apply be_dec_enc. Qed.

Lemma rt_prop_head t n : fits 2 t -> (N.of_nat n < 65536)%N ->
  rt prop_head (prop_header t (uwrap 2 (N.of_nat n)))
    (fun s => (N.of_nat n, set_miss (N.testbit t 0) (snd s))).
Proof.
  intros Ht Hn. eapply rt_ext; cycle 1; [apply rt_take; reflexivity|].
  intro s. cbv beta. unfold prop_header. rewrite skip_u16, first_u16, (uwrap_small 2 t Ht), !uwrap2 by (rewrite ?uwrap2; exact Hn).
  reflexivity.
Qed.

Lemma sub16_4 k : (N.of_nat (4 + k) < 65536)%N -> Z.to_nat (Z.of_N (sub16 (N.of_nat (4 + k)) 4)) = k.
Proof. intro H. rewrite sub16_small by lia. lia. Qed.

Lemma rt_prop_body f t body g : fits 2 t -> (N.of_nat (4 + length body) < 65536)%N -> whole f body g ->
  rt (prop_body f)
    (concat [prop_header t (uwrap 2 (N.of_nat (4 + length body))); body; pad (pad_len (4 + length body))])
    (fun p => g (set_miss (N.testbit t 0) p)).
Proof.
  intros Ht Hl H. unfold prop_body. cbn [concat]. rewrite app_nil_r.
  eapply rt_ext; cycle 1.
  - apply rt_with_local, rt_andthen; [apply rt_prop_head; assumption|].
    intro s. cbn [fst snd]. apply rt_andthen.
    + apply rt_limited; [apply sub16_4, Hl|]. apply whole_sub, H.
    + intros s'. rewrite Nat2N.id. apply rt_zeros.
  - intro p. reflexivity.
Qed.

Lemma rt_bare t : fits 2 t -> rt dec_bare (u16 t ++ u16 4) (fun _ => t).
Proof.
  intro W. rewrite <- (app_nil_r (u16 4)). eapply rt_ext; cycle 1.
  - apply rt_cons; [apply rt_fu, W|]. apply rt_cons; [apply rt_fpad; reflexivity|apply rt_nil].
  - reflexivity.
Qed.

Lemma types_fold l p :
  fold_left (fun p t => set_types (get_types p ++ [t]) p) l p = set_types (get_types p ++ l) p.
Proof.
  revert p. induction l as [|t l IH]; intro p; cbn [fold_left].
  - rewrite app_nil_r. destruct p; reflexivity.
  - rewrite IH. destruct p; cbn [set_types get_types]; rewrite <- ?app_assoc; reflexivity.
Qed.

Lemma types_whole l : Forall (fits 2) l ->
  whole (pre (set_types []) (readfunc 0%N dec_bare (fun t p => set_types (get_types p ++ [t]) p)))
    (bare l) (set_types l).
Proof.
  intro W. eapply whole_ext; cycle 1.
  - apply whole_pre. intro s. unfold readfunc, bare.
    apply (readfunc_loop_list 0%N dec_bare (fun t p => set_types (get_types p ++ [t]) p)
             (fun t => u16 t ++ u16 4) (fun t => t) l).
    + reflexivity.
    + rewrite Forall_forall in W. intros a Ha. split; [rewrite app_length; unfold u16; rewrite !be_enc_length; lia|].
      intro tl. apply rt_bare, W, Ha.
    + apply Nat.lt_succ_diag_r.
  - intro p. cbv beta. rewrite types_fold. destruct p; reflexivity.
Qed.

(** Headers of entries. *)
Lemma firstn_zeros k n : k <= n -> firstn k (zeros n) = zeros k.
Proof.
  intro H. unfold zeros. replace n with (k + (n - k)) by lia. rewrite repeat_app.
  apply firstn_app_len, repeat_length.
Qed.
Lemma skipn_zeros k n : k <= n -> skipn k (zeros n) = zeros (n - k).
Proof.
  intro H. unfold zeros. replace n with (k + (n - k)) at 1 by lia. rewrite repeat_app.
  apply skipn_app_len, repeat_length.
Qed.

Lemma dec_id i old tl : wf_field_id i ->
  dec_xm false old (field_id_bytes i ++ tl) = Res (field_id_read i) 4 None tl.
Proof.
  intros (H1 & H2 & H3). unfold field_id_bytes. rewrite be_enc_2, !be_enc_1. cbn [app].
  unfold dec_xm. apply (with_local_eq _ _ _ _ (Byte.to_N (byte_of_N (id_len i)), field_id_read i)).
  eapply (andthen_both _ _ _ _ _ 4 _ _ 0); [apply xm_header|]. cbv beta zeta. cbn [fst snd XM_Type].
  set (f := byte_of_N (2 * id_field i + N.b2n (id_masked i))).
  set (n := byte_of_N (id_len i)).
  assert (Ef : Byte.to_N f = (2 * id_field i + N.b2n (id_masked i))%N).
  { unfold f. rewrite to_N_byte_of_N. destruct (id_masked i); cbn [N.b2n]; apply N.mod_small; lia. }
  assert (En : Byte.to_N n = id_len i).
  { unfold n. rewrite to_N_byte_of_N. apply N.mod_small, H3. }
  rewrite Ef, En. clearbody f n.
  assert (Ec : be_dec [byte_of_N (id_class i / 256); byte_of_N (id_class i)] = id_class i).
  { rewrite <- be_enc_2. apply be_dec_enc_fits. exact H1. }
  rewrite Ec.
  assert (Et : N.testbit (2 * id_field i + N.b2n (id_masked i)) 0 = id_masked i).
  { rewrite testbit0. destruct (id_masked i); cbn [N.b2n].
    - rewrite N.even_add, N.even_mul. reflexivity.
    - rewrite N.add_0_r, N.even_mul. reflexivity. }
  rewrite Et.
  assert (Es : N.shiftr (2 * id_field i + N.b2n (id_masked i)) 1 = id_field i).
  { rewrite N.shiftr_div_pow2. change (2 ^ 1)%N with 2%N. destruct (id_masked i); cbn [N.b2n]; lia. }
  unfold sub, pre. cbn [snd fst]. unfold set_XM_Type. cbn [XM_Class XM_Type XM_Value XM_Mask]. rewrite Es.
  unfold field_id_read. destruct (id_masked i); [|reflexivity].
  unfold andthen, assign. cbn [fail val rest cnt fst snd]. unfold halve, set_XM_Value, set_XM_Mask.
  cbn [XM_Class XM_Type XM_Value XM_Mask].
  set (k := N.to_nat (id_len i)). assert (Hk : k / 2 + k / 2 <= k) by lia.
  rewrite firstn_zeros, skipn_zeros, firstn_zeros by lia. 
  reflexivity.
Qed.

(** Lists of headers of entries. *)
Lemma id_bytes_length i : length (field_id_bytes i) = 4.
Proof. unfold field_id_bytes. rewrite !app_length, !be_enc_length. reflexivity. Qed.

Lemma ids_length l : length (concat (map field_id_bytes l)) = 4 * length l.
Proof.
  induction l as [|i l IH]; [reflexivity|]. cbn [map concat length]. rewrite app_length, id_bytes_length, IH. lia.
Qed.

Lemma xm_loop_ids l : Forall wf_field_id l -> forall fuel acc, 4 * length l < fuel ->
  xm_loop fuel false acc (concat (map field_id_bytes l)) = (acc ++ map field_id_read l, None).
Proof.
  induction 1 as [|i l W _ IH]; intros fuel acc F; (destruct fuel as [|fuel]; [lia|]); cbn [xm_loop map concat].
  - cbn [length Nat.ltb Nat.leb]. rewrite app_nil_r. reflexivity.
  - rewrite app_length, id_bytes_length. cbn [Nat.add Nat.ltb Nat.leb].
    rewrite dec_id by exact W. cbn [fail val rest]. rewrite IH by (cbn [length] in F; lia).
    rewrite <- app_assoc. reflexivity.
Qed.

Lemma ids_whole l : Forall wf_field_id l ->
  whole (pre (set_xms []) (sub get_xms set_xms (read_all_xm false)))
    (concat (map field_id_bytes l)) (set_xms (map field_id_read l)).
Proof.
  intro W. eapply whole_ext; cycle 1.
  - apply whole_pre, whole_sub. intro s. unfold read_all_xm.
    rewrite (xm_loop_ids l W) by (rewrite ids_length; lia). reflexivity.
  - intro p. destruct p; reflexivity.
Qed.

(** The header of an entry without value. *)
Definition bare_id (x : XM) : field_id := MkFieldId (XM_Class x) (XM_Type x) false 0.

Lemma bare_ids l : Forall names_field l ->
  concat (map enc_XM l) = concat (map field_id_bytes (map bare_id l))
  /\ map field_id_read (map bare_id l) = l /\ Forall wf_field_id (map bare_id l).
Proof.
  induction 1 as [|x l W _ (E1 & E2 & E3)]; [repeat constructor|]. cbn [map concat].
  rewrite E1, E2, names_enc by exact W. destruct W as (H1 & H2 & H3 & H4). split; [|split].
  - unfold field_id_bytes, bare_id. cbn [id_class id_field id_masked id_len N.b2n]. rewrite N.add_0_r. reflexivity.
  - f_equal. unfold field_id_read, bare_id. cbn. destruct x. cbn in *. subst. reflexivity.
  - constructor; [|exact E3]. repeat split; assumption.
Qed.

Lemma names_whole l : Forall names_field l ->
  whole (pre (set_xms []) (sub get_xms set_xms (read_all_xm false))) (concat (map enc_XM l)) (set_xms l).
Proof. intro W. destruct (bare_ids l W) as (E1 & E2 & E3). pose proof (ids_whole _ E3) as H. rewrite E2 in H. rewrite E1. exact H. Qed.

Lemma names_total l : Forall names_field l -> length (concat (map enc_XM l)) = 4 * length l.
Proof. intro W. apply (lays_length _ _ _ (names_lays l W)). Qed.

Lemma bare_length l : length (bare l) = 4 * length l.
Proof. apply (lays_length _ _ _ (bare_lays l)). Qed.

(** By [rt] for a given receiver. *)
Lemma rt_at {S} (f : step S) bs g s x n tl : rt f bs g -> g s = x -> length bs = n ->
  f s (bs ++ tl) = Res x n None tl.
Proof. intros R <- <-. apply R. Qed.

Lemma rt_types t l : fits 2 t -> Forall (fits 2) l -> (N.of_nat (4 + 4 * length l) < 65536)%N ->
  rt dec_prop_types (enc_prop_actions t l) (fun p => set_types l (set_miss (N.testbit t 0) p)).
Proof.
  intros Ht W L. unfold enc_prop_actions, dec_prop_types. cbv zeta. rewrite <- bare_length in *.
  apply rt_prop_body; [exact Ht|exact L|]. apply types_whole, W.
Qed.

Lemma rt_xms t l : fits 2 t -> Forall names_field l -> (N.of_nat (4 + 4 * length l) < 65536)%N ->
  rt dec_prop_xm (enc_prop_xm t l) (fun p => set_xms l (set_miss (N.testbit t 0) p)).
Proof.
  intros Ht W L. unfold enc_prop_xm, dec_prop_xm. cbv zeta. rewrite <- (names_total l W) in *.
  apply rt_prop_body; [exact Ht|exact L|]. apply names_whole, W.
Qed.

Lemma rt_tables t l : fits 2 t -> Forall (fits 1) l -> (N.of_nat (4 + length l) < 65536)%N ->
  rt dec_prop_tables (enc_prop_tables t l) (fun p => set_types l (set_miss (N.testbit t 0) p)).
Proof.
  intros Ht W L. unfold enc_prop_tables, dec_prop_tables. cbv zeta.
  change (concat [prop_header t (uwrap 2 (N.of_nat (4 + length l))); uarr 1 l; pad (pad_len (4 + length l))])
    with (prop_header t (uwrap 2 (N.of_nat (4 + length l))) ++ concat [uarr 1 l; pad (pad_len (4 + length l))]).
  eapply rt_ext; cycle 1.
  - apply rt_with_local, rt_andthen; [apply rt_prop_head; assumption|].
    intro s. cbn [fst snd]. apply rt_pre. eapply rt_concat_cons; [apply rt_fus; [|exact W]|].
    + rewrite sub16_small by lia. lia.
    + eapply rt_concat_cons; [|apply rt_concat_nil]. rewrite Nat2N.id. apply rt_zeros.
  - intro p. destruct p; reflexivity.
Qed.

Lemma pad16 n : (N.of_nat n < 65536)%N ->
  N.to_nat (sub16 (uwrap 2 (N.of_nat n + 7) / 8 * 8) (N.of_nat n)) = pad_len n.
Proof.
  intro H. unfold sub16, uwrap, pad_len. change (256 ^ N.of_nat 2)%N with 65536%N. lia.
Qed.

Lemma rt_experimenter t e x (d : bytes) : fits 4 e -> fits 4 x -> (N.of_nat (12 + length d) < 65536)%N ->
  rt dec_prop_experimenter (enc_prop_experimenter t e x d)
    (fun p => set_prop_data d (set_prop_exptype x (set_prop_experimenter e p))).
Proof.
  intros He Hx L. unfold enc_prop_experimenter, dec_prop_experimenter. cbv zeta.
  replace (4 + length d + 8) with (12 + length d) by lia. rewrite small_len by exact L.
  rewrite (uwrap2 (N.of_nat (12 + length d))) by exact L.
  set (n := 12 + length d) in *.
  assert (E : concat [prop_header t (N.of_nat n); u32 e; u32 x; d; pad (pad_len n)]
    = concat [prop_header t (N.of_nat n); u32 e; u32 x] ++ d ++ pad (pad_len n))
    by (cbn [concat]; rewrite !app_nil_r, <- !app_assoc; reflexivity).
  rewrite E. clear E. eapply rt_ext; cycle 1.
  - apply rt_with_local, rt_andthen.
    + eapply rt_concat_cons; [apply rt_take; reflexivity|].
      eapply rt_concat_cons; [apply rt_sub, rt_fu, He|].
      eapply rt_concat_cons; [apply rt_sub, rt_fu, Hx|apply rt_concat_nil].
    + intro s. cbn [fst snd]. unfold prop_header. rewrite skip_u16, uwrap2 by exact L.
      apply rt_andthen.
      * apply rt_limited; [|apply whole_sub, whole_readall]. rewrite sub16_small by lia. lia.
      * intros s'. rewrite pad16 by exact L. apply rt_zeros.
  - intro p. destruct p; reflexivity.
Qed.

Lemma testbit_miss k m : N.testbit (2 * k + N.b2n m) 0 = m.
Proof.
  rewrite testbit0. destruct m; cbn [N.b2n].
  - rewrite N.even_add, N.even_mul. reflexivity.
  - rewrite N.add_0_r, N.even_mul. reflexivity.
Qed.

Lemma prop_rt p z tl : wf_TableProp p -> same_tprop p z ->
  dec_TableProp z (enc_TableProp p ++ tl) = Res (prop_read z p) (prop_size p) None tl.
Proof.
  intros W K. pose proof (prop_length p W) as LN. pose proof (ofptfpt_fits p) as Ht.
  destruct W as [W L]. unfold enc_TableProp in *. cbv zeta in *. rewrite prop_type_ofptfpt in *.
  destruct p as [m l|m l|m l|m l|l|l|m l|m l|m e x d], z; try contradiction K; clear K;
    cbn [prop_len] in L; unfold dec_TableProp; cbn [prop_read];
    eapply rt_at; try exact LN; clear LN.
  - unfold enc_prop_instructions. cbv zeta. rewrite small_len by exact L. exact (rt_types _ l Ht W L).
  - cbn [set_miss set_types ofptfpt]. rewrite (testbit_miss 0). reflexivity.
  - exact (rt_tables _ l Ht W L).
  - cbn [set_miss set_types ofptfpt]. rewrite (testbit_miss 1). reflexivity.
  - exact (rt_types _ l Ht W L).
  - cbn [set_miss set_types ofptfpt]. rewrite (testbit_miss 2). reflexivity.
  - exact (rt_types _ l Ht W L).
  - cbn [set_miss set_types ofptfpt]. rewrite (testbit_miss 3). reflexivity.
  - exact (rt_xms _ l Ht W L).
  - reflexivity.
  - exact (rt_xms _ l Ht W L).
  - reflexivity.
  - exact (rt_xms _ l Ht W L).
  - cbn [set_miss set_xms ofptfpt]. rewrite (testbit_miss 6). reflexivity.
  - exact (rt_xms _ l Ht W L).
  - cbn [set_miss set_xms ofptfpt]. rewrite (testbit_miss 7). reflexivity.
  - destruct W as [We Wx]. exact (rt_experimenter _ e x d We Wx L).
  - reflexivity.
Qed.

Lemma make_prop_tag p : exists z, make_prop (be_dec (firstn 2 (enc_TableProp p))) = MkOk z /\ same_tprop p z
  /\ prop_read z p = prop_arrives p.
Proof.
  assert (H : exists tl, enc_TableProp p = u16 (prop_type p) ++ tl).
  { destruct p; unfold enc_TableProp, enc_prop_instructions, enc_prop_tables, enc_prop_actions, enc_prop_xm,
      enc_prop_experimenter, prop_header; cbn [concat]; rewrite <- app_assoc; eexists; reflexivity. }
  destruct H as [tl ->]. rewrite first_u16.
  destruct p; try destruct miss; eexists; (split; [reflexivity|split; [exact I|reflexivity]]).
Qed.

(** ** Scanning into something other than what was written *)
Lemma scan_loop_arrives {A} (mk : N -> made A) (rd : step A) (enc : A -> bytes) (arr : A -> A) (l : list A) :
  (forall a, In a l -> exists z, mk (be_dec (firstn 2 (enc a))) = MkOk z
                        /\ 2 <= length (enc a)
                        /\ forall tl, rd z (enc a ++ tl) = Res (arr a) (length (enc a)) None tl) ->
  forall fuel acc tl, length (concat (map enc l)) < fuel ->
  scan_loop fuel mk rd acc (concat (map enc l) ++ tl)
  = let r := scan_loop (fuel - length l) mk rd (acc ++ map arr l) tl in
    Res (val r) (length (concat (map enc l)) + cnt r) (fail r) (rest r).
Proof.
  induction l as [|a l IH]; intros Hl fuel acc tl Hf.
  - cbn [map concat length app Nat.add]. rewrite Nat.sub_0_r, app_nil_r. cbv zeta. apply res_eta.
  - destruct (Hl a (or_introl eq_refl)) as (z & Hmk & Hlen & Hrd).
    destruct fuel as [|fuel]; [lia|].
    cbn [map concat length] in *. rewrite app_length in *. rewrite <- app_assoc. cbn [scan_loop].
    destruct (Nat.ltb_spec (length (enc a ++ concat (map enc l) ++ tl)) 2) as [H|H];
      [rewrite app_length in H; lia|].
    assert (E : firstn 2 (enc a ++ concat (map enc l) ++ tl) = firstn 2 (enc a)).
    { rewrite firstn_app. replace (2 - length (enc a)) with 0 by lia.
      rewrite firstn_O, app_nil_r. reflexivity. }
    rewrite E, Hmk, !Hrd. cbn [fail val rest cnt].
    rewrite IH; [|intros b Hb; apply Hl; right; exact Hb|lia].
    cbv zeta. cbn [fail val rest cnt Nat.sub]. rewrite <- app_assoc. cbn [app].
    rewrite Nat.add_assoc. reflexivity.
Qed.

Lemma props_in l : Forall wf_TableProp l -> forall a, In a l ->
  exists z, make_prop (be_dec (firstn 2 (enc_TableProp a))) = MkOk z
    /\ 2 <= length (enc_TableProp a)
    /\ forall tl, dec_TableProp z (enc_TableProp a ++ tl) = Res (prop_arrives a) (length (enc_TableProp a)) None tl.
Proof.
  intros W a Ha. rewrite Forall_forall in W. specialize (W a Ha).
  destruct (make_prop_tag a) as (z & M & K & R). exists z. split; [exact M|]. rewrite <- R.
  rewrite prop_length by exact W. split; [|intro tl; apply prop_rt; assumption].
  unfold prop_size. pose proof (up8_ge (prop_len a)). destruct a; cbn [prop_len] in *; lia.
Qed.

Lemma props_whole l : Forall wf_TableProp l ->
  whole (scan make_prop dec_TableProp) (concat (map enc_TableProp l)) (fun old => old ++ map prop_arrives l).
Proof.
  intros W s. unfold scan. rewrite <- (app_nil_r (concat (map enc_TableProp l))) at 2.
  rewrite (scan_loop_arrives make_prop dec_TableProp enc_TableProp prop_arrives l (props_in l W)) by lia.
  cbv zeta.
  assert (F : exists k, S (length (concat (map enc_TableProp l))) - length l = S k).
  { assert (length l <= length (concat (map enc_TableProp l))).
    { clear s. rewrite concat_map_length. clear W. induction l as [|a l IH]; [cbn; lia|]. cbn [map length].
      change (list_sum (length (enc_TableProp a) :: map (fun a0 => length (enc_TableProp a0)) l))
        with (length (enc_TableProp a) + list_sum (map (fun a0 => length (enc_TableProp a0)) l)).
      assert (1 <= length (enc_TableProp a)).
      { destruct (enc_TableProp a) eqn:E; [|cbn; lia].
        exfalso. assert (H : exists tl, enc_TableProp a = u16 (prop_type a) ++ tl).
        { destruct a; unfold enc_TableProp, enc_prop_instructions, enc_prop_tables, enc_prop_actions, enc_prop_xm,
            enc_prop_experimenter, prop_header; cbn [concat]; rewrite <- app_assoc; eexists; reflexivity. }
        destruct H as [tl H]. rewrite E in H. apply (f_equal (@length _)) in H.
        rewrite app_length in H. unfold u16 in H. rewrite be_enc_length in H. cbn in H. lia. }
      lia. }
    exists (length (concat (map enc_TableProp l)) - length l). lia. }
  destruct F as [k ->]. cbn [scan_loop length Nat.ltb Nat.leb val cnt fail rest]. rewrite Nat.add_0_r. reflexivity.
Qed.

(** ** Table features *)
Lemma props_lays l : Forall wf_TableProp l ->
  lays (concat (map enc_TableProp l)) (list_sum (map prop_size l)) (one_after_another prop_size prop_layout 0 l).
Proof. intro W. apply lays_list. rewrite Forall_forall in W. intros a Ha. apply prop_lays, W, Ha. Qed.

Lemma props_length l : Forall wf_TableProp l ->
  length (concat (map enc_TableProp l)) = list_sum (map prop_size l).
Proof. intro W. apply (lays_length _ _ _ (props_lays l W)). Qed.

Lemma features_lays m : wf_TableFeatures m -> lays (enc_TableFeatures m) (features_size m) (features_layout m).
Proof.
  intros (_ & _ & _ & _ & _ & WP & WS). unfold enc_TableFeatures, features_layout. cbv zeta.
  rewrite props_length by exact WP. unfold features_size. concat_split 8. apply lays_app.
  - split; [repeat constructor|split; [reflexivity|]].
    cbn [map snd render concat]. unfold u16 at 1. rewrite be_enc_uwrap. reflexivity.
  - rewrite concat_one. apply props_lays, WP.
Qed.

Lemma fixtext_name k s : fixtext k s = firstn k (s ++ zeros k).
Proof.
  unfold fixtext. rewrite firstn_app. f_equal. symmetry.
  rewrite firstn_zeros by lia. reflexivity.
Qed.

Lemma rt_TableFeatures m : wf_TableFeatures m -> rt dec_TableFeatures (enc_TableFeatures m) (fun _ => features_arrive m).
Proof.
  unfold enc_TableFeatures, dec_TableFeatures. cbv zeta. intros (W1 & W2 & W3 & W4 & W5 & WP & WS).
  rewrite props_length by exact WP. fold (features_size m). split_last 8.
  eapply rt_ext; cycle 1.
  - apply rt_with_local, rt_andthen.
    + eapply rt_concat_cons; [apply rt_fu, uwrap_fits|].
      eapply rt_concat_cons; [apply rt_sub; rt_elem|].
      eapply rt_concat_cons; [apply rt_zeros|].
      eapply rt_concat_cons; [apply rt_take, fixtext_length|]. flow_rt.
    + intros s. apply rt_pre, rt_limited; cycle 1.
      * apply whole_sub, whole_sub, props_whole, WP.
      * cbn [fst snd]. rewrite uwrap2 by exact WS. rewrite props_length by exact WP.
        unfold features_size. cbn [concat]. unfold u16, u8, u32, u64, pad.
        rewrite !app_length, !be_enc_length, zeros_length, fixtext_length. cbn [length]. lia.
  - intros []. unfold features_arrive. rewrite <- fixtext_name. reflexivity.
Qed.

(** ** Malformed table features *)
Lemma features_header h old inp : length h = 64 -> exists n m,
  seqr [fu 2 (fun v s => ((v, snd (fst s)), snd s));
        sub snd (fun m s => (fst s, m)) (fu 1 set_TableFeatures_Table); fpad 5;
        fbytes 32 (fun b s => ((fst (fst s), b), snd s));
        sub snd (fun m s => (fst s, m)) (fu 8 set_TableFeatures_MetadataMatch);
        sub snd (fun m s => (fst s, m)) (fu 8 set_TableFeatures_MetadataWrite);
        sub snd (fun m s => (fst s, m)) (fu 4 set_TableFeatures_Config);
        sub snd (fun m s => (fst s, m)) (fu 4 set_TableFeatures_MaxEntries)] ((0%N, [] : bytes), old) (h ++ inp)
  = Res ((num 0 2 h, n), m) 64 None inp.
Proof.
  intro H. repeat (destruct h as [|? h]; [discriminate H|apply eq_add_S in H]).
  destruct h; [clear H|discriminate H]. do 2 eexists. reflexivity.
Qed.

Lemma features_at h old inp : length h = 64 ->
  let k := N.to_nat (num 0 2 h) - 64 in
  exists m, TableFeatures_Properties m = []
  /\ forall v n e r, scan make_prop dec_TableProp [] (firstn k inp) = Res v n e r ->
     dec_TableFeatures old (h ++ inp) = Res (set_TableFeatures_Properties v m) (64 + n) e (r ++ skipn k inp).
Proof.
  intros H k. destruct (features_header h old inp H) as (nm & m & E).
  exists (set_TableFeatures_Properties [] (set_TableFeatures_Name nm m)). split; [reflexivity|].
  intros v n e r E'.
  replace k with (Z.to_nat (Z.of_N (num 0 2 h) - Z.of_nat 64)) in * by (unfold k; lia). clear k.
  generalize dependent (num 0 2 h). intros k E E'.
  apply (with_local_eq _ _ _ _ ((k, nm), set_TableFeatures_Properties v (set_TableFeatures_Properties [] (set_TableFeatures_Name nm m)))).
  eapply andthen_both; [exact E|]. clear E. unfold pre. apply limited_eq.
  set (m' := set_TableFeatures_Properties [] (set_TableFeatures_Name nm m)).
  apply (sub_eq snd (fun m s => (fst s, m)) _ (k, nm, m') _ (set_TableFeatures_Properties v m')).
  apply (sub_eq TableFeatures_Properties set_TableFeatures_Properties _ m'). exact E'.
Qed.

Lemma make_prop_unknown t : ~ In t known_props -> make_prop t = MkUnknown.
Proof.
  intro H. unfold make_prop.
  repeat match goal with |- context [(t =? ?k)%N] =>
    destruct (N.eqb_spec t k) as [->|_]; [exfalso; apply H; cbn; tauto|] end.
  reflexivity.
Qed.

Lemma scan_unknown fuel acc b : 2 <= length b -> ~ In (num 0 2 b) known_props ->
  scan_loop (S fuel) make_prop dec_TableProp acc b = Res acc 0 (Some (EUnknown (num 0 2 b))) [].
Proof.
  intros L U. cbn [scan_loop]. destruct (Nat.ltb_spec (length b) 2); [lia|].
  change (be_dec (firstn 2 b)) with (num 0 2 b). rewrite (make_prop_unknown _ U). reflexivity.
Qed.

Lemma length_props l : length l <= length (concat (map enc_TableProp l)).
Proof.
  induction l as [|a l IH]; [cbn; lia|]. cbn [map concat length]. rewrite app_length.
  assert (1 <= length (enc_TableProp a)); [|lia].
  destruct a; unfold enc_TableProp, enc_prop_instructions, enc_prop_tables, enc_prop_actions, enc_prop_xm,
    enc_prop_experimenter, prop_header; cbn [concat]; rewrite !app_length; unfold u16; rewrite !be_enc_length; lia.
Qed.

Lemma props_unknown l b old : Forall wf_TableProp l -> 2 <= length b -> ~ In (num 0 2 b) known_props ->
  scan make_prop dec_TableProp old (concat (map enc_TableProp l) ++ b)
  = Res (old ++ map prop_arrives l) (length (concat (map enc_TableProp l))) (Some (EUnknown (num 0 2 b))) [].
Proof.
  intros W L U. unfold scan. pose proof (length_props l) as P.
  rewrite (scan_loop_arrives make_prop dec_TableProp enc_TableProp prop_arrives l (props_in l W))
    by (rewrite app_length; lia).
  rewrite app_length.
  replace (S (length (concat (map enc_TableProp l)) + length b) - length l)
    with (S (length (concat (map enc_TableProp l)) + length b - length l)) by lia.
  rewrite scan_unknown by assumption. cbv zeta. cbn [val cnt fail rest]. rewrite Nat.add_0_r. reflexivity.
Qed.

(** Reading never exhausts its fuel. *)
Lemma dec_id_ok c1 c2 f l inp old : fail (dec_xm false old (c1 :: c2 :: f :: l :: inp)) = None
  /\ rest (dec_xm false old (c1 :: c2 :: f :: l :: inp)) = inp.
Proof.
  unfold dec_xm. erewrite with_local_eq; [split; reflexivity|].
  erewrite (andthen_both _ _ _ _ _ 4 _ _ 0); [reflexivity|apply xm_header|]. cbv beta zeta. cbn [fst snd XM_Type].
  unfold sub, pre. cbn [fst snd]. reflexivity.
Qed.

Lemma ids_nofuel fuel : forall acc inp, length inp < fuel -> snd (xm_loop fuel false acc inp) <> Some EFuel.
Proof.
  induction fuel as [|fuel IH]; intros acc inp F; [lia|]. cbn [xm_loop].
  destruct (Nat.ltb_spec (length inp) 4) as [H|H]; [discriminate|].
  destruct (len4 inp H) as (c1 & c2 & f & l & p & ->). destruct (dec_id_ok c1 c2 f l p zero_XM) as [E1 E2].
  rewrite E1, E2. apply IH. cbn [length] in F. lia.
Qed.

Lemma nofuel_ids : nofuel (read_all_xm false).
Proof.
  intros s inp. unfold read_all_xm. pose proof (ids_nofuel (S (length inp)) s inp) as H.
  destruct (xm_loop (S (length inp)) false s inp). cbn [fail snd] in *. apply H. lia.
Qed.

Lemma suffixing_ids : suffixing (read_all_xm false).
Proof.
  intros s inp. unfold read_all_xm. destruct (xm_loop (S (length inp)) false s inp). cbn [rest].
  exists inp. rewrite app_nil_r. reflexivity.
Qed.

Lemma progressing_bare : progressing dec_bare.
Proof. apply progressing_seqr; [apply progressing_take; lia|repeat constructor; apply suffixing_take]. Qed.
Lemma nofuel_bare : nofuel dec_bare.
Proof. apply nofuel_seqr. repeat constructor; apply nofuel_take. Qed.
Lemma suffixing_bare : suffixing dec_bare.
Proof. apply suffixing_seqr. repeat constructor; apply suffixing_take. Qed.

Lemma body_ok f : nofuel f -> suffixing f -> nofuel (prop_body f) /\ progressing (prop_body f).
Proof.
  intros Hn Hs. split.
  - apply nofuel_with_local, nofuel_andthen; [apply nofuel_take|]. intros.
    apply nofuel_andthen; [apply nofuel_limited, nofuel_sub, Hn|]. intros. apply nofuel_take.
  - apply progressing_with_local, progressing_andthen; [apply progressing_take; lia|]. intros.
    apply suffixing_andthen; [apply suffixing_limited, suffixing_sub, Hs|]. intros. apply suffixing_take.
Qed.

Lemma prop_ok : nofuel dec_TableProp /\ progressing dec_TableProp.
Proof.
  assert (T : nofuel dec_prop_types /\ progressing dec_prop_types).
  { apply body_ok; [apply nofuel_pre, nofuel_readfunc; [apply nofuel_bare|apply progressing_bare]|].
    apply suffixing_pre, suffixing_readfunc, suffixing_bare. }
  assert (X : nofuel dec_prop_xm /\ progressing dec_prop_xm).
  { apply body_ok; [apply nofuel_pre, nofuel_sub, nofuel_ids|apply suffixing_pre, suffixing_sub, suffixing_ids]. }
  assert (B : nofuel dec_prop_tables /\ progressing dec_prop_tables).
  { split.
    - apply nofuel_with_local, nofuel_andthen; [apply nofuel_take|]. intros. apply nofuel_pre, nofuel_seqr.
      repeat constructor; apply nofuel_take.
    - apply progressing_with_local, progressing_andthen; [apply progressing_take; lia|]. intros.
      apply suffixing_pre, suffixing_seqr. repeat constructor; apply suffixing_take. }
  assert (E : nofuel dec_prop_experimenter /\ progressing dec_prop_experimenter).
  { split.
    - apply nofuel_with_local, nofuel_andthen.
      + apply nofuel_seqr. repeat constructor; [apply nofuel_take|apply nofuel_sub, nofuel_take..].
      + intros. apply nofuel_andthen; [apply nofuel_limited, nofuel_sub, nofuel_readall|]. intros. apply nofuel_take.
    - apply progressing_with_local, progressing_andthen.
      + apply progressing_seqr; [apply progressing_take; lia|repeat constructor; apply suffixing_sub, suffixing_take].
      + intros. apply suffixing_andthen; [apply suffixing_limited, suffixing_sub, suffixing_readall|]. intros.
        apply suffixing_take. }
  destruct T as [T1 T2], X as [X1 X2], B as [B1 B2], E as [E1 E2].
  split; intros p inp; unfold dec_TableProp; destruct p; auto.
Qed.

Lemma nofuel_TableFeatures : nofuel dec_TableFeatures.
Proof.
  destruct prop_ok as [N P].
  apply nofuel_with_local, nofuel_andthen.
  - apply nofuel_seqr. repeat constructor; try apply nofuel_take; apply nofuel_sub, nofuel_take.
  - intros. apply nofuel_pre, nofuel_limited, nofuel_sub, nofuel_sub, nofuel_scan; assumption.
Qed.

(** ** The standard form of field lists *)
Lemma rt_standard t l : fits 2 t -> Forall wf_field_id l -> (N.of_nat (4 + 4 * length l) < 65536)%N ->
  rt dec_prop_xm (standard_fields t l) (fun p => set_xms (map field_id_read l) (set_miss (N.testbit t 0) p)).
Proof.
  intros Ht W L.
  assert (E : standard_fields t l = concat [prop_header t (uwrap 2 (N.of_nat (4 + length (concat (map field_id_bytes l)))));
    concat (map field_id_bytes l); pad (pad_len (4 + length (concat (map field_id_bytes l))))]).
  { unfold standard_fields. cbv zeta. rewrite ids_length. cbn [concat]. unfold prop_header, u16.
    rewrite be_enc_uwrap, app_nil_r, <- app_assoc. reflexivity. }
  rewrite E. apply rt_prop_body; [exact Ht|rewrite ids_length; exact L|apply ids_whole, W].
Qed.
