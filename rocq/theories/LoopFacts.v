(** Proofs about reading entries one after another until an error. *)
From Verif Require Export ListFacts.
Ltac Zify.zify_post_hook ::= Z.div_mod_to_equations.

(** ** Decoders that do not read behind their input *)
Lemma suffixing_fixed {S} k (f : step S) : fixed k f -> suffixing f.
Proof.
  intros H s inp. destruct (H s inp) as [H1 H2]. destruct (Nat.ltb_spec (length inp) k) as [L|L].
  - destruct (H1 L) as (_ & _ & ->). exists inp. symmetry. apply app_nil_r.
  - destruct (H2 L) as (_ & _ & ->). exists (firstn k inp). symmetry. apply firstn_skipn.
Qed.

Lemma progressing_fixed {S} k (f : step S) : 0 < k -> fixed k f -> progressing f.
Proof.
  intros Hk H s inp. destruct (H s inp) as [H1 H2]. destruct (Nat.ltb_spec (length inp) k) as [L|L].
  - destruct (H1 L) as ([E|E] & _); rewrite E; discriminate.
  - destruct (H2 L) as (_ & _ & ->). rewrite skipn_length. lia.
Qed.

Lemma suffixing_lost {S} (f : step S) : suffixing f -> suffixing (lost f).
Proof. intros H s inp. apply H. Qed.

Lemma suffixing_readslice {A S} (zero : A) rd : suffixing rd -> suffixing (S := S) (readslice zero rd).
Proof. apply suffixing_readfunc. Qed.

Lemma suffixing_Actions : suffixing dec_Actions.
Proof.
  apply suffixing_pre, suffixing_scan. intros a i.
  destruct a; try (refine (suffixing_seqr _ _ _ i); repeat constructor; apply suffixing_take).
  refine (suffixing_with_local _ _ _ _ i). apply suffixing_andthen.
  - apply suffixing_seqr. repeat constructor; apply suffixing_take.
  - intros. apply suffixing_limited, suffixing_sub, suffixing_andthen; intros;
      [apply suffixing_sub, suffixing_xm|apply suffixing_readall].
Qed.

Lemma suffixing_Instructions : suffixing dec_Instructions.
Proof.
  apply suffixing_scan.
  assert (A : suffixing dec_instruction_actions).
  { unfold dec_instruction_actions. apply suffixing_with_local, suffixing_andthen.
    - apply suffixing_seqr. repeat constructor; apply suffixing_take.
    - intros. apply suffixing_limited, suffixing_sub, suffixing_sub, suffixing_Actions. }
  intros a i. destruct a; try apply A; refine (suffixing_seqr _ _ _ i); repeat constructor; apply suffixing_take.
Qed.

Lemma suffixing_Match : suffixing dec_Match.
Proof.
  unfold dec_Match. apply suffixing_pre, suffixing_with_local, suffixing_andthen.
  - apply suffixing_seqr. repeat constructor; try apply suffixing_sub; apply suffixing_take.
  - intros. apply suffixing_sub, suffixing_andthen; intros.
    + apply suffixing_limited, suffixing_sub. intros l inp. exists inp. unfold read_all_xm.
      destruct (xm_loop (S (length inp)) true l inp). symmetry. apply app_nil_r.
    + apply suffixing_take.
Qed.

Lemma progressing_sub {S A} (get : S -> A) set f : progressing f -> progressing (sub get set f).
Proof. intros H s inp. apply H. Qed.

(** A first field that takes bytes, then anything. *)
Ltac progress_first :=
  first [ apply progressing_take; lia
        | apply progressing_sub, progressing_take; lia ].

Ltac suff :=
  repeat lazymatch goal with
    | |- suffixing (limited _ _) => apply suffixing_limited
    | |- suffixing (pre _ _) => apply suffixing_pre
    | |- suffixing (sub _ _ _) => apply suffixing_sub
    | |- suffixing (with_local _ _) => apply suffixing_with_local
    | |- suffixing (lost _) => apply suffixing_lost
    | |- suffixing (readslice _ _) => apply suffixing_readslice
    | |- suffixing (seqr _) => apply suffixing_seqr; repeat constructor
    | |- suffixing dec_Actions => apply suffixing_Actions
    | |- suffixing dec_Instructions => apply suffixing_Instructions
    | |- suffixing dec_Match => apply suffixing_Match
    | |- suffixing (fu _ _) => apply suffixing_take
    | |- suffixing (fpad _) => apply suffixing_take
    | |- suffixing (fbytes _ _) => apply suffixing_take
    end.

Lemma progressing_Bucket : progressing dec_Bucket.
Proof.
  apply progressing_with_local, progressing_andthen; [|intros; suff].
  apply progressing_seqr; [progress_first|repeat constructor; suff].
Qed.

Lemma progressing_FlowStats : progressing dec_FlowStats.
Proof.
  apply progressing_with_local, progressing_andthen; [|intros; suff].
  apply progressing_seqr; [progress_first|repeat constructor; suff].
Qed.

Lemma progressing_GroupStats : progressing dec_GroupStats.
Proof.
  apply progressing_with_local, progressing_andthen.
  - apply progressing_seqr; [progress_first|repeat constructor; suff].
  - intros; suff. apply (suffixing_fixed 16), (fixed_all KBucketCounter).
Qed.

Lemma suffixing_MeterBand : suffixing dec_MeterBand.
Proof.
  intros a i. destruct a; refine (suffixing_seqr _ _ _ i); repeat constructor; apply suffixing_take.
Qed.

Lemma progressing_MeterConfig : progressing dec_MeterConfig.
Proof.
  apply progressing_with_local, progressing_andthen.
  - apply progressing_seqr; [progress_first|repeat constructor; suff].
  - intros; suff. apply suffixing_scan, suffixing_MeterBand.
Qed.

Lemma suffixing_QueueProp : suffixing dec_QueueProp.
Proof.
  intros a i. destruct a; try (refine (suffixing_seqr _ _ _ i); repeat constructor; apply suffixing_take).
  refine (suffixing_with_local _ _ _ _ i). apply suffixing_andthen; intros; suff. apply suffixing_readall.
Qed.

Lemma progressing_PacketQueue : progressing dec_PacketQueue.
Proof.
  apply progressing_with_local, progressing_andthen.
  - apply progressing_seqr; [apply progressing_sub, progressing_take; lia|repeat constructor; suff].
  - intros; suff. apply suffixing_scan, suffixing_QueueProp.
Qed.

(** ** Reading until an error *)
Lemma progressing_stops {S} (f : step S) k inp : progressing f -> keeps_reading f k inp -> k <= length inp.
Proof. intros P H. induction H as [|k old inp F _ IH]; [lia|]. specialize (P old inp F). lia. Qed.

Lemma progressing_nil {S} (f : step S) old : progressing f -> fail (f old []) <> None.
Proof. intros P F. specialize (P old [] F). cbn in P. lia. Qed.

Lemma reading_exact {S} (f : step S) (enc : S -> bytes) (g : S -> S -> S) l k : progressing f ->
  (forall a, In a l -> rt f (enc a) (g a)) ->
  keeps_reading f k (concat (map enc l)) <-> k <= length l.
Proof.
  intro P. revert k. induction l as [|a l IH]; intros k R.
  - split.
    + intro H. apply (progressing_stops _ _ _ P) in H. exact H.
    + cbn. intro H. assert (k = 0) by lia. subst k. constructor.
  - cbn [map concat length]. specialize (R a (or_introl eq_refl)) as Ra.
    assert (IH' : forall k, keeps_reading f k (concat (map enc l)) <-> k <= length l).
    { intro k'. apply IH. intros b Hb. apply R. right. exact Hb. }
    split.
    + intro H. inversion H as [|k' old inp F K]; subst; [lia|].
      rewrite Ra in K. cbn [rest] in K. apply IH' in K. lia.
    + intro H. destruct k as [|k]; [constructor|].
      apply KeepsMore with (old := a); rewrite Ra; cbn [fail rest]; [reflexivity|]. apply IH'. lia.
Qed.

(** ** Group descriptions and meter statistics never stop *)
Lemma fixed_header8 : fixed 8 (seqr [fu 2 (fun v s => (v, snd s));
   sub snd (fun m s => (fst s, m)) (fu 1 set_GroupDescStats_Type); fpad 1;
   sub snd (fun m s => (fst s, m)) (fu 4 set_GroupDescStats_Group)] : step (N * GroupDescStats)).
Proof. eapply fixed_eq; [fx_seq|reflexivity]. Qed.

Lemma fixed_header40 : fixed 40 (seqr [sub snd (fun m s => (fst s, m)) (fu 4 set_MeterStats_Meter);
   fu 2 (fun v s => (v, snd s)); fpad 6; sub snd (fun m s => (fst s, m)) (fu 4 set_MeterStats_FlowCount);
   sub snd (fun m s => (fst s, m)) (fu 8 set_MeterStats_PacketInCount);
   sub snd (fun m s => (fst s, m)) (fu 8 set_MeterStats_ByteInCount);
   sub snd (fun m s => (fst s, m)) (fu 4 set_MeterStats_DurationSec);
   sub snd (fun m s => (fst s, m)) (fu 4 set_MeterStats_DurationNSec)] : step (N * MeterStats)).
Proof. eapply fixed_eq; [fx_seq|reflexivity]. Qed.

Lemma ignoring_short {L S A} (l : L) k (h : step (L * S)) z (zero : A) rd old inp :
  fixed k h -> rd zero [] = Res zero 0 (Some EOF) [] -> length inp < k ->
  let r := with_local l (andthen_ignoring h (fun _ s => limited (z s) (readslice zero rd))) old inp in
  fail r = None /\ cnt r = length inp /\ rest r = [].
Proof.
  intros F Z L'. destruct (F (l, old) inp) as [H _]. destruct (H L') as (_ & C & R). cbv zeta.
  unfold with_local, andthen_ignoring, limited, readslice, readfunc. cbn [fail cnt rest].
  rewrite R, firstn_nil, skipn_nil. cbn [length readfunc_loop]. rewrite Z. cbn [fail cnt rest skip_eof app].
  rewrite C. repeat split. lia.
Qed.

Lemma groupdesc_short old inp : length inp < 8 ->
  fail (dec_GroupDescStats old inp) = None /\ cnt (dec_GroupDescStats old inp) = length inp
  /\ rest (dec_GroupDescStats old inp) = [].
Proof. apply (ignoring_short 0%N 8); [apply fixed_header8|vm_compute; reflexivity]. Qed.

Lemma meterstats_short old inp : length inp < 40 ->
  fail (dec_MeterStats old inp) = None /\ cnt (dec_MeterStats old inp) = length inp
  /\ rest (dec_MeterStats old inp) = [].
Proof.
  let d := eval unfold dec_MeterStats in dec_MeterStats in
  match d with with_local _ (andthen_ignoring ?h _) =>
    exact (ignoring_short 0%N 40 h (fun s => Z.of_N (sub16 (fst s) 40)) zero_MeterBandStats dec_MeterBandStats
             old inp fixed_header40 eq_refl)
  end.
Qed.

Lemma endless {S} (f : step S) (a : S) : (forall old, fail (f old []) = None /\ rest (f old []) = []) ->
  forall k, keeps_reading f k [].
Proof.
  intros H k. induction k as [|k IH]; [constructor|].
  destruct (H a) as [F R]. apply KeepsMore with (old := a); [exact F|]. rewrite R. exact IH.
Qed.

Lemma endless_list {S} (f : step S) (a : S) (enc : S -> bytes) (g : S -> S -> S) l :
  (forall k, keeps_reading f k []) -> (forall x, In x l -> rt f (enc x) (g x)) ->
  forall k, keeps_reading f k (concat (map enc l)).
Proof.
  intros E R. induction l as [|x l IH]; [exact E|]. intros [|k]; [constructor|].
  cbn [map concat]. specialize (R x (or_introl eq_refl)) as Rx.
  apply KeepsMore with (old := a); rewrite Rx; [reflexivity|]. cbn [rest]. apply IH.
  intros y Hy. apply R. right. exact Hy.
Qed.

(** ** Hello elements in the standard's form *)
Lemma standard_is_ours l : Nat.even (length l) = false -> standard_hello l = enc_HelloElem (MkHelloElem l).
Proof.
  intro O. rewrite enc_padded, padded_size. unfold padded. cbn [HelloElem_Bitmaps]. rewrite O. cbn [repeat].
  rewrite app_nil_r. unfold standard_hello. rewrite <- app_assoc. do 2 f_equal.
  replace (up8 (4 + 4 * length l) - (4 + 4 * length l)) with 0
    by (rewrite even_mod in O; apply Nat.eqb_neq in O; unfold up8; lia).
  cbn [zeros repeat]. rewrite app_nil_r. reflexivity.
Qed.

Lemma progressing_HelloElem : progressing dec_HelloElem.
Proof.
  apply progressing_with_local, progressing_andthen.
  - apply progressing_seqr; [apply progressing_take; lia|constructor].
  - intros. cbv zeta. apply suffixing_limited, suffixing_pre, suffixing_take.
Qed.

Lemma exact_elem l old tl : Forall (fits 4) l -> (N.of_nat (4 + 4 * length l) < 65536)%N ->
  dec_HelloElem old (be_enc 2 1 ++ be_enc 2 (N.of_nat (4 + 4 * length l)) ++ uarr 4 l ++ tl)
  = Res (MkHelloElem l) (4 + 4 * length l) None tl.
Proof.
  intros W L.
  replace (be_enc 2 1 ++ be_enc 2 (N.of_nat (4 + 4 * length l)) ++ uarr 4 l ++ tl)
    with (((u16 1 ++ u16 (N.of_nat (4 + 4 * length l))) ++ uarr 4 l) ++ tl)
    by (unfold u16; rewrite <- !app_assoc; reflexivity).
  replace (4 + 4 * length l) with (length ((u16 1 ++ u16 (N.of_nat (4 + 4 * length l))) ++ uarr 4 l)) at 2
    by (unfold u16; rewrite !app_length, !be_enc_length, uarr_length; lia).
  unfold dec_HelloElem.
  assert (U : uwrap 2 (N.of_nat (4 + 4 * length l)) = N.of_nat (4 + 4 * length l)) by (apply uwrap_small; exact L).
  assert (K : sub16 (N.of_nat (4 + 4 * length l)) 4 = N.of_nat (4 * length l)).
  { rewrite sub16_small by lia. lia. }
  eapply by_rt.
  - apply rt_with_local, rt_andthen.
    + rewrite <- (concat_one (u16 1 ++ _)). eapply rt_concat_cons; [apply rt_take; reflexivity|apply rt_concat_nil].
    + intros s. cbn [fst snd]. rewrite skip_u16, U, K.
      replace (N.to_nat (N.of_nat (4 * length l) / 4)) with (length l) by lia.
      apply rt_limited; [rewrite uarr_length; lia|]. apply whole_pre, rt_whole, rt_fus; [reflexivity|exact W].
  - reflexivity.
Qed.

Lemma fail_lost {S} (f : step S) s inp : fail (lost f s inp) = fail (f s inp).
Proof. reflexivity. Qed.

Lemma fail_one {S A} (get : S -> A) set f s inp e :
  fail (f (get s) inp) = Some e -> fail (seqr [sub get set f] s inp) = Some e.
Proof. intro H. cbn [seqr]. unfold sub. cbn [fail]. rewrite H. cbn [fail]. reflexivity. Qed.

Lemma scan_padding fuel old z : 
  fail (scan_loop (S fuel) make_hello_elem dec_HelloElem old (zeros 4 ++ z)) = Some (EUnknown 0).
Proof. reflexivity. Qed.

Lemma standard_scan l k old tl :
  (forall o t, dec_HelloElem o (be_enc 2 1 ++ be_enc 2 (N.of_nat k) ++ uarr 4 l ++ t) = Res (MkHelloElem l) k None t) ->
  fail (scan make_hello_elem dec_HelloElem old
          (be_enc 2 1 ++ be_enc 2 (N.of_nat k) ++ uarr 4 l ++ (zeros 4 ++ tl))) = Some (EUnknown 0).
Proof.
  intro X. unfold scan. rewrite scan_S. specialize (X zero_HelloElem (zeros 4 ++ tl)).
  assert (E : firstn 2 (be_enc 2 1 ++ be_enc 2 (N.of_nat k) ++ uarr 4 l ++ (zeros 4 ++ tl)) = be_enc 2 1)
    by (apply firstn_app_len, be_enc_length).
  assert (F : exists fuel, length (be_enc 2 1 ++ be_enc 2 (N.of_nat k) ++ uarr 4 l ++ (zeros 4 ++ tl)) = S (S fuel)).
  { rewrite app_length, be_enc_length. eexists. reflexivity. }
  set (b := be_enc 2 1 ++ _) in *. clearbody b.
  destruct F as [fuel F]. rewrite E, F.
  change (make_hello_elem (be_dec (be_enc 2 1))) with (MkOk zero_HelloElem).
  change (S (S fuel) <? 2) with false. cbv iota. rewrite X.
  cbn [fail val rest cnt]. apply scan_padding.
Qed.

Lemma standard_even l old tl : wf_HelloElem (MkHelloElem l) -> Nat.even (length l) = true ->
  fail (dec_Hello old (standard_hello l ++ tl)) = Some (EUnknown 0).
Proof.
  intros [W WS] O. unfold dec_Hello. cbn [HelloElem_Bitmaps] in W.
  assert (Z : up8 (4 + 4 * length l) - (4 + 4 * length l) = 4)
    by (rewrite even_mod in O; apply Nat.eqb_eq in O; unfold up8; lia).
  assert (L : (N.of_nat (4 + 4 * length l) < 65536)%N).
  { unfold hello_elem_size in WS. cbn [HelloElem_Bitmaps] in WS. unfold up8 in WS. lia. }
  apply fail_one. unfold dec_HelloElems. rewrite fail_lost. unfold standard_hello. rewrite Z, <- !app_assoc.
  apply (standard_scan l (4 + 4 * length l)). intros o t. apply exact_elem; assumption.
Qed.

(** ** Port modifications *)
Lemma rti_ext {S} (P : S -> Prop) (f : step S) bs g g' : (forall s, g s = g' s) -> rti P f bs g -> rti P f bs g'.
Proof. intros E H s tl HP. rewrite (H s tl HP), E. reflexivity. Qed.

Lemma rti_PortMod m : wf_PortMod m ->
  rti (fun s => length (PortMod_HWAddr s) = 6) dec_PortMod (enc_PortMod m) (fun _ => m).
Proof.
  intros (W1 & W2 & W3 & W4 & W5). unfold dec_PortMod, enc_PortMod. eapply rti_ext; cycle 1.
  - eapply (rti_cons _ (fun s => length (PortMod_HWAddr s) = 6)); [apply rti_rt, rt_fu, W1|intros s Hs; exact Hs|].
    eapply (rti_cons _ (fun s => length (PortMod_HWAddr s) = 6)); [apply rti_rt, rt_zeros|intros s Hs; exact Hs|].
    eapply (rti_cons _ (fun _ => True)); [|intros; exact I|].
    + rewrite <- W2. apply rti_fslice.
    + apply rti_rt. rt_seq.
  - intros []. destruct m. reflexivity.
Qed.
