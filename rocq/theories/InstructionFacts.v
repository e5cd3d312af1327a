(** Proofs about instructions and instruction lists. *)
From Verif Require Export InstructionModel ActionFacts InstructionSpec.
Ltac Zify.zify_post_hook ::= Z.div_mod_to_equations.

(** ** Layouts of lists *)
Section Lists.
  Context {A : Type} (size : A -> nat) (lay : A -> list (nat * item)) (enc : A -> bytes).

  Lemma oaa_good off l : (forall a, In a l -> Forall (fun oi : nat * item => good (snd oi)) (lay a)) ->
    Forall (fun oi => good (snd oi)) (one_after_another size lay off l).
  Proof.
    revert off. induction l as [|a l IH]; intros off H; [constructor|]. cbn [one_after_another].
    apply Forall_app. split; [apply good_shift, H; left; reflexivity|].
    apply IH. intros b Hb. apply H. right. exact Hb.
  Qed.

  Lemma oaa_tiles l : (forall a, In a l -> tiles 0 (lay a) (size a) = true) ->
    forall off, tiles off (one_after_another size lay off l) (off + list_sum (map size l)) = true.
  Proof.
    induction l as [|a l IH]; intros H off; cbn [one_after_another map list_sum].
    - cbn. rewrite Nat.add_0_r. apply Nat.eqb_refl.
    - eapply tiles_app.
      + pose proof (tiles_shift off (lay a) 0 (size a)) as T. rewrite Nat.add_0_r in T.
        rewrite T. apply H. left. reflexivity.
      + change (list_sum (size a :: map size l)) with (size a + list_sum (map size l)).
        rewrite Nat.add_assoc. apply IH. intros b Hb. apply H. right. exact Hb.
  Qed.

  Lemma oaa_render l : (forall a, In a l -> enc a = concat (map (fun oi => render (snd oi)) (lay a))) ->
    forall off, concat (map (fun oi => render (snd oi)) (one_after_another size lay off l))
                = concat (map enc l).
  Proof.
    induction l as [|a l IH]; intros H off; [reflexivity|]. cbn [one_after_another map concat].
    rewrite map_app, concat_app, render_shift, IH, <- H; auto using in_eq, in_cons.
  Qed.
End Lists.

(** What makes a layout theorem: the three facts behind [laid_out_intro]. *)
Definition lays (e : bytes) (size : nat) (t : list (nat * item)) : Prop :=
  Forall (fun oi : nat * item => good (snd oi)) t /\ tiles 0 t size = true
  /\ e = concat (map (fun oi => render (snd oi)) t).

Lemma lays_laid_out e size t : lays e size t -> laid_out e size t.
Proof. intros (G & T & R). apply laid_out_intro; assumption. Qed.

Lemma action_lays a : wf_Action a -> lays (enc_Action a) (action_size a) (action_layout a).
Proof.
  destruct a; intro W; try (split; [repeat constructor|split; [reflexivity|]];
    cbn [enc_Action action_type]; unfold action_header;
    cbn [action_layout ofpat action_size map snd render concat app];
    rewrite ?app_nil_r, <- ?app_assoc; reflexivity).
  cbn [wf_Action] in W. split; [|split].
  - unfold action_layout. constructor; [exact I|]. constructor; [exact I|].
    apply Forall_app. split; [apply good_shift, xm_good|repeat constructor].
  - unfold action_layout. cbn [tiles width Nat.eqb andb Nat.add].
    pose proof (up8_ge (4 + xm_size field)) as U.
    eapply tiles_app; [exact (eq_trans (tiles_shift 4 _ 0 _) (xm_tiles field))|].
    cbn [tiles width]. rewrite Nat.eqb_refl. cbn [andb action_size]. apply Nat.eqb_eq.
    change (S (S (S (S (xm_size field))))) with (4 + xm_size field). lia.
  - cbn [enc_Action action_layout map snd render concat ofpat].
    rewrite map_app, concat_app, render_shift, <- xm_render by exact W.
    cbn [map concat snd render]. rewrite app_nil_r. apply set_field_bytes, W.
Qed.

Lemma actions_oaa off l : Forall wf_Action l ->
  Forall (fun oi => good (snd oi)) (one_after_another action_size action_layout off l)
  /\ tiles off (one_after_another action_size action_layout off l) (off + actions_size l) = true
  /\ concat (map (fun oi => render (snd oi)) (one_after_another action_size action_layout off l)) = enc_Actions l.
Proof.
  intro W. rewrite Forall_forall in W. split; [|split].
  - apply oaa_good. intros a H. apply (action_lays a (W a H)).
  - apply oaa_tiles. intros a H. apply (action_lays a (W a H)).
  - apply oaa_render. intros a H. apply (action_lays a (W a H)).
Qed.

(** ** Writing *)
Lemma instruction_actions_eq t l : Forall wf_Action l -> (N.of_nat (actions_size l) < 65536)%N ->
  enc_instruction_actions t l
  = be_enc 2 t ++ be_enc 2 (N.of_nat (8 + actions_size l)) ++ zeros 4 ++ enc_Actions l.
Proof.
  intros W L. unfold enc_instruction_actions, u16, pad. cbn [concat]. rewrite app_nil_r.
  rewrite actions_length by exact W. f_equal. f_equal.
  rewrite be_enc_uwrap. f_equal. rewrite uwrap_small; [lia|].
  unfold fits. change (256 ^ N.of_nat 2)%N with 65536%N. exact L.
Qed.

Lemma instruction_lays i : wf_Instruction i ->
  lays (enc_Instruction i) (instruction_size i) (instruction_layout i).
Proof.
  assert (ACT : forall t l, Forall wf_Action l -> (N.of_nat (actions_size l) < 65536)%N ->
    lays (enc_instruction_actions t l) (8 + actions_size l)
      ((0, Num 2 t) :: (2, Num 2 (N.of_nat (8 + actions_size l))) :: (4, Zero 4)
       :: one_after_another action_size action_layout 8 l)).
  { intros t l W L. destruct (actions_oaa 8 l W) as (G & T & R). split; [|split].
    - repeat (constructor; [exact I|]). exact G.
    - cbn [tiles width Nat.eqb andb Nat.add]. exact T.
    - rewrite instruction_actions_eq by assumption.
      remember (N.of_nat (8 + actions_size l)) as n. cbn [map snd render concat]. rewrite R. reflexivity. }
  destruct i; intro W; cbn [wf_Instruction] in W;
    try (split; [repeat constructor|split; [reflexivity|]];
         cbn [enc_Instruction instruction_type instruction_layout ofpit instruction_size map snd render concat];
         reflexivity).
  - destruct W. apply (ACT 4%N); assumption.
  - destruct W. apply (ACT 3%N); assumption.
Qed.

Lemma instruction_length i : wf_Instruction i -> length (enc_Instruction i) = instruction_size i.
Proof. intro W. apply (lays_laid_out _ _ _ (instruction_lays i W)). Qed.

Lemma list_sum_mod8 {A} (size : A -> nat) l : (forall a, size a mod 8 = 0) -> list_sum (map size l) mod 8 = 0.
Proof.
  intro H. induction l as [|a l IH]; [reflexivity|]. cbn [map].
  change (list_sum (size a :: map size l)) with (size a + list_sum (map size l)).
  specialize (H a). lia.
Qed.

Lemma actions_size_8 l : actions_size l mod 8 = 0.
Proof. apply list_sum_mod8. intro a. apply action_size_8. Qed.

Lemma instruction_size_8 i : instruction_size i mod 8 = 0 /\ 8 <= instruction_size i.
Proof.
  destruct i; cbn [instruction_size]; try (split; [reflexivity|lia]);
    pose proof (actions_size_8 actions); lia.
Qed.

(** ** Reading back *)
Lemma rt_instruction_actions t l : Forall wf_Action l -> (N.of_nat (actions_size l) < 65536)%N ->
  rt dec_instruction_actions (enc_instruction_actions t l) (set_actions l).
Proof.
  intros W L. rewrite instruction_actions_eq by assumption.
  set (h := N.of_nat (8 + actions_size l)).
  unfold dec_instruction_actions.
  replace (be_enc 2 t ++ be_enc 2 h ++ zeros 4 ++ enc_Actions l)
    with ((be_enc 2 t ++ be_enc 2 (uwrap 2 h) ++ zeros 4 ++ []) ++ enc_Actions l)
    by (rewrite be_enc_uwrap, app_nil_r, <- !app_assoc; reflexivity).
  refine (rt_ext _ _ _ _ _ (rt_with_local 0%N _ _ _ (rt_andthen _ _ _ _ _ _
     (rt_cons _ _ _ _ _ _ (rt_fpad 2 _ (be_enc_length 2 t))
       (rt_cons _ _ _ _ _ _ (rt_fu 2 _ (uwrap 2 h) (uwrap_fits 2 h))
         (rt_cons _ _ _ _ _ _ (rt_zeros 4) rt_nil))) _))); cycle 1.
  - intros s. cbn [fst]. apply rt_limited.
    + rewrite actions_length by exact W. unfold uwrap, h. change (256 ^ N.of_nat 2)%N with 65536%N. lia.
    + apply whole_sub, whole_sub, whole_Actions, W.
  - intros s. cbn [fst snd]. reflexivity.
Qed.

Lemma make_instruction_tag i tl : exists z, make_instruction (be_dec (firstn 2 (enc_Instruction i ++ tl))) = MkOk z
  /\ instruction_type z = instruction_type i.
Proof. destruct i; eexists; split; reflexivity. Qed.

Lemma by_rt {S} (f : step S) bs g s tl v : rt f bs g -> g s = v -> f s (bs ++ tl) = Res v (length bs) None tl.
Proof. intros H <-. apply H. Qed.

Ltac plain_rt :=
  eapply by_rt;
  [ repeat first [ apply rt_concat_nil
                 | eapply rt_concat_cons;
                   [ lazymatch goal with
                     | |- rt (fpad _) (pad _) _ => apply rt_zeros
                     | |- rt (fpad _) _ _ => apply rt_fpad; reflexivity
                     | _ => apply rt_fu; assumption
                     end | ] ]
  | reflexivity ].

Lemma dec_Instruction_rt z i : wf_Instruction i -> instruction_type z = instruction_type i ->
  forall tl, dec_Instruction z (enc_Instruction i ++ tl) = Res i (length (enc_Instruction i)) None tl.
Proof.
  intros W K tl.
  destruct i; destruct z; try discriminate; cbn [wf_Instruction] in W; cbn [dec_Instruction enc_Instruction].
  - change (fits 1 table) in W. plain_rt.
  - destruct W as [W1 W2]. change (fits 8 metadata) in W1. change (fits 8 mask) in W2. plain_rt.
  - destruct W as [W1 W2]. rewrite (rt_instruction_actions _ _ W1 W2). reflexivity.
  - destruct W as [W1 W2]. rewrite (rt_instruction_actions _ _ W1 W2). reflexivity.
  - reflexivity.
  - change (fits 4 meter) in W. plain_rt.
Qed.

Lemma instructions_length l : Forall wf_Instruction l -> length (enc_Instructions l) = instructions_size l.
Proof.
  intro W. unfold enc_Instructions. rewrite concat_map_length. unfold instructions_size. f_equal.
  induction W as [|a l Wa _ IH]; [reflexivity|]. cbn [map]. rewrite IH, instruction_length by exact Wa. reflexivity.
Qed.

Lemma whole_Instructions l : Forall wf_Instruction l ->
  whole dec_Instructions (enc_Instructions l) (fun old => old ++ l).
Proof.
  intro W. unfold dec_Instructions, enc_Instructions. apply whole_scan.
  rewrite Forall_forall in W. intros i H. specialize (W i H).
  destruct (make_instruction_tag i []) as (z & M & K). rewrite app_nil_r in M. exists z.
  split; [exact M|]. split.
  - rewrite instruction_length by exact W. pose proof (instruction_size_8 i). lia.
  - intro tl. apply dec_Instruction_rt; assumption.
Qed.

(** ** Arbitrary bytes after instructions *)
Lemma scan_then {A} (mk : N -> made A) (rd : step A) (enc : A -> bytes) (l : list A) b : progressing rd ->
  (forall a, In a l -> exists z, mk (be_dec (firstn 2 (enc a))) = MkOk z
                        /\ 2 <= length (enc a)
                        /\ forall tl, rd z (enc a ++ tl) = Res a (length (enc a)) None tl) ->
  forall fuel acc, length (concat (map enc l) ++ b) < fuel ->
  let r := scan_loop (S (length b)) mk rd (acc ++ l) b in
  scan_loop fuel mk rd acc (concat (map enc l) ++ b)
  = Res (val r) (length (concat (map enc l)) + cnt r) (fail r) (rest r).
Proof.
  intro PR. induction l as [|a l IH]; intros Hl fuel acc Hf; cbv zeta.
  - cbn [map concat app] in *. rewrite app_nil_r. rewrite (scan_fuel_eq _ _ PR acc b fuel (S (length b))) by lia.
    destruct (scan_loop (S (length b)) mk rd acc b); reflexivity.
  - destruct (Hl a (or_introl eq_refl)) as (z & Hmk & Hlen & Hrd).
    destruct fuel as [|fuel]; [lia|].
    cbn [map concat] in *. rewrite <- app_assoc in *. rewrite (app_length (enc a)) in Hf. rewrite scan_S.
    destruct (Nat.ltb_spec (length (enc a ++ concat (map enc l) ++ b)) 2) as [H|H];
      [rewrite app_length in H; lia|].
    assert (E : firstn 2 (enc a ++ concat (map enc l) ++ b) = firstn 2 (enc a)).
    { rewrite firstn_app. replace (2 - length (enc a)) with 0 by lia.
      rewrite firstn_O, app_nil_r. reflexivity. }
    rewrite E, Hmk, !Hrd. cbn [fail val rest cnt].
    rewrite IH; [|intros c Hc; apply Hl; right; exact Hc|lia].
    cbn [fail val rest cnt]. rewrite <- app_assoc, app_length, Nat.add_assoc. reflexivity.
Qed.

Lemma progressing_Instruction : progressing dec_Instruction.
Proof.
  assert (A : progressing dec_instruction_actions).
  { unfold dec_instruction_actions. apply progressing_with_local, progressing_andthen.
    - apply progressing_seqr; [apply progressing_take; lia|repeat constructor; apply suffixing_take].
    - intros. apply suffixing_limited, suffixing_sub, suffixing_sub, suffixing_pre, suffixing_scan.
      intros a i. 
      destruct a; try (refine (suffixing_seqr _ _ _ i); repeat constructor; apply suffixing_take).
      refine (suffixing_with_local _ _ _ _ i). apply suffixing_andthen.
      + apply suffixing_seqr. repeat constructor; apply suffixing_take.
      + intros. apply suffixing_limited, suffixing_sub, suffixing_andthen; intros;
          [apply suffixing_sub, suffixing_xm|apply suffixing_readall]. }
  intros i inp. destruct i; cbn [dec_Instruction]; try apply A;
    (refine (progressing_seqr _ _ _ _ _ inp);
         [apply progressing_take; lia|repeat constructor; apply suffixing_take]).
Qed.

Lemma instructions_at l old b : Forall wf_Instruction l ->
  let r := scan_loop (S (length b)) make_instruction dec_Instruction (old ++ l) b in
  dec_Instructions old (enc_Instructions l ++ b)
  = Res (val r) (length (enc_Instructions l) + cnt r) (fail r) (rest r).
Proof.
  intro W. apply scan_then; [apply progressing_Instruction| |apply Nat.lt_succ_diag_r].
  rewrite Forall_forall in W. intros i H. specialize (W i H).
  destruct (make_instruction_tag i []) as (z & M & K). rewrite app_nil_r in M. exists z.
  split; [exact M|]. split.
  - rewrite instruction_length by exact W. pose proof (instruction_size_8 i). lia.
  - intro tl. apply dec_Instruction_rt; assumption.
Qed.

Lemma make_instruction_unknown t : ~ In t known_instructions -> make_instruction t = MkUnknown.
Proof.
  intro H. unfold make_instruction, known_instructions in *. cbn [In] in H.
  repeat match goal with |- (if (t =? ?k)%N then _ else _) = _ =>
    destruct (N.eqb_spec t k) as [->|_]; [exfalso; tauto|] end.
  reflexivity.
Qed.

Lemma instruction_unknown l old b : Forall wf_Instruction l -> 2 <= length b ->
  ~ In (num 0 2 b) known_instructions ->
  dec_Instructions old (enc_Instructions l ++ b)
  = Res (old ++ l) (length (enc_Instructions l)) (Some (EUnknown (num 0 2 b))) [].
Proof.
  intros W L U. pose proof (instructions_at l old b W) as E. cbv zeta in E. rewrite E, scan_S.
  destruct (Nat.ltb_spec (length b) 2); [lia|].
  change (be_dec (firstn 2 b)) with (num 0 2 b). rewrite make_instruction_unknown by exact U.
  cbn [val cnt fail rest]. rewrite Nat.add_0_r. reflexivity.
Qed.

Lemma instruction_actions_inner t n inner tl l0 :
  length inner = n -> (N.of_nat n < 65536)%N ->
  forall z, (z = IApplyActions l0 \/ z = IWriteActions l0) ->
  let r := dec_instruction_actions z (be_enc 2 t ++ be_enc 2 (N.of_nat (8 + n)) ++ zeros 4 ++ inner ++ tl) in
  val r = set_actions (val (dec_Actions l0 inner)) z
  /\ cnt r = 8 + cnt (dec_Actions l0 inner)
  /\ fail r = fail (dec_Actions l0 inner)
  /\ rest r = rest (dec_Actions l0 inner) ++ tl.
Proof.
  intros Hn L z Hz.
  assert (HD : rt (seqr [fpad 2; fu 2 (fun v (s : N * Instruction) => (v, snd s)); fpad 4])
      (be_enc 2 t ++ be_enc 2 (uwrap 2 (N.of_nat (8 + n))) ++ zeros 4 ++ [])
      (fun s => (uwrap 2 (N.of_nat (8 + n)), snd s))).
  { exact (rt_cons _ _ _ _ _ _ (rt_fpad 2 _ (be_enc_length 2 t))
       (rt_cons _ _ _ _ _ _ (rt_fu 2 _ (uwrap 2 (N.of_nat (8 + n))) (uwrap_fits 2 _))
         (rt_cons _ _ _ _ _ _ (rt_zeros 4) rt_nil))). }
  specialize (HD (0%N, z) (inner ++ tl)). rewrite be_enc_uwrap, app_nil_r, <- !app_assoc in HD.
  cbv zeta. unfold dec_instruction_actions.
  rewrite (with_local_eq _ _ _ _ _ _ _ _ (andthen_ok _ _ _ _ _ _ _ HD)). cbn [fst snd].
  destruct (dec_Actions l0 inner) as [v c e rst] eqn:DA.
  assert (K : Z.to_nat (Z.of_N (uwrap 2 (uwrap 2 (N.of_nat (8 + n)) + 65528))) = n).
  { unfold uwrap. change (256 ^ N.of_nat 2)%N with 65536%N. lia. }
  set (h := uwrap 2 (N.of_nat (8 + n))) in *. clearbody h.
  assert (HS : sub get_actions set_actions dec_Actions z inner = Res (set_actions v z) c e rst).
  { rewrite (sub_eq get_actions set_actions dec_Actions z inner v c e rst); [reflexivity|].
    destruct Hz as [->| ->]; exact DA. }
  pose proof (sub_eq (snd (A:=N)) (fun x s => (fst s, x)) _ (h, z) _ _ _ _ _ HS) as HB.
  rewrite <- (firstn_app_len n inner tl Hn), <- K in HB.
  apply limited_eq in HB. rewrite HB. cbn [val cnt fail rest snd].
  rewrite K, skipn_app_len by exact Hn. repeat split.
Qed.

Lemma nested_panic l old acts b tl t :
  Forall wf_Instruction l -> Forall wf_Action acts -> 2 <= length b -> num 0 2 b = 27%N ->
  (t = 3 \/ t = 4)%N -> (N.of_nat (actions_size acts + length b) < 65536)%N ->
  fail (dec_Instructions old (enc_Instructions l
          ++ be_enc 2 t ++ be_enc 2 (N.of_nat (8 + (actions_size acts + length b))) ++ zeros 4
          ++ (enc_Actions acts ++ b) ++ tl)) = Some EPanic.
Proof.
  intros W WA L P T S.
  set (inner := enc_Actions acts ++ b).
  assert (LI : length inner = actions_size acts + length b) by (unfold inner; rewrite app_length, actions_length; auto).
  pose proof (instructions_at l old (be_enc 2 t ++ be_enc 2 (N.of_nat (8 + (actions_size acts + length b)))
     ++ zeros 4 ++ inner ++ tl) W) as E. cbv zeta in E. rewrite E. cbn [fail]. clear E. rewrite scan_S.
  destruct (Nat.ltb_spec (length (be_enc 2 t ++ be_enc 2 (N.of_nat (8 + (actions_size acts + length b)))
     ++ zeros 4 ++ inner ++ tl)) 2) as [HL|_].
  { rewrite app_length, be_enc_length in HL. lia. }
  rewrite firstn_app_len by apply be_enc_length.
  rewrite be_dec_enc_fits by (destruct T; subst; reflexivity).
  assert (DP : fail (dec_Actions [] inner) = Some EPanic).
  { unfold inner. rewrite concat_enc. rewrite (decode_panic acts _ b [] (denotes_enc_all acts WA) L P). reflexivity. }
  destruct T as [->| ->].
  - change (make_instruction 3) with (MkOk (IWriteActions [])). cbv iota zeta.
    destruct (instruction_actions_inner 3 _ inner tl [] LI S (IWriteActions []) (or_intror eq_refl))
      as (_ & _ & F & _). rewrite DP in F. cbn [dec_Instruction]. rewrite F. reflexivity.
  - change (make_instruction 4) with (MkOk (IApplyActions [])). cbv iota zeta.
    destruct (instruction_actions_inner 4 _ inner tl [] LI S (IApplyActions []) (or_introl eq_refl))
      as (_ & _ & F & _). rewrite DP in F. cbn [dec_Instruction]. rewrite F. reflexivity.
Qed.

Lemma nofuel_Actions : nofuel dec_Actions.
Proof. intros s inp. apply never_fuel. Qed.

Lemma nofuel_Instruction : nofuel dec_Instruction.
Proof.
  intros i inp. destruct i; cbn [dec_Instruction];
    try (refine (nofuel_seqr _ _ _ inp); repeat constructor; apply nofuel_take);
    (refine (nofuel_with_local _ _ _ _ inp); apply nofuel_andthen;
      [apply nofuel_seqr; repeat constructor; apply nofuel_take
      |intros; apply nofuel_limited, nofuel_sub, nofuel_sub, nofuel_Actions]).
Qed.

Lemma nofuel_Instructions : nofuel dec_Instructions.
Proof. apply nofuel_scan; [apply nofuel_Instruction|apply progressing_Instruction]. Qed.
