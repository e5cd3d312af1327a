(** C103: what is read from the beginning of actions and instructions. *)
From Verif Require Import TruncFacts SeenSpec.
From Coq Require Import Lia.
Ltac Zify.zify_post_hook ::= Z.div_mod_to_equations.

(** [f] leaves [v s n] when it gets the first [n] of the bytes [bs]. *)
Definition leaves {S} (f : step S) (bs : bytes) (v : S -> nat -> S) : Prop :=
  forall s n, n <= length bs -> val (f s (firstn n bs)) = v s n.

Lemma val_take {S} k (u : bytes -> S -> S) fs s b tl n : length b = k ->
  val (seqr (take_full k u :: fs) s (firstn n (b ++ tl)))
  = if k <=? n then val (seqr fs (u b s) (firstn (n - k) tl)) else s.
Proof.
  intro L. cbn [seqr]. destruct (Nat.leb_spec k n) as [H|H].
  - rewrite firstn_behind by lia. rewrite take_long by (rewrite app_length; lia). cbn [fail val rest].
    rewrite firstn_app, L, Nat.sub_diag, app_nil_r, <- L, firstn_all, skipn_app, skipn_all, Nat.sub_diag. reflexivity.
  - rewrite firstn_before by lia. rewrite take_short by (rewrite firstn_length; lia). reflexivity.
Qed.

Lemma val_fu {S} k (set : N -> S -> S) fs s x tl n : fits k x ->
  val (seqr (fu k set :: fs) s (firstn n (be_enc k x ++ tl)))
  = if k <=? n then val (seqr fs (set x s) (firstn (n - k) tl)) else s.
Proof. intro H. unfold fu. rewrite val_take by apply be_enc_length. rewrite be_dec_enc_fits by exact H. reflexivity. Qed.

Lemma val_nil {S} (s : S) inp : val (seqr [] s inp) = s.
Proof. reflexivity. Qed.

Lemma leaves_scan_loop {A} (mk : N -> made A) (rd : step A) (enc : A -> bytes) (seen : A -> nat -> A) l :
  (forall a, In a l -> exists z, mk (be_dec (firstn 2 (enc a))) = MkOk z
     /\ 2 <= length (enc a)
     /\ (forall tl, val (rd z (enc a ++ tl)) = a /\ fail (rd z (enc a ++ tl)) = None /\ rest (rd z (enc a ++ tl)) = tl)
     /\ forall n, n < length (enc a) -> val (rd z (firstn n (enc a))) = seen a n
          /\ (fail (rd z (firstn n (enc a))) = None -> rest (rd z (firstn n (enc a))) = [])) ->
  forall fuel acc n, n <= length (concat (map enc l)) -> n < fuel ->
  val (scan_loop fuel mk rd acc (firstn n (concat (map enc l)))) = acc ++ list_seen (fun a => length (enc a)) seen l n.
Proof.
  induction l as [|a l IH]; intros H fuel acc n Hn Hf; (destruct fuel as [|fuel]; [lia|]).
  - cbn [map concat list_seen]. rewrite firstn_nil, app_nil_r. reflexivity.
  - cbn [map concat list_seen] in *. rewrite app_length in Hn.
    destruct (H a (or_introl eq_refl)) as (z & M & L & P & V).
    set (bs := concat (map enc l)) in *.
    assert (Len : length (firstn n (enc a ++ bs)) = n) by (rewrite firstn_length, app_length; lia).
    unfold scan_loop; fold (@scan_loop A).
    destruct (Nat.ltb_spec (length (firstn n (enc a ++ bs))) 2) as [K|K]; rewrite Len in K.
    + destruct (Nat.leb_spec (length (enc a)) n); [lia|]. destruct (Nat.ltb_spec n 2); [|lia]. rewrite app_nil_r. reflexivity.
    + assert (T : firstn 2 (firstn n (enc a ++ bs)) = firstn 2 (enc a)).
      { rewrite firstn_firstn, Nat.min_l by lia. rewrite firstn_app. replace (2 - length (enc a)) with 0 by lia.
        apply app_nil_r. }
      rewrite T, M. destruct (Nat.leb_spec (length (enc a)) n) as [G|G].
      * rewrite firstn_behind by exact G. specialize (P (firstn (n - length (enc a)) bs)).
        destruct (rd z (enc a ++ firstn (n - length (enc a)) bs)) as [w k e r]. cbn [fail rest val] in P.
        destruct P as (-> & -> & ->). cbn [fail rest val cnt].
        rewrite IH; [rewrite <- app_assoc; reflexivity| |unfold bs in *; lia|lia]. intros b Hb. apply H. right. exact Hb.
      * destruct (Nat.ltb_spec n 2); [lia|]. rewrite firstn_before by exact G. specialize (V n G).
        destruct (rd z (firstn n (enc a))) as [w k e r] eqn:X. cbn [fail rest val] in V. destruct V as [-> R].
        destruct e as [e|]; cbn [fail rest val cnt]; [reflexivity|].
        rewrite (R eq_refl). destruct fuel as [|fuel]; [lia|]. reflexivity.
Qed.

Lemma list_seen_ext {A} size size' (seen : A -> nat -> A) l : (forall a, In a l -> size a = size' a) ->
  forall n, list_seen size seen l n = list_seen size' seen l n.
Proof.
  induction l as [|a l IH]; intros H n; [reflexivity|]. cbn [list_seen]. rewrite (H a) by (left; reflexivity).
  rewrite IH by (intros; apply H; right; assumption). reflexivity.
Qed.

(** ** Match entries *)
Lemma XM_seen x : wf_XM x -> forall n, val (dec_XM zero_XM (firstn n (enc_XM x))) = xm_seen x n.
Proof.
  intros W n. destruct (Nat.leb_spec (xm_size x) n) as [G|G].
  - unfold xm_seen. destruct (Nat.leb_spec (xm_size x) n); [|lia]. rewrite firstn_all2 by (rewrite xm_length by exact W; lia).
    rewrite <- (app_nil_r (enc_XM x)), (rt_XM x W). reflexivity.
  - unfold xm_seen. destruct (Nat.leb_spec (xm_size x) n); [lia|]. rewrite (enc_XM_eq x W).
    pose proof W as (Hc & Ht & Hm & Hl). unfold xm_size in G.
    assert (F1 : fits 2 (XM_Class x)) by exact Hc.
    assert (F2 : fits 1 (2 * XM_Type x + has_mask x)) by (unfold fits, has_mask; change (256 ^ N.of_nat 1)%N with 256%N; destruct (XM_Mask x); lia).
    assert (F3 : fits 1 (N.of_nat (length (XM_Value x) + length (XM_Mask x)))) by (unfold fits; change (256 ^ N.of_nat 1)%N with 256%N; lia).
    pose proof (be_dec_enc_fits _ _ F1) as D1. pose proof (be_dec_enc_fits _ _ F2) as D2. pose proof (be_dec_enc_fits _ _ F3) as D3.
    rewrite be_enc_2 in *. rewrite be_enc_1 in D2, D3. rewrite !be_enc_1. cbn [app].
    destruct n as [|[|[|[|n]]]]; cbn [firstn Nat.leb upto].
    + reflexivity.
    + reflexivity.
    + etransitivity; [|rewrite <- D1; reflexivity]. reflexivity.
    + etransitivity; [|rewrite <- D1, <- D2; reflexivity]. reflexivity.
    + rewrite dec_xm_step. cbv zeta. rewrite be_dec_1 in D2, D3.
      assert (V : length (XM_Value (xm_start (byte_of_N (XM_Class x / 256)) (byte_of_N (XM_Class x)) (byte_of_N (2 * XM_Type x + has_mask x))
                 (byte_of_N (N.of_nat (length (XM_Value x) + length (XM_Mask x)))))) = length (XM_Value x) + length (XM_Mask x))
        by (unfold xm_start; cbn [XM_Value]; rewrite zeros_length, D3; lia).
      unfold fslice, fbytes. rewrite V. rewrite take_short by (rewrite firstn_length, app_length; lia). cbn [fail val].
      unfold xm_start. rewrite D1, D2, D3, Nnat.Nat2N.id. f_equal.
      rewrite <- N.div2_spec. unfold has_mask. destruct (XM_Mask x); destruct (XM_Type x); reflexivity.
Qed.

(** ** Actions *)
Lemma set_field_seen x : wf_XM x -> forall n, n <= action_size (ASetField x) ->
  val (dec_set_field (ASetField zero_XM) (firstn n (enc_set_field x))) = action_seen (ASetField x) n.
Proof.
  intros W n Hn. rewrite set_field_bytes by exact W. cbn [action_size action_seen] in *. pose proof (xm_length x W) as LX.
  pose proof (up8_ge (4 + xm_size x)) as U. pose proof W as (_ & _ & _ & Hs).
  set (z := zeros _). assert (Lz : length z = up8 (4 + xm_size x) - (4 + xm_size x)) by apply zeros_length.
  set (h := N.of_nat (up8 (4 + xm_size x))).
  assert (Hh : (h < 65536)%N) by (unfold h, xm_size in *; lia).
  unfold dec_set_field.
  destruct (Nat.ltb_spec n 4) as [K|K].
  - assert (LB : length (be_enc 2 25 ++ be_enc 2 h) = 4) by (rewrite app_length, !be_enc_length; reflexivity).
    rewrite app_assoc, firstn_before by lia.
    set (inp := firstn n _). assert (Li : length inp = n) by (unfold inp; rewrite firstn_length; lia).
    assert (X : exists v c e r, seqr [fpad 2; fu 2 (fun v (s : N * Action) => (v, snd s))] (0%N, ASetField zero_XM) inp = Res v c (Some e) r
                  /\ snd v = ASetField zero_XM).
    { destruct inp as [|b0 [|b1 [|b2 [|b3 t]]]]; cbn [length] in Li; try lia; do 4 eexists; (split; [reflexivity|reflexivity]). }
    destruct X as (v & c & e & r & X & Y). rewrite (with_local_eq _ _ _ _ _ _ _ _ (andthen_err _ _ _ _ _ _ _ _ X)). exact Y.
  - rewrite app_assoc, firstn_behind by (rewrite app_length, !be_enc_length; lia).
    rewrite app_length, !be_enc_length. change (2 + 2) with 4.
    assert (X : seqr [fpad 2; fu 2 (fun v (s : N * Action) => (v, snd s))] (0%N, ASetField zero_XM)
                  ((be_enc 2 25 ++ be_enc 2 h) ++ firstn (n - 4) (enc_XM x ++ z))
                = Res (h, ASetField zero_XM) 4 None (firstn (n - 4) (enc_XM x ++ z))).
    { rewrite <- app_assoc. assert (R : rt (seqr [fpad 2; fu 2 (fun v (s : N * Action) => (v, snd s))]) (be_enc 2 25 ++ be_enc 2 h ++ []) (fun s => (h, snd s))).
      { eapply rt_ext; cycle 1; [eapply rt_cons; [apply rt_fpad; reflexivity|]; eapply rt_cons; [apply rt_fu; exact Hh|apply rt_nil]|reflexivity]. }
      specialize (R (0%N, ASetField zero_XM) (firstn (n - 4) (enc_XM x ++ z))).
      rewrite app_nil_r, <- app_assoc in R. exact R. }
    assert (G : forall v c e r, sub snd (fun y (s : N * Action) => (fst s, y)) (andthen (sub get_field set_field dec_XM) (fun _ _ => readall (fun _ a => a)))
                  (h, ASetField zero_XM) (firstn (n - 4) (enc_XM x ++ z)) = Res v c e r -> snd v = ASetField (xm_seen x (n - 4))).
    { intros v c e r E. pose proof (f_equal val E) as Ev. cbn [val] in Ev. rewrite <- Ev. unfold sub at 1. cbn [val snd fst].
      unfold andthen. destruct (Nat.le_gt_cases (xm_size x) (n - 4)) as [Q|Q].
      - rewrite firstn_behind by lia. unfold sub. cbn [get_field]. rewrite !(rt_XM x W). cbn [val fail rest cnt set_field readall]. unfold xm_seen.
        destruct (Nat.leb_spec (xm_size x) (n - 4)); [reflexivity|lia].
      - rewrite firstn_before by lia. unfold sub. cbn [get_field]. pose proof (XM_seen x W (n - 4)) as XS.
        destruct (dec_XM zero_XM (firstn (n - 4) (enc_XM x))) as [w k er rr]. cbn [val] in XS. subst w.
        cbn [fail val]. destruct er; reflexivity. }
    destruct (sub snd _ _ (h, ASetField zero_XM) _) as [v c e r] eqn:E in G.
    specialize (G v c e r eq_refl).
    assert (LI : limited (Z.of_N (uwrap 2 (h + 65532)))
        (sub snd (fun y (s : N * Action) => (fst s, y)) (andthen (sub get_field set_field dec_XM) (fun _ _ => readall (fun _ a => a))))
        (h, ASetField zero_XM) (firstn (n - 4) (enc_XM x ++ z)) = Res v c e (r ++ [])).
    { unfold limited. assert (N.to_nat (uwrap 2 (h + 65532)) = up8 (4 + xm_size x) - 4) as LZ.
      { unfold uwrap. change (256 ^ N.of_nat 2)%N with 65536%N. unfold h, xm_size in *. lia. }
      rewrite <- Z_N_nat, N2Z.id, LZ, (firstn_all2 (n := up8 (4 + xm_size x) - 4)) by (rewrite firstn_length; lia).
      rewrite E. cbn [val cnt fail rest]. rewrite skipn_all2 by (rewrite firstn_length; lia). reflexivity. }
    rewrite (with_local_eq _ _ _ _ _ _ _ _ (andthen_both _ _ _ _ _ _ _ _ _ _ _ X LI)). exact G.
Qed.

Ltac members := repeat first
  [ rewrite val_nil | rewrite val_fu by assumption
  | unfold fpad at 1; rewrite val_take by (rewrite ?app_length, ?be_enc_length, ?zeros_length; reflexivity) ].

Lemma val_pad8 {S} (s : S) inp : val (seqr [fpad 8] s inp) = s.
Proof. cbn [seqr]. unfold fpad, take_full. destruct (length inp <? 8); reflexivity. Qed.

Ltac small n := repeat (destruct n as [|n]; [reflexivity|]); lia.

Lemma Action_seen a : wf_Action a -> forall n, n <= action_size a ->
  val (dec_Action (action_seen a 0) (firstn n (enc_Action a))) = action_seen a n.
Proof.
  intros W n Hn. destruct a; cbn [wf_Action action_size] in *;
    try (assert (F : fits 4 port /\ fits 2 maxlen) by exact W; destruct F);
    try (assert (F1 : fits 1 ttl) by exact W); try (assert (F2 : fits 2 ethertype) by exact W);
    try (assert (F3 : fits 4 queue) by exact W); try (assert (F3 : fits 4 group) by exact W);
    try (assert (F3 : fits 4 experimenter) by exact W);
    try exact (val_pad8 _ _);
    try exact (set_field_seen _ W n Hn);
    cbn [action_seen dec_Action enc_Action action_type concat]; unfold action_header, u8, u16, u32, pad, upto.
  - rewrite <- !app_assoc. members. do 17 (destruct n as [|n]; [reflexivity|]). lia.
  - rewrite <- !app_assoc. members. do 9 (destruct n as [|n]; [reflexivity|]). lia.
  - members. do 9 (destruct n as [|n]; [reflexivity|]). lia.
  - members. do 9 (destruct n as [|n]; [reflexivity|]). lia.
  - members. do 9 (destruct n as [|n]; [reflexivity|]). lia.
  - members. do 9 (destruct n as [|n]; [reflexivity|]). lia.
  - members. do 9 (destruct n as [|n]; [reflexivity|]). lia.
  - members. do 9 (destruct n as [|n]; [reflexivity|]). lia.
  - members. do 9 (destruct n as [|n]; [reflexivity|]). lia.
  - members. do 9 (destruct n as [|n]; [reflexivity|]). lia.
Qed.

Lemma make_blank a : make_action (ofpat a) = MkOk (action_seen a 0).
Proof. destruct a; reflexivity. Qed.

(** C103: what is read from the first [n] bytes of a list of actions, with an error
    or without. *)
Theorem C103_actions_read : forall l old n, Forall wf_Action l -> n <= length (enc_Actions l) ->
  val (dec_Actions old (firstn n (enc_Actions l))) = actions_seen l n.
Proof.
  intros l old n W Hn. unfold dec_Actions, pre, scan, enc_Actions in *.
  rewrite (leaves_scan_loop make_action dec_Action enc_Action action_seen l); [|clear Hn|exact Hn|rewrite firstn_length; lia].
  - cbn [app]. apply list_seen_ext. intros a H. rewrite Forall_forall in W. apply action_length. auto.
  - rewrite Forall_forall in W. intros a H. specialize (W a H). exists (action_seen a 0).
    pose proof (num_tag a _ [] (denotes_enc a W)) as T. rewrite app_nil_r in T. rewrite T.
    pose proof (action_length a W) as L. pose proof (action_size_8 a) as L8.
    assert (K : same_kind (action_seen a 0) a) by (destruct a; reflexivity).
    split; [apply make_blank|]. split; [lia|]. split.
    + intro tl. rewrite (dec_denotes (action_seen a 0) a _ tl (denotes_enc a W) K); [auto|]. intros f ->. eexists. reflexivity.
    + intros m Hm. split; [apply Action_seen; [exact W|lia]|]. destruct (snaps_Action _ a W K m) as [E R]; [lia|].
      intro F. apply R. rewrite F in E. destruct (action_cut a m); [reflexivity|discriminate|discriminate].
Qed.
Print Assumptions C103_actions_read.

(** ** Instructions *)
Lemma seen_nothing l : Forall wf_Action l -> actions_seen l 0 = [].
Proof. destruct l as [|a l]; [reflexivity|]. intros _. unfold actions_seen. cbn [list_seen]. pose proof (action_size_8 a). destruct (Nat.leb_spec (action_size a) 0); [lia|]. reflexivity. Qed.

Lemma instruction_actions_seen t l z : Forall wf_Action l -> (N.of_nat (actions_size l) < 65536)%N ->
  (z = IApplyActions [] \/ z = IWriteActions []) -> forall n, n <= 8 + actions_size l ->
  val (dec_instruction_actions z (firstn n (enc_instruction_actions t l))) = set_actions (actions_seen l (n - 8)) z.
Proof.
  intros W L Hz n Hn. rewrite instruction_actions_eq by assumption.
  set (h := N.of_nat (8 + actions_size l)). unfold dec_instruction_actions.
  pose proof (actions_length l W) as AL.
  assert (LB : length (be_enc 2 t ++ be_enc 2 h ++ zeros 4) = 8) by (rewrite !app_length, !be_enc_length, zeros_length; reflexivity).
  replace (be_enc 2 t ++ be_enc 2 h ++ zeros 4 ++ enc_Actions l) with ((be_enc 2 t ++ be_enc 2 h ++ zeros 4) ++ enc_Actions l)
    by (rewrite <- !app_assoc; reflexivity).
  destruct (Nat.ltb_spec n 8) as [K|K].
  - rewrite firstn_before by lia. replace (n - 8) with 0 by lia. rewrite seen_nothing by exact W.
    set (inp := firstn n _). assert (Li : length inp = n) by (unfold inp; rewrite firstn_length; lia).
    assert (X : exists v c e r, seqr [fpad 2; fu 2 (fun v (s : N * Instruction) => (v, snd s)); fpad 4] (0%N, z) inp = Res v c (Some e) r
                  /\ snd v = z).
    { destruct inp as [|b0 [|b1 [|b2 [|b3 [|b4 [|b5 [|b6 [|b7 u]]]]]]]]; cbn [length] in Li; try lia; do 4 eexists; (split; [reflexivity|reflexivity]). }
    destruct X as (v & c & e & r & X & Y). rewrite (with_local_eq _ _ _ _ _ _ _ _ (andthen_err _ _ _ _ _ _ _ _ X)). cbn [val].
    rewrite Y. destruct Hz as [->| ->]; reflexivity.
  - rewrite firstn_behind by lia. rewrite LB.
    set (tl := firstn (n - 8) (enc_Actions l)).
    assert (X : seqr [fpad 2; fu 2 (fun v (s : N * Instruction) => (v, snd s)); fpad 4] (0%N, z)
                  ((be_enc 2 t ++ be_enc 2 h ++ zeros 4) ++ tl) = Res (uwrap 2 h, z) 8 None tl).
    { assert (R : rt (seqr [fpad 2; fu 2 (fun v (s : N * Instruction) => (v, snd s)); fpad 4])
                    (be_enc 2 t ++ be_enc 2 (uwrap 2 h) ++ zeros 4 ++ []) (fun s => (uwrap 2 h, snd s))).
      { eapply rt_ext; cycle 1; [eapply rt_cons; [apply rt_fpad, be_enc_length|]; eapply rt_cons; [apply rt_fu, uwrap_fits|];
          eapply rt_cons; [apply rt_zeros|apply rt_nil]|reflexivity]. }
      specialize (R (0%N, z) tl). rewrite be_enc_uwrap, app_nil_r in R. rewrite LB in R. exact R. }
    set (q := sub snd (fun x (s : N * Instruction) => (fst s, x)) (sub get_actions set_actions dec_Actions)) in *.
    assert (G : snd (val (q (uwrap 2 h, z) tl)) = set_actions (actions_seen l (n - 8)) z).
    { unfold q, sub. cbn [val snd fst]. unfold tl. rewrite C103_actions_read by (auto; lia). reflexivity. }
    assert (LI : limited (Z.of_N (uwrap 2 (uwrap 2 h + 65528))) q (uwrap 2 h, z) tl
                 = Res (val (q (uwrap 2 h, z) tl)) (cnt (q (uwrap 2 h, z) tl)) (fail (q (uwrap 2 h, z) tl)) (rest (q (uwrap 2 h, z) tl) ++ [])).
    { unfold limited. assert (N.to_nat (uwrap 2 (uwrap 2 h + 65528)) = actions_size l) as LZ.
      { unfold uwrap, h. change (256 ^ N.of_nat 2)%N with 65536%N. lia. }
      assert (LT : length tl <= actions_size l) by (unfold tl; rewrite firstn_length; lia).
      rewrite <- Z_N_nat, N2Z.id, LZ, (firstn_all2 (n := actions_size l)) by exact LT.
      rewrite skipn_all2 by exact LT. reflexivity. }
    rewrite (with_local_eq _ _ _ _ _ _ _ _ (andthen_both _ _ _ _ _ _ _ _ _ _ _ X LI)). exact G.
Qed.

Lemma Instruction_seen i : wf_Instruction i -> forall n, n <= instruction_size i ->
  val (dec_Instruction (instruction_seen i 0) (firstn n (enc_Instruction i))) = instruction_seen i n.
Proof.
  intros W n Hn. destruct i; cbn [wf_Instruction instruction_size] in *.
  - assert (F : fits 1 table) by exact W.
    cbn [instruction_seen dec_Instruction enc_Instruction instruction_type concat]; unfold u8, u16, pad, upto.
    members. do 9 (destruct n as [|n]; [reflexivity|]). lia.
  - assert (F : fits 8 metadata /\ fits 8 mask) by exact W. destruct F.
    cbn [instruction_seen dec_Instruction enc_Instruction instruction_type concat]; unfold u64, u16, pad, upto.
    members. do 25 (destruct n as [|n]; [reflexivity|]). lia.
  - destruct W as [W L]. cbn [instruction_seen dec_Instruction enc_Instruction]. rewrite seen_nothing by exact W.
    rewrite (instruction_actions_seen _ _ _ W L) by (auto; lia). reflexivity.
  - destruct W as [W L]. cbn [instruction_seen dec_Instruction enc_Instruction]. rewrite seen_nothing by exact W.
    rewrite (instruction_actions_seen _ _ _ W L) by (auto; lia). reflexivity.
  - exact (val_pad8 _ _).
  - assert (F : fits 4 meter) by exact W.
    cbn [instruction_seen dec_Instruction enc_Instruction instruction_type concat]; unfold u32, u16, pad, upto.
    members. do 9 (destruct n as [|n]; [reflexivity|]). lia.
Qed.

(** C103: the same for a list of instructions; they are appended to what was there. *)
Theorem C103_instructions_read : forall l old n, Forall wf_Instruction l -> n <= length (enc_Instructions l) ->
  val (dec_Instructions old (firstn n (enc_Instructions l))) = old ++ instructions_seen l n.
Proof.
  intros l old n W Hn. unfold dec_Instructions, scan, enc_Instructions in *.
  rewrite (leaves_scan_loop make_instruction dec_Instruction enc_Instruction instruction_seen l); [|clear Hn|exact Hn|rewrite firstn_length; lia].
  - f_equal. apply list_seen_ext. intros i H. rewrite Forall_forall in W. apply instruction_length. auto.
  - rewrite Forall_forall in W. intros i H. specialize (W i H). exists (instruction_seen i 0).
    pose proof (instruction_length i W) as L. pose proof (instruction_size_8 i) as L8.
    assert (K : instruction_type (instruction_seen i 0) = instruction_type i) by (destruct i; reflexivity).
    split.
    { destruct i; cbn [wf_Instruction] in W; cbn [instruction_seen]; rewrite ?seen_nothing by apply W; reflexivity. }
    split; [lia|]. split.
    + intro tl. rewrite (dec_Instruction_rt (instruction_seen i 0) i W K tl). auto.
    + intros m Hm. split; [apply Instruction_seen; [exact W|lia]|].
      destruct (snaps_Instruction (instruction_seen i 0) i W K m) as [E R]; [lia|].
      intro F. apply R. rewrite F in E. destruct (instruction_cut i m); [reflexivity|discriminate|discriminate].
Qed.
Print Assumptions C103_instructions_read.

(** A push-VLAN tag, a set-field of a masked metadata and an output; the packet ends
    behind the header of the field, four bytes into the set-field payload, behind
    the port of the output. *)
Definition cut_actions : list Action :=
  [APushVLAN 33024; ASetField (MkXM 32768 2 (be_enc 8 77) (be_enc 8 255)); AOutput 3 65535].

Example C103_actions_read_ex :
  Forall wf_Action cut_actions /\ length (enc_Actions cut_actions) = 48
  /\ actions_seen cut_actions 16 = [APushVLAN 33024; ASetField (MkXM 32768 2 (zeros 16) [])]
  /\ actions_seen cut_actions 13 = [APushVLAN 33024; ASetField (MkXM 0 0 [] [])]
  /\ actions_seen cut_actions 40 = [APushVLAN 33024; ASetField (MkXM 32768 2 (be_enc 8 77) (be_enc 8 255)); AOutput 3 0]
  /\ val (dec_Actions [] (firstn 16 (enc_Actions cut_actions))) = actions_seen cut_actions 16
  /\ val (dec_Actions [ACopyTTLIn] (firstn 40 (enc_Actions cut_actions))) = actions_seen cut_actions 40.
Proof.
  split; [|vm_compute; repeat split; reflexivity].
  repeat constructor; try (vm_compute; reflexivity); vm_compute; lia.
Qed.

(** A meter cut behind its header is meter 0, a jump cut behind its header goes to
    table 0, and an apply-actions whose last output is cut sends to port 0. *)
Definition cut_instructions : list Instruction := [IMeter 9; IApplyActions [ACopyTTLIn; AOutput 3 65535]; IGotoTable 4].

Example C103_instructions_read_ex :
  Forall wf_Instruction cut_instructions /\ length (enc_Instructions cut_instructions) = 48
  /\ instructions_seen cut_instructions 4 = [IMeter 0]
  /\ instructions_seen cut_instructions 28 = [IMeter 9; IApplyActions [ACopyTTLIn; AOutput 0 0]]
  /\ instructions_seen cut_instructions 44 = [IMeter 9; IApplyActions [ACopyTTLIn; AOutput 3 65535]; IGotoTable 0]
  /\ val (dec_Instructions [IClearActions] (firstn 28 (enc_Instructions cut_instructions)))
     = IClearActions :: instructions_seen cut_instructions 28.
Proof.
  split; [|vm_compute; repeat split; reflexivity].
  repeat constructor; try (vm_compute; reflexivity); vm_compute; lia.
Qed.
