(** What decoders report for the beginnings of encodings. *)
From Verif Require Export VaryingModel VaryingSpec TruncSpec StepFacts FlowFacts ListFacts.
Ltac Zify.zify_post_hook ::= Z.div_mod_to_equations.

(** [f] reads the encoding [bs] whatever comes behind it. *)
Definition passes {S} (f : step S) (bs : bytes) : Prop :=
  forall s tl, fail (f s (bs ++ tl)) = None /\ rest (f s (bs ++ tl)) = tl.

(** What [f] reports for the beginnings of [bs] is [v]. *)
Definition snaps {S} (f : step S) (bs : bytes) (v : nat -> finding) : Prop :=
  forall s n, n <= length bs ->
    fail (f s (firstn n bs)) = told (v n) /\ (v n = Fine -> rest (f s (firstn n bs)) = []).

(** What [f] reports depends on the number of bytes only. *)
Definition plain {S} (ws : list nat) (f : step S) : Prop :=
  forall s inp,
    (length inp < list_sum ws -> fail (f s inp) = told (fields ws (length inp)) /\ rest (f s inp) = [])
    /\ (list_sum ws <= length inp -> fail (f s inp) = None /\ rest (f s inp) = skipn (list_sum ws) inp).

Lemma fields_short ws n : n < list_sum ws -> fields ws n <> Fine.
Proof.
  revert n. induction ws as [|w ws IH]; intros n H; [cbn in H; lia|].
  change (list_sum (w :: ws)) with (w + list_sum ws) in H. cbn [fields].
  destruct (Nat.leb_spec w n); [apply IH; lia|]. destruct (n =? 0); discriminate.
Qed.

Lemma fields_all ws n : list_sum ws <= n -> fields ws n = Fine.
Proof.
  revert n. induction ws as [|w ws IH]; intros n H; [reflexivity|].
  change (list_sum (w :: ws)) with (w + list_sum ws) in H. cbn [fields].
  destruct (Nat.leb_spec w n); [apply IH; lia|lia].
Qed.

Lemma rt_passes {S} (f : step S) bs g : rt f bs g -> passes f bs.
Proof. intros H s tl. rewrite H. auto. Qed.

Lemma whole_snap {S} (f : step S) bs g s : whole f bs g -> fail (f s bs) = None /\ rest (f s bs) = [].
Proof. intro H. rewrite H. auto. Qed.

Lemma plain_take {S} k (upd : bytes -> S -> S) : plain [k] (take_full k upd).
Proof.
  intros s inp. cbn [list_sum fold_right]. rewrite Nat.add_0_r. split; intro H.
  - rewrite take_short by exact H. cbn [fail rest fields]. split; [|reflexivity].
    destruct (Nat.leb_spec k (length inp)); [lia|]. destruct inp; reflexivity.
  - rewrite take_long by exact H. auto.
Qed.

Lemma plain_sub {S A} ws (get : S -> A) set (f : step A) : plain ws f -> plain ws (sub get set f).
Proof. intros H s inp. apply (H (get s) inp). Qed.

Lemma plain_nil {S} : plain [] (seqr (S := S) []).
Proof. intros s inp. cbn. split; intro; [lia|auto]. Qed.

Lemma plain_cons {S} w ws (f : step S) fs : plain [w] f -> plain ws (seqr fs) -> plain (w :: ws) (seqr (f :: fs)).
Proof.
  intros Hf H s inp. specialize (Hf s inp). cbn [list_sum fold_right] in Hf.
  rewrite Nat.add_0_r in Hf. change (list_sum (w :: ws)) with (w + list_sum ws).
  destruct (f s inp) as [v n e r] eqn:E. cbn [fail rest] in Hf. destruct Hf as [A B].
  destruct (Nat.lt_ge_cases (length inp) w) as [L|L].
  - destruct (A L) as [Ee Er]. split; [|intro; lia]. intros _.
    cbn [fields] in Ee |- *. destruct (Nat.leb_spec w (length inp)); [lia|].
    destruct e as [e|]; [|destruct (length inp =? 0); discriminate].
    rewrite (seqr_err _ _ _ _ _ _ _ _ E). cbn [fail rest]. auto.
  - destruct (B L) as [-> ->]. specialize (H v (skipn w inp)).
    rewrite skipn_length in H.
    destruct (seqr fs v (skipn w inp)) as [v' n' e' r'] eqn:E'. cbn [fail rest] in H.
    rewrite (seqr_ok _ _ _ _ _ _ _ _ _ _ _ E E'). cbn [fail rest fields].
    destruct (Nat.leb_spec w (length inp)); [|lia].
    rewrite <- skipn_skipn_add. destruct H as [P Q]. split; intro; [apply P|apply Q]; lia.
Qed.

Lemma plain_snaps {S} ws (f : step S) bs : plain ws f -> length bs = list_sum ws -> snaps f bs (fields ws).
Proof.
  intros H L s n Hn. destruct (H s (firstn n bs)) as [A B]. rewrite firstn_length, Nat.min_l in A, B by exact Hn.
  destruct (Nat.lt_ge_cases n (list_sum ws)) as [K|K].
  - destruct (A K) as [E R]. auto.
  - destruct (B K) as [E R]. rewrite fields_all by exact K. split; [exact E|]. intros _. rewrite R.
    apply skipn_all2. rewrite firstn_length. lia.
Qed.

Lemma plain_passes {S} ws (f : step S) bs : plain ws f -> length bs = list_sum ws -> passes f bs.
Proof.
  intros H L s tl. destruct (H s (bs ++ tl)) as [_ B]. rewrite app_length in B.
  destruct B as [-> ->]; [lia|]. split; [reflexivity|]. rewrite <- L. apply skipn_app_exact.
Qed.

Lemma firstn_before {A} n (a b : list A) : n < length a -> firstn n (a ++ b) = firstn n a.
Proof. intro H. rewrite firstn_app. replace (n - length a) with 0 by lia. apply app_nil_r. Qed.

Lemma firstn_behind {A} n (a b : list A) : length a <= n -> firstn n (a ++ b) = a ++ firstn (n - length a) b.
Proof. intro H. rewrite firstn_app, firstn_all2 by exact H. reflexivity. Qed.

(** ** Combinators *)
Lemma snaps_sub {S A} (get : S -> A) set (f : step A) bs v : snaps f bs v -> snaps (sub get set f) bs v.
Proof. intros H s n Hn. apply (H (get s) n Hn). Qed.
Lemma snaps_local {L S} (l : L) (f : step (L * S)) bs v : snaps f bs v -> snaps (with_local l f) bs v.
Proof. intros H s n Hn. apply (H (l, s) n Hn). Qed.
Lemma snaps_pre {S} (g : S -> S) (f : step S) bs v : snaps f bs v -> snaps (pre g f) bs v.
Proof. intros H s n Hn. apply (H (g s) n Hn). Qed.
Lemma snaps_limited {S} z (f : step S) bs v : (Z.of_nat (length bs) <= z)%Z -> snaps f bs v -> snaps (limited z f) bs v.
Proof.
  intros Hz H s n Hn. destruct (H s n Hn) as [E R].
  assert (K : firstn (Z.to_nat z) (firstn n bs) = firstn n bs) by (apply firstn_all2; rewrite firstn_length; lia).
  rewrite <- K in E, R.
  destruct (f s (firstn (Z.to_nat z) (firstn n bs))) as [v' n' e r] eqn:X. cbn [fail rest] in E, R.
  rewrite (limited_eq _ _ _ _ _ _ _ _ X). cbn [fail rest]. split; [exact E|]. intro F.
  rewrite (R F). apply skipn_all2. rewrite firstn_length. lia.
Qed.
Lemma snaps_ext {S} (f : step S) bs v v' : (forall n, n <= length bs -> v' n = v n) -> snaps f bs v -> snaps f bs v'.
Proof. intros E H s n Hn. rewrite (E n Hn). apply H, Hn. Qed.

Lemma seqr_app_eq {S} (fs gs : list (step S)) s inp :
  seqr (fs ++ gs) s inp = andthen (seqr fs) (fun _ _ => seqr gs) s inp.
Proof.
  revert s inp. induction fs as [|f fs IH]; intros s inp.
  - cbn [app]. unfold andthen. cbn [seqr fail val cnt rest Nat.add]. apply res_eta.
  - cbn [app seqr]. unfold andthen. cbn [seqr]. destruct (f s inp) as [v n [e|] r] eqn:E; cbn [fail val cnt rest];
      [reflexivity|]. rewrite IH. unfold andthen. destruct (seqr fs v r) as [v' n' [e'|] r'] eqn:E'; cbn [fail val cnt rest];
      [reflexivity|]. rewrite Nat.add_assoc. reflexivity.
Qed.

(** In sequence: the second part is reached with nothing left when the first one
    does not notice the cut. *)
Lemma snaps_andthen {S} (a : step S) b g bs1 bs2 v1 v2 :
  rt a bs1 g -> snaps a bs1 v1 -> (forall s, snaps (b (length bs1) (g s)) bs2 v2) ->
  (forall n, n < length bs1 -> v1 n <> Fine)
  \/ (forall n h s, fail (b n h s []) = told (v2 0) /\ rest (b n h s []) = []) ->
  snaps (andthen a b) (bs1 ++ bs2) (followed (length bs1) v1 v2).
Proof.
  intros Ha S1 S2 C s n Hn. unfold followed. rewrite app_length in Hn.
  destruct (Nat.ltb_spec n (length bs1)) as [K|K].
  - rewrite firstn_before by exact K. destruct (S1 s n) as [E R]; [lia|].
    destruct (a s (firstn n bs1)) as [v k e r] eqn:X. cbn [fail rest] in E, R. 
    destruct (v1 n) eqn:V; cbn [told] in E; subst e.
    + rewrite (R eq_refl) in X. rewrite (andthen_ok _ _ _ _ _ _ _ X). cbn [fail rest].
      destruct C as [C|C]; [exfalso; exact (C n K V)|]. destruct (C k v v) as [-> ->]. auto.
    + rewrite (andthen_err _ _ _ _ _ _ _ _ X). cbn. split; [reflexivity|discriminate].
    + rewrite (andthen_err _ _ _ _ _ _ _ _ X). cbn. split; [reflexivity|discriminate].
  - rewrite firstn_behind by exact K. rewrite (andthen_ok _ _ _ _ _ _ _ (Ha s _)). cbn [fail rest].
    apply S2. lia.
Qed.

(** The same for a first part of which only the length matters. *)
Lemma snaps_then {S} (a b : step S) bs1 bs2 v1 v2 :
  passes a bs1 -> snaps a bs1 v1 -> snaps b bs2 v2 ->
  snaps (andthen a (fun _ _ => b)) (bs1 ++ bs2) (followed (length bs1) v1 v2).
Proof.
  intros Ha S1 S2 s n Hn. unfold followed. rewrite app_length in Hn.
  destruct (Nat.ltb_spec n (length bs1)) as [K|K].
  - rewrite firstn_before by exact K. destruct (S1 s n) as [E R]; [lia|].
    destruct (a s (firstn n bs1)) as [v k e r] eqn:X. cbn [fail rest] in E, R. 
    destruct (v1 n) eqn:V; cbn [told] in E; subst e.
    + rewrite (R eq_refl) in X. rewrite (andthen_ok _ _ _ _ _ _ _ X). cbn [fail rest].
      apply (S2 v 0). lia.
    + rewrite (andthen_err _ _ _ _ _ _ _ _ X). cbn. split; [reflexivity|discriminate].
    + rewrite (andthen_err _ _ _ _ _ _ _ _ X). cbn. split; [reflexivity|discriminate].
  - rewrite firstn_behind by exact K. specialize (Ha s (firstn (n - length bs1) bs2)).
    destruct (a s (bs1 ++ firstn (n - length bs1) bs2)) as [v k e r] eqn:X. cbn [fail rest] in Ha.
    destruct Ha as [-> ->]. rewrite (andthen_ok _ _ _ _ _ _ _ X). cbn [fail rest].
    apply S2. lia.
Qed.

Lemma snaps_seqr {S} (fs gs : list (step S)) bs1 bs2 v1 v2 :
  passes (seqr fs) bs1 -> snaps (seqr fs) bs1 v1 -> snaps (seqr gs) bs2 v2 ->
  snaps (seqr (fs ++ gs)) (bs1 ++ bs2) (followed (length bs1) v1 v2).
Proof.
  intros P A B s n Hn. rewrite seqr_app_eq. apply (snaps_then _ _ _ _ _ _ P A B s n Hn).
Qed.

Lemma seqr_one {S} (f : step S) s inp : 
  fail (seqr [f] s inp) = fail (f s inp) /\ rest (seqr [f] s inp) = rest (f s inp).
Proof. cbn [seqr]. destruct (f s inp) as [v n [e|] r]; cbn; auto. Qed.

Lemma snaps_one {S} (f : step S) bs v : snaps f bs v -> snaps (seqr [f]) bs v.
Proof. intros H s n Hn. destruct (seqr_one f s (firstn n bs)) as [-> ->]. apply H, Hn. Qed.
Lemma passes_one {S} (f : step S) bs : passes f bs -> passes (seqr [f]) bs.
Proof. intros H s tl. destruct (seqr_one f s (bs ++ tl)) as [-> ->]. apply H. Qed.

Lemma passes_sub {S A} (get : S -> A) set (f : step A) bs : passes f bs -> passes (sub get set f) bs.
Proof. intros H s tl. apply (H (get s) tl). Qed.

Lemma snaps_readall {S} (set : bytes -> S -> S) bs : snaps (readall set) bs (fun _ => Fine).
Proof. intros s n Hn. split; reflexivity. Qed.

(** ** Lists of elements *)
Lemma snaps_scan_loop {A B} (mk : N -> made A) (rd : step A) (enc : B -> bytes) (v : B -> nat -> finding) l : 
  (forall a, In a l -> exists z, mk (be_dec (firstn 2 (enc a))) = MkOk z
                        /\ 2 <= length (enc a)
                        /\ (forall tl, fail (rd z (enc a ++ tl)) = None /\ rest (rd z (enc a ++ tl)) = tl)
                        /\ forall n, n <= length (enc a) -> fail (rd z (firstn n (enc a))) = told (v a n)
                             /\ (v a n = Fine -> rest (rd z (firstn n (enc a))) = [])) ->
  forall fuel acc n, n <= length (concat (map enc l)) -> n < fuel ->
  fail (scan_loop fuel mk rd acc (firstn n (concat (map enc l))))
  = told (elements (map (fun a => (length (enc a), v a)) l) n)
  /\ rest (scan_loop fuel mk rd acc (firstn n (concat (map enc l)))) = [].
Proof.
  induction l as [|a l IH]; intros H fuel acc n Hn Hf; (destruct fuel as [|fuel]; [lia|]).
  - cbn [map concat elements]. rewrite firstn_nil. split; reflexivity.
  - cbn [map concat elements] in *. rewrite app_length in Hn.
    destruct (H a (or_introl eq_refl)) as (z & M & L & P & V).
    set (bs := concat (map enc l)) in *.
    assert (Len : length (firstn n (enc a ++ bs)) = n) by (rewrite firstn_length, app_length; lia).
    unfold scan_loop; fold (@scan_loop A).
    destruct (Nat.ltb_spec (length (firstn n (enc a ++ bs))) 2) as [K|K]; rewrite Len in K.
    + destruct (Nat.leb_spec (length (enc a)) n); [lia|]. destruct (Nat.ltb_spec n 2); [|lia]. split; reflexivity.
    + assert (T : firstn 2 (firstn n (enc a ++ bs)) = firstn 2 (enc a)).
      { rewrite firstn_firstn, Nat.min_l by lia. rewrite firstn_app. replace (2 - length (enc a)) with 0 by lia.
        apply app_nil_r. }
      rewrite T, M. destruct (Nat.leb_spec (length (enc a)) n) as [G|G].
      * rewrite firstn_behind by exact G. specialize (P (firstn (n - length (enc a)) bs)).
        destruct (rd z (enc a ++ firstn (n - length (enc a)) bs)) as [w k e r]. cbn [fail rest] in P.
        destruct P as [-> ->]. cbn [fail rest val cnt].
        apply IH; [|unfold bs in *; lia|lia]. intros b Hb. apply H. right. exact Hb.
      * destruct (Nat.ltb_spec n 2); [lia|]. rewrite firstn_before by exact G. specialize (V n (Nat.lt_le_incl _ _ G)).
        destruct (rd z (firstn n (enc a))) as [w k e r] eqn:X. cbn [fail rest] in V. destruct V as [V R].
        destruct (v a n) eqn:VV; cbn [told] in V; subst e; cbn [fail rest val cnt skip_eof told]; [|auto|auto].
        rewrite (R eq_refl). destruct fuel as [|fuel]; [lia|]. cbn. auto.
Qed.

Lemma snaps_scan {A} (mk : N -> made A) (rd : step A) (enc : A -> bytes) (v : A -> nat -> finding) l : 
  (forall a, In a l -> exists z, mk (be_dec (firstn 2 (enc a))) = MkOk z
                        /\ 2 <= length (enc a)
                        /\ (forall tl, fail (rd z (enc a ++ tl)) = None /\ rest (rd z (enc a ++ tl)) = tl)
                        /\ forall n, n <= length (enc a) -> fail (rd z (firstn n (enc a))) = told (v a n)
                             /\ (v a n = Fine -> rest (rd z (firstn n (enc a))) = [])) ->
  snaps (scan mk rd) (concat (map enc l)) (elements (map (fun a => (length (enc a), v a)) l)).
Proof.
  intros H s n Hn. unfold scan.
  assert (Len : length (firstn n (concat (map enc l))) = n) by (rewrite firstn_length; lia).
  destruct (snaps_scan_loop mk rd enc v l H (Datatypes.S (length (firstn n (concat (map enc l))))) s n Hn) as [E R]; [lia|].
  auto.
Qed.

(** ** Entries and matches *)
Lemma fields_head n p : n < 4 -> fields [2; 1; 1; p] n = fields [2; 1; 1] n /\ fields [2; 1; 1] n <> Fine.
Proof. intro H. do 4 (destruct n as [|n]; [split; [reflexivity|discriminate]|]). lia. Qed.

Lemma snaps_XM x : wf_XM x -> snaps dec_XM (enc_XM x) (fields [2; 1; 1; xm_size x - 4]).
Proof.
  intros W s n Hn. assert (LX := xm_length x W).
  destruct (represents_enc x W) as (c1 & c2 & f & l & payload & E & Hl & _).
  rewrite E in LX, Hn |- *. cbn [length] in LX, Hn.
  destruct (Nat.lt_ge_cases n 4) as [K|K].
  - destruct (fields_head n (xm_size x - 4) K) as [-> F].
    assert (P : plain [2; 1; 1]
       (seqr [sub snd (fun x (s : N * XM) => (fst s, x)) (fu 2 set_XM_Class);
        sub snd (fun x s => (fst s, x)) (fu 1 set_XM_Type);
        fu 1 (fun v s => (v, snd s))])).
    { do 2 (apply plain_cons; [apply plain_sub, plain_take|]). apply plain_cons; [apply plain_take|apply plain_nil]. }
    set (inp := firstn n _).
    assert (Li : length inp = n) by (unfold inp; rewrite firstn_length; cbn [length]; lia).
    destruct (P (0%N, s) inp) as [Q _]. cbn [list_sum fold_right Nat.add] in Q. rewrite Li in Q.
    destruct (Q K) as [Ee Er]. unfold dec_XM, dec_xm.
    destruct (seqr _ (0%N, s) inp) as [v k e r] eqn:X in Ee, Er. cbn [fail rest] in Ee, Er.
    destruct e as [e|]; [|destruct (fields [2; 1; 1] n); [contradiction|discriminate..]].
    rewrite (with_local_eq _ _ _ _ _ _ _ _ (andthen_err _ _ _ _ _ _ _ _ X)). cbn [fail rest].
    split; [exact Ee|contradiction].
  - destruct n as [|[|[|[|n]]]]; try lia. rewrite !firstn_cons, dec_xm_step. cbv zeta.
    replace (xm_size x - 4) with (length payload) by lia.
    assert (V : length (XM_Value (xm_start c1 c2 f l)) = length payload)
      by (unfold xm_start; cbn [XM_Value]; rewrite zeros_length; symmetry; exact Hl).
    unfold fslice, fbytes. rewrite V. cbn [fields Nat.leb Nat.sub].
    assert (Len : length (firstn n payload) = n) by (rewrite firstn_length; lia).
    rewrite Nat.sub_0_r. destruct (Nat.leb_spec (length payload) n) as [G|G].
    + rewrite take_long by lia. cbn [fail rest]. split; [reflexivity|]. intros _.
      apply skipn_all2. lia.
    + rewrite take_short by lia. cbn [fail rest]. 
      destruct (firstn n payload) as [|b t] eqn:P; cbn [length] in Len; subst n; cbn [Nat.eqb]; split; try reflexivity;
        discriminate.
Qed.

Lemma snaps_xm_loop l : Forall wf_XM l ->
  forall fuel acc n, n <= length (concat (map enc_XM l)) -> n < fuel ->
  snd (xm_loop fuel true acc (firstn n (concat (map enc_XM l)))) = told (entries_of (map xm_size l) n).
Proof.
  induction 1 as [|x l W H IH]; intros fuel acc n Hn Hf; (destruct fuel as [|fuel]; [lia|]).
  - cbn [map concat entries_of]. rewrite firstn_nil. reflexivity.
  - cbn [map concat entries_of] in *. rewrite app_length in Hn.
    assert (LX := xm_length x W). set (bs := concat (map enc_XM l)) in *.
    assert (Len : length (firstn n (enc_XM x ++ bs)) = n) by (rewrite firstn_length, app_length; lia).
    assert (X4 : 4 <= xm_size x) by (unfold xm_size; lia).
    cbn [xm_loop]. destruct (Nat.ltb_spec (length (firstn n (enc_XM x ++ bs))) 4) as [K|K]; rewrite Len in K.
    + destruct (Nat.leb_spec (xm_size x) n); [lia|]. destruct (Nat.ltb_spec n 4); [reflexivity|lia].
    + change (dec_xm true) with dec_XM. destruct (Nat.leb_spec (xm_size x) n) as [G|G].
      * rewrite firstn_behind by lia. rewrite !(rt_XM x W). cbn [fail val rest]. rewrite LX. apply IH; lia.
      * rewrite firstn_before by lia. destruct (snaps_XM x W zero_XM n) as [E _]; [lia|].
        destruct (Nat.ltb_spec n 4); [lia|].
        assert (F : fields [2; 1; 1; xm_size x - 4] n = if n =? 4 then Ended else Broken).
        { destruct n as [|[|[|[|n]]]]; try lia. cbn [fields Nat.leb Nat.sub]. rewrite Nat.sub_0_r.
          destruct (Nat.leb_spec (xm_size x - 4) n); [lia|]. reflexivity. }
        rewrite F in E. 
        destruct (dec_XM zero_XM (firstn n (enc_XM x))) as [v k e r]. cbn [fail] in E |- *.
        destruct (n =? 4); cbn [told] in E; subst e; reflexivity.
Qed.

Lemma snaps_entries l : Forall wf_XM l ->
  snaps (read_all_xm true) (concat (map enc_XM l)) (entries_of (map xm_size l)).
Proof.
  intros H s n Hn. unfold read_all_xm.
  assert (Len : length (firstn n (concat (map enc_XM l))) = n) by (rewrite firstn_length; lia).
  pose proof (snaps_xm_loop l H (Datatypes.S (length (firstn n (concat (map enc_XM l))))) s n Hn) as E.
  destruct (xm_loop _ true s _) as [a e]. cbn [snd] in E. cbn [fail rest]. split; [apply E; lia|reflexivity].
Qed.

Lemma snaps_Match m : wf_Match m -> snaps dec_Match (enc_Match m) (match_cut m).
Proof.
  destruct m as [t l]. intros (Ht & Hl & Hs). cbn [Match_Type Match_Fields] in *.
  assert (L := fields_length l Hl).
  unfold dec_Match, enc_Match, match_cut, match_size. cbn [Match_Type Match_Fields]. cbv zeta.
  rewrite uwrap2 by lia. rewrite <- L. set (buf := concat (map enc_XM l)) in *.
  replace (up8 (4 + length buf) - 4 - length buf) with (pad_len (length buf + 4))
    by (rewrite <- up8_pad, (Nat.add_comm (length buf) 4); lia).
  replace (concat [u16 t; u16 (N.of_nat (length buf + 4)); buf; pad (pad_len (length buf + 4))])
    with (concat [u16 t; u16 (N.of_nat (length buf + 4))] ++ (buf ++ pad (pad_len (length buf + 4))))
    by (cbn [concat]; rewrite !app_nil_r, <- !app_assoc; reflexivity).
  apply snaps_pre, snaps_local.
  eapply (snaps_andthen _ _ (fun s : N * Match => (N.of_nat (length buf + 4), set_Match_Type t (snd s)))
            (concat [u16 t; u16 (N.of_nat (length buf + 4))])).
  - eapply rt_ext; cycle 1.
    + eapply rt_concat_cons; [apply rt_sub, rt_fu; exact Ht|].
      eapply rt_concat_cons; [apply rt_fu; unfold fits; change (256 ^ N.of_nat 2)%N with 65536%N; lia|].
      apply rt_concat_nil.
    + reflexivity.
  - apply plain_snaps; [|reflexivity].
    apply plain_cons; [apply plain_sub, plain_take|]. apply plain_cons; [apply plain_take|apply plain_nil].
  - intro s. cbn [fst snd]. apply snaps_sub. apply snaps_then.
    + apply (rt_passes _ _ (fun m => set_Match_Fields (Match_Fields m ++ l) m)).
      apply rt_limited; [lia|].
      apply (whole_sub Match_Fields set_Match_Fields _ _ (fun old => old ++ l)), whole_read_all, Hl.
    + apply snaps_limited; [lia|]. apply snaps_sub. apply snaps_entries, Hl.
    + rewrite Nnat.Nat2N.id. apply (plain_snaps [_]); [apply plain_take|]. unfold pad. rewrite zeros_length.
      cbn [list_sum fold_right]. lia.
  - left. intros n K. apply (fields_short [2; 2]). exact K.
Qed.

(** ** Actions *)
Ltac plainly := repeat first [apply plain_nil | apply plain_cons; [first [apply plain_take|apply plain_sub, plain_take | apply plain_sub, plain_sub, plain_take]|]].

Lemma snaps_set_field x : wf_XM x -> snaps dec_set_field (enc_set_field x) (action_cut (ASetField x)).
Proof.
  intro W. rewrite set_field_bytes by exact W. cbn [action_cut action_size]. assert (LX := xm_length x W).
  pose proof (up8_ge (4 + xm_size x)) as U. pose proof W as (_ & _ & _ & Hs).
  replace (followed (xm_size x)) with (followed (length (enc_XM x))) by (rewrite LX; reflexivity).
  set (z := zeros _). assert (Lz : length z = up8 (4 + xm_size x) - (4 + xm_size x)) by apply zeros_length.
  rewrite app_assoc. unfold dec_set_field. apply snaps_local.
  set (h := N.of_nat (up8 (4 + xm_size x))).
  assert (Hh : (h < 65536)%N) by (unfold h, xm_size in *; lia).
  replace (be_enc 2 25 ++ be_enc 2 h) with (concat [u16 25; u16 h]) by (cbn [concat]; rewrite app_nil_r; reflexivity).
  eapply (snaps_andthen _ _ (fun s : N * Action => (h, snd s)) (concat [u16 25; u16 h])).
  - eapply rt_ext; cycle 1.
    + eapply rt_concat_cons; [apply rt_fpad; reflexivity|].
      eapply rt_concat_cons; [apply rt_fu; exact Hh|]. apply rt_concat_nil.
    + reflexivity.
  - apply plain_snaps; [plainly|reflexivity].
  - intro s. cbn [fst]. apply snaps_limited.
    + rewrite app_length. unfold uwrap. change (256 ^ N.of_nat 2)%N with 65536%N. unfold h, xm_size in *. lia.
    + apply snaps_sub. apply snaps_then.
      * apply passes_sub. apply (rt_passes _ _ _ (rt_XM x W)).
      * apply snaps_sub, snaps_XM, W.
      * apply snaps_readall.
  - left. intros n K. apply (fields_short [2; 2]). exact K.
Qed.

Lemma snaps_Action z a : wf_Action a -> same_kind z a ->
  forall n, n <= length (enc_Action a) ->
  fail (dec_Action z (firstn n (enc_Action a))) = told (action_cut a n)
  /\ (action_cut a n = Fine -> rest (dec_Action z (firstn n (enc_Action a))) = []).
Proof.
  intros W K n Hn. pose proof (action_length a W) as L.
  destruct a; destruct z; try discriminate K; cbn [dec_Action action_cut action_size] in *;
    try (eapply (plain_snaps _ _ (enc_Action _)); [plainly|exact L|exact Hn]).
  exact (snaps_set_field _ W (ASetField field0) n Hn).
Qed.

Lemma snaps_Actions l : Forall wf_Action l -> snaps dec_Actions (enc_Actions l) (actions_cut l).
Proof.
  intro W. unfold dec_Actions, enc_Actions, actions_cut. apply snaps_pre.
  replace (map (fun a => (action_size a, action_cut a)) l) with (map (fun a => (length (enc_Action a), action_cut a)) l).
  2: { apply map_ext_in. intros a H. rewrite Forall_forall in W. rewrite action_length by auto. reflexivity. }
  apply snaps_scan. rewrite Forall_forall in W. intros a H. specialize (W a H).
  destruct (make_known a) as (z & M & K & KF). exists z.
  pose proof (num_tag a _ [] (denotes_enc a W)) as T. rewrite app_nil_r in T. rewrite T.
  pose proof (action_length a W). pose proof (action_size_8 a).
  split; [exact M|]. split; [lia|]. split.
  - intro tl. rewrite (dec_denotes z a _ tl (denotes_enc a W) K KF). auto.
  - intros n Hn. apply snaps_Action; assumption.
Qed.

(** ** Instructions *)
Lemma snaps_instruction_actions t l : Forall wf_Action l -> (N.of_nat (actions_size l) < 65536)%N ->
  snaps dec_instruction_actions (enc_instruction_actions t l) (followed 8 (fields [2; 2; 4]) (actions_cut l)).
Proof.
  intros W L. rewrite instruction_actions_eq by assumption.
  set (h := N.of_nat (8 + actions_size l)).
  unfold dec_instruction_actions.
  replace (be_enc 2 t ++ be_enc 2 h ++ zeros 4 ++ enc_Actions l)
    with ((be_enc 2 t ++ be_enc 2 (uwrap 2 h) ++ zeros 4 ++ []) ++ enc_Actions l)
    by (rewrite be_enc_uwrap, app_nil_r, <- !app_assoc; reflexivity).
  apply snaps_local.
  refine (snaps_andthen _ _ _ _ _ _ _ 
     (rt_cons _ _ _ _ _ _ (rt_fpad 2 _ (be_enc_length 2 t))
       (rt_cons _ _ _ _ _ _ (rt_fu 2 _ (uwrap 2 h) (uwrap_fits 2 h))
         (rt_cons _ _ _ _ _ _ (rt_zeros 4) rt_nil))) _ _ _).
  - apply plain_snaps; [plainly|reflexivity].
  - intro s. cbn [fst]. apply snaps_limited.
    + rewrite actions_length by exact W. unfold uwrap, h. change (256 ^ N.of_nat 2)%N with 65536%N. lia.
    + apply snaps_sub, snaps_sub, snaps_Actions, W.
  - left. intros n K. apply fields_short. exact K.
Qed.

Lemma snaps_Instruction z i : wf_Instruction i -> instruction_type z = instruction_type i ->
  forall n, n <= length (enc_Instruction i) ->
  fail (dec_Instruction z (firstn n (enc_Instruction i))) = told (instruction_cut i n)
  /\ (instruction_cut i n = Fine -> rest (dec_Instruction z (firstn n (enc_Instruction i))) = []).
Proof.
  intros W K n Hn. pose proof (instruction_length i W) as L.
  destruct i; destruct z; try discriminate K; cbn [dec_Instruction instruction_cut instruction_size] in *;
    try (eapply (plain_snaps _ _ (enc_Instruction _)); [plainly|exact L|exact Hn]).
  - destruct W as [W1 W2]. exact (snaps_instruction_actions _ _ W1 W2 _ n Hn).
  - destruct W as [W1 W2]. exact (snaps_instruction_actions _ _ W1 W2 _ n Hn).
Qed.

Lemma snaps_Instructions l : Forall wf_Instruction l -> snaps dec_Instructions (enc_Instructions l) (instructions_cut l).
Proof.
  intro W. unfold dec_Instructions, enc_Instructions, instructions_cut.
  replace (map (fun a => (instruction_size a, instruction_cut a)) l)
    with (map (fun a => (length (enc_Instruction a), instruction_cut a)) l).
  2: { apply map_ext_in. intros a H. rewrite Forall_forall in W. rewrite instruction_length by auto. reflexivity. }
  apply snaps_scan. rewrite Forall_forall in W. intros i H. specialize (W i H).
  destruct (make_instruction_tag i []) as (z & M & K). rewrite app_nil_r in M. exists z.
  split; [exact M|]. split.
  - rewrite instruction_length by exact W. pose proof (instruction_size_8 i). lia.
  - split.
    + intro tl. rewrite (dec_Instruction_rt z i W K tl). auto.
    + intros n Hn. apply snaps_Instruction; assumption.
Qed.

(** ** Messages *)
Lemma followed_eq k k' v1 v2 : k = k' -> followed k v1 v2 = followed k' v1 v2.
Proof. intros ->. reflexivity. Qed.

Lemma match_length m : wf_Match m -> length (enc_Match m) = match_size m.
Proof. intro W. destruct (match_size_ok m W) as [-> _]. reflexivity. Qed.

(** The first [k] members of a message apart from the rest. *)
Ltac split_head k :=
  match goal with |- snaps (seqr ?fs) (concat ?bs) (followed _ ?v1 ?v2) =>
    change (seqr fs) with (seqr (firstn k fs ++ skipn k fs));
    change (concat bs) with (concat (firstn k bs ++ skipn k bs)); rewrite concat_app;
    cbn [firstn skipn];
    match goal with |- snaps _ (?x ++ _) (followed ?n _ _) => rewrite (followed_eq n (length x)); [|reflexivity] end;
    apply snaps_seqr; [eapply plain_passes; [plainly|reflexivity]|apply plain_snaps; [plainly|reflexivity]|]
  end.

Lemma snaps_match {S} (get : S -> Match) set m : wf_Match m ->
  snaps (seqr [sub get set dec_Match]) (concat [enc_Match m]) (match_cut m).
Proof. intro W. cbn [concat]. rewrite app_nil_r. apply snaps_one, snaps_sub, snaps_Match, W. Qed.

Lemma snaps_match_then {S} (get : S -> Match) set fs bs v m : wf_Match m -> snaps (seqr fs) (concat bs) v ->
  snaps (seqr (sub get set dec_Match :: fs)) (concat (enc_Match m :: bs)) (followed (match_size m) (match_cut m) v).
Proof.
  intros W H. cbn [concat]. rewrite <- match_length by exact W. apply (snaps_seqr [_]); [| |exact H].
  - apply passes_one, passes_sub. exact (rt_passes _ _ _ (rt_Match m W)).
  - apply snaps_one, snaps_sub, snaps_Match, W.
Qed.

Lemma snaps_FlowMod m : wf_FlowMod m -> snaps dec_FlowMod (enc_FlowMod m) (cut_finding VFlowMod m).
Proof.
  unfold wf_FlowMod, enc_FlowMod, dec_FlowMod. intro W. split_wf W. unfold cut_finding, front.
  apply snaps_pre. split_head 12.
  apply snaps_match_then; [assumption|]. cbn [concat]. rewrite app_nil_r.
  apply snaps_one, snaps_sub, snaps_Instructions. assumption.
Qed.

Lemma snaps_FlowRemoved m : wf_FlowRemoved m -> snaps dec_FlowRemoved (enc_FlowRemoved m) (cut_finding VFlowRemoved m).
Proof.
  unfold wf_FlowRemoved, enc_FlowRemoved, dec_FlowRemoved. intro W. split_wf W. unfold cut_finding, front.
  split_head 10. apply snaps_match. assumption.
Qed.

Lemma snaps_FlowStatsRequest m : wf_FlowStatsRequest m ->
  snaps dec_FlowStatsRequest (enc_FlowStatsRequest m) (cut_finding VFlowStatsRequest m).
Proof.
  unfold wf_FlowStatsRequest, enc_FlowStatsRequest, dec_FlowStatsRequest. intro W. split_wf W. unfold cut_finding, front.
  split_head 7. apply snaps_match. assumption.
Qed.

Lemma snaps_AggregateStatsRequest m : wf_AggregateStatsRequest m ->
  snaps dec_AggregateStatsRequest (enc_AggregateStatsRequest m) (cut_finding VAggregateStatsRequest m).
Proof.
  unfold wf_AggregateStatsRequest, enc_AggregateStatsRequest, dec_AggregateStatsRequest. intro W. split_wf W.
  unfold cut_finding, front. split_head 7. apply snaps_match. assumption.
Qed.

Lemma followed_assoc a b v1 v2 v3 n : 0 < b -> followed (a + b) (followed a v1 v2) v3 n = followed a v1 (followed b v2 v3) n.
Proof.
  intro B. unfold followed. destruct (Nat.ltb_spec n a) as [K|K].
  - destruct (Nat.ltb_spec n (a + b)); [|lia]. destruct (Nat.ltb_spec 0 b); [|lia].
    destruct (v1 n); reflexivity.
  - destruct (Nat.ltb_spec n (a + b)); destruct (Nat.ltb_spec (n - a) b); try lia; [reflexivity|].
    f_equal. lia.
Qed.

Lemma match_size_pos m : 8 <= match_size m.
Proof. unfold match_size, up8. lia. Qed.

Lemma limit_le k n : Z.to_nat (Z.of_N k) = n -> (Z.of_nat n <= Z.of_N k)%Z.
Proof. lia. Qed.

Lemma snaps_Bucket m : wf_Bucket m -> snaps dec_Bucket (enc_Bucket m) (cut_finding VBucket m).
Proof.
  unfold enc_Bucket, dec_Bucket. cbv zeta. intros (W1 & W2 & W3 & WA & WS).
  rewrite actions_length by exact WA. split_last 5. apply snaps_local. unfold cut_finding, front.
  match goal with |- snaps _ (?x ++ _) (followed ?n _ _) => rewrite (followed_eq n (length x)); [|reflexivity] end.
  eapply snaps_andthen.
  - eapply rt_concat_cons; [apply rt_fu, uwrap_fits|]. flow_rt.
  - apply plain_snaps; [plainly|reflexivity].
  - intros s. apply snaps_limited.
    + cbn [fst snd]. rewrite actions_length by exact WA. apply limit_le, (sub16_limit _ 16), WS.
    + apply snaps_pre, snaps_sub, snaps_sub, snaps_Actions, WA.
  - left. intros n K. apply fields_short. exact K.
Qed.

Lemma snaps_PacketOut m : wf_PacketOut m -> snaps dec_PacketOut (enc_PacketOut m) (cut_finding VPacketOut m).
Proof.
  unfold wf_PacketOut, enc_PacketOut, dec_PacketOut. cbv zeta. intros (W1 & W2 & WA & WS).
  unfold cut_finding, front. rewrite actions_length by exact WA. 
  rewrite (followed_eq (actions_size _) (length (enc_Actions (PacketOut_Actions m))))
    by (symmetry; apply actions_length, WA).
  set (n := N.of_nat (actions_size (PacketOut_Actions m))) in *.
  concat_split' 4. rewrite concat_pair. apply snaps_local.
  match goal with |- snaps _ (?x ++ _) (followed ?n _ _) => rewrite (followed_eq n (length x)); [|reflexivity] end.
  eapply snaps_andthen.
  - eapply rt_concat_cons; [apply rt_sub, rt_fu, W1|]. eapply rt_concat_cons; [apply rt_sub, rt_fu, W2|].
    eapply rt_concat_cons; [apply rt_fu, uwrap_fits|]. flow_rt.
  - apply plain_snaps; [plainly|reflexivity].
  - intros s. assert (Z : Z.to_nat (Z.of_N (uwrap 2 n)) = length (enc_Actions (PacketOut_Actions m))).
    { rewrite actions_length by exact WA. rewrite uwrap_small; [unfold n; lia|exact WS]. }
    cbn [fst snd]. apply snaps_then.
    + eapply rt_passes. apply rt_limited; [exact Z|]. apply whole_pre, whole_sub, whole_sub, whole_Actions, WA.
    + apply snaps_limited; [lia|]. apply snaps_pre, snaps_sub, snaps_sub, snaps_Actions, WA.
    + apply snaps_sub, snaps_readall.
  - left. intros k K. apply fields_short. exact K.
Qed.

Lemma snaps_PacketIn m : wf_PacketIn m -> snaps dec_PacketIn (enc_PacketIn m) (cut_finding VPacketIn m).
Proof.
  unfold wf_PacketIn, enc_PacketIn, dec_PacketIn. intro W. split_wf W.
  pose proof (match_size_pos (PacketIn_Match m)) as P.
  split_last 7. apply (snaps_ext _ _ (followed (16 + (match_size (PacketIn_Match m) + 2))
     (followed 16 (fields (front VPacketIn)) (followed (match_size (PacketIn_Match m)) (match_cut (PacketIn_Match m)) (fields [2])))
     (fun _ => Fine))).
  { intros n _. rewrite followed_assoc by lia. unfold cut_finding. unfold followed at 1 4.
    rewrite !followed_assoc by lia. reflexivity. }
  match goal with |- snaps _ (?x ++ _) (followed ?n _ _) => rewrite (followed_eq n (length x)) end.
  2: { cbn [concat]. rewrite !app_length, match_length by assumption. unfold u8, u16, u32, u64, pad.
       rewrite !be_enc_length, !zeros_length. cbn [length]. lia. }
  apply snaps_then.
  - eapply rt_passes. flow_rt.
  - unfold front. split_head 5. apply snaps_match_then; [assumption|].
    apply plain_snaps; [plainly|reflexivity].
  - apply snaps_readall.
Qed.

Lemma snaps_FlowStats m : wf_FlowStats m -> snaps dec_FlowStats (enc_FlowStats m) (cut_finding VFlowStats m).
Proof.
  unfold wf_FlowStats, enc_FlowStats, dec_FlowStats. cbv zeta. intro W. split_wf W.
  match goal with |- context [length ?b + 2] => set (B := b) end.
  assert (K : length B + 2 = flowstats_size m).
  { unfold B, flowstats_size. cbn [concat]. rewrite !app_length, instructions_length by assumption.
    destruct (match_size_ok (FlowStats_Match m)) as [-> _]; [assumption|]. unfold u8, u16, u32, u64, pad.
    rewrite !be_enc_length, !zeros_length. cbn [length]. lia. }
  rewrite K. unfold B. clear K B. rewrite concat_two. split_last 14.
  pose proof (match_size_pos (FlowStats_Match m)) as P.
  apply (snaps_ext _ _ (followed (48 + match_size (FlowStats_Match m))
     (followed 48 (fields (front VFlowStats)) (match_cut (FlowStats_Match m)))
     (instructions_cut (FlowStats_Instructions m)))).
  { intros n _. rewrite followed_assoc by lia. reflexivity. }
  apply snaps_local.
  match goal with |- snaps _ (?x ++ _) (followed ?n _ _) => rewrite (followed_eq n (length x)) end.
  2: { cbn [concat]. rewrite !app_length, match_length by assumption. unfold u8, u16, u32, u64, pad.
       rewrite !be_enc_length, !zeros_length. cbn [length]. lia. }
  eapply snaps_andthen.
  - eapply rt_concat_cons; [apply rt_fu, uwrap_fits|]. flow_rt.
  - unfold front. split_head 13. cbn [concat]. rewrite app_nil_r.
    apply snaps_one, snaps_sub, snaps_sub, snaps_Match. assumption.
  - intros s. apply snaps_limited.
    + cbn [fst snd]. cbn [concat]. rewrite uwrap_small by assumption.
      rewrite !app_length, instructions_length by assumption.
      destruct (match_size_ok (FlowStats_Match m)) as [-> _]; [assumption|]. unfold u8, u16, u32, u64, pad.
      rewrite !be_enc_length, !zeros_length. cbn [length]. unfold flowstats_size. lia.
    + apply snaps_pre, snaps_sub, snaps_sub, snaps_Instructions. assumption.
  - right. intros k h s.
    assert (N0 : forall s0 : N * FlowStats, limited (Z.of_N (fst h) - Z.of_nat k)
              (pre (fun s : N * FlowStats => (fst s, set_FlowStats_Instructions [] (snd s)))
             (sub snd (fun m (s : N * FlowStats) => (fst s, m))
               (sub FlowStats_Instructions set_FlowStats_Instructions dec_Instructions))) s0 []
        = Res (fst s0, set_FlowStats_Instructions [] (set_FlowStats_Instructions [] (snd s0))) 0 None []).
    { intro s0. unfold limited. rewrite firstn_nil, skipn_nil. reflexivity. }
    rewrite N0. cbn [fail rest]. split; [|reflexivity].
    destruct (FlowStats_Instructions m) as [|i l]; [reflexivity|].
    unfold instructions_cut. cbn [map elements]. pose proof (instruction_size_8 i).
    destruct (Nat.leb_spec (instruction_size i) 0); [lia|reflexivity].
Qed.

Lemma snaps_all k m : vwf k m -> snaps (vdec k) (venc k m) (cut_finding k m).
Proof.
  destruct k; intro W.
  - exact (snaps_Match m W).
  - exact (snaps_Actions m W).
  - exact (snaps_Instructions m W).
  - exact (snaps_Bucket m W).
  - exact (snaps_FlowMod m W).
  - exact (snaps_FlowRemoved m W).
  - exact (snaps_FlowStatsRequest m W).
  - exact (snaps_AggregateStatsRequest m W).
  - exact (snaps_FlowStats m W).
  - exact (snaps_PacketIn m W).
  - exact (snaps_PacketOut m W).
Qed.
