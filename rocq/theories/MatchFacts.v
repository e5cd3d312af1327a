(** Lemmas about matches. *)
From Coq Require Import ZifyBool ZifyNat ZifyN.
From Verif Require Export StepFacts MatchModel MatchSpec.
Ltac Zify.zify_post_hook ::= Z.div_mod_to_equations.

Lemma to_N_lt (b : Byte.byte) : (Byte.to_N b < 256)%N.
Proof. pose proof (Byte.to_N_bounded b). lia. Qed.

Lemma be_dec_1 a : be_dec [a] = Byte.to_N a.
Proof. rewrite be_dec_cons. cbn [length]. change (be_dec []) with 0%N. change (256 ^ N.of_nat 0)%N with 1%N. lia. Qed.
Lemma be_dec_2 a b : be_dec [a; b] = (256 * Byte.to_N a + Byte.to_N b)%N.
Proof. rewrite be_dec_cons, be_dec_1. cbn [length]. change (256 ^ N.of_nat 1)%N with 256%N. lia. Qed.

Lemma testbit0 n : N.testbit n 0 = negb (N.even n).
Proof. rewrite N.bit0_odd, N.negb_even. reflexivity. Qed.

(** ** One entry *)
Lemma fslice_at {S} (get : S -> bytes) (set : bytes -> S -> S) s bs tl :
  length (get s) = length bs -> fslice get set s (bs ++ tl) = Res (set bs s) (length bs) None tl.
Proof. intro H. exact (rti_fslice get set bs s tl H). Qed.

Lemma xm_header c1 c2 f l inp old :
  seqr [sub snd (fun x (s : N * XM) => (fst s, x)) (fu 2 set_XM_Class);
        sub snd (fun x s => (fst s, x)) (fu 1 set_XM_Type);
        fu 1 (fun v s => (v, snd s))] (0%N, old) (c1 :: c2 :: f :: l :: inp)
  = Res (Byte.to_N l, MkXM (be_dec [c1; c2]) (Byte.to_N f) (XM_Value old) (XM_Mask old)) 4 None inp.
Proof. rewrite <- (be_dec_1 f), <- (be_dec_1 l). destruct old. reflexivity. Qed.

Definition xm_start (c1 c2 f l : Byte.byte) : XM :=
  MkXM (be_dec [c1; c2]) (N.shiftr (Byte.to_N f) 1) (zeros (N.to_nat (Byte.to_N l))) [].

Lemma dec_xm_step c1 c2 f l inp old :
  dec_XM old (c1 :: c2 :: f :: l :: inp)
  = let r := fslice XM_Value set_XM_Value (xm_start c1 c2 f l) inp in
    match fail r with
    | Some e => Res (val r) (4 + cnt r) (Some e) (rest r)
    | None => Res (if N.even (Byte.to_N f) then val r else halve (N.to_nat (Byte.to_N l)) (val r))
                (4 + cnt r) None (rest r)
    end.
Proof.
  unfold dec_XM, dec_xm.
  rewrite (with_local_eq _ _ _ _ _ _ _ _ (andthen_ok _ _ _ _ _ _ _ (xm_header c1 c2 f l inp old))).
  cbn [fst snd]. change (XM_Type (MkXM _ ?t _ _)) with t. rewrite testbit0.
  match goal with |- context [sub snd ?st ?rd ?s inp] =>
    set (R := rd (snd s) inp); change (sub snd st rd s inp) with (Res (st (val R) s) (cnt R) (fail R) (rest R)) end.
  cbn [fail val cnt rest snd fst].
  assert (ER : R = andthen (fslice XM_Value set_XM_Value)
     (fun _ _ => assign (if negb (N.even (Byte.to_N f)) then halve (N.to_nat (Byte.to_N l)) else fun x => x))
     (xm_start c1 c2 f l) inp) by reflexivity.
  clearbody R. subst R. unfold andthen.
  destruct (fslice XM_Value set_XM_Value (xm_start c1 c2 f l) inp) as [v n [e|] tl]; cbn [fail val cnt rest snd].
  - reflexivity.
  - unfold assign. cbn [fail val cnt rest snd]. rewrite Nat.add_0_r.
    destruct (N.even (Byte.to_N f)); reflexivity.
Qed.

Lemma rt_represents x seg : represents x seg -> rt dec_XM seg (fun _ => x).
Proof.
  intros (c1 & c2 & f & l & payload & -> & Hl & Hc & Ht & Hv) old tl.
  cbn [app]. rewrite dec_xm_step. cbv zeta.
  rewrite fslice_at by (unfold xm_start; cbn [XM_Value]; rewrite zeros_length; symmetry; exact Hl).
  cbn [fail val cnt rest length]. unfold set_XM_Value, xm_start. cbn [XM_Class XM_Type XM_Mask].
  rewrite be_dec_2. rewrite N.shiftr_div_pow2. change (2 ^ 1)%N with 2%N.
  rewrite <- Hc, <- Ht.
  destruct x as [c t v m]. cbn [XM_Class XM_Type XM_Value XM_Mask] in *.
  unfold halve. cbn [XM_Class XM_Type XM_Value XM_Mask set_XM_Value set_XM_Mask].
  destruct (N.even (Byte.to_N f)); destruct Hv as [-> ->]; [reflexivity|].
  rewrite Hl. reflexivity.
Qed.

Lemma represents_long c1 c2 f l inp : N.to_nat (Byte.to_N l) <= length inp ->
  exists x seg tl, c1 :: c2 :: f :: l :: inp = seg ++ tl /\ represents x seg.
Proof.
  intro H. set (n := N.to_nat (Byte.to_N l)) in *.
  exists (let p := firstn n inp in let h := length p / 2 in
     MkXM (256 * Byte.to_N c1 + Byte.to_N c2) (Byte.to_N f / 2)
       (if N.even (Byte.to_N f) then p else firstn h p)
       (if N.even (Byte.to_N f) then [] else firstn h (skipn h p))).
  exists (c1 :: c2 :: f :: l :: firstn n inp), (skipn n inp).
  split; [cbn [app]; rewrite firstn_skipn; reflexivity|].
  exists c1, c2, f, l, (firstn n inp). cbv zeta. cbn [XM_Class XM_Type XM_Value XM_Mask].
  split; [reflexivity|]. split; [rewrite firstn_length; lia|].
  split; [reflexivity|]. split; [reflexivity|].
  destruct (N.even (Byte.to_N f)); auto.
Qed.

Lemma dec_xm_short c1 c2 f l inp old : length inp < N.to_nat (Byte.to_N l) ->
  fail (dec_XM old (c1 :: c2 :: f :: l :: inp)) = Some EOF
  \/ fail (dec_XM old (c1 :: c2 :: f :: l :: inp)) = Some UnexpectedEOF.
Proof.
  intro H. rewrite dec_xm_step. cbv zeta. unfold fslice, fbytes, take_full, xm_start. cbn [XM_Value].
  rewrite zeros_length. destruct (Nat.ltb_spec (length inp) (N.to_nat (Byte.to_N l))); [|lia].
  destruct inp; cbn [fail]; auto.
Qed.

Lemma represents_length x seg : represents x seg -> 4 <= length seg.
Proof. intros (c1 & c2 & f & l & payload & -> & _). cbn [length]. lia. Qed.

Lemma len4 (b : bytes) : 4 <= length b -> exists c1 c2 f l p, b = c1 :: c2 :: f :: l :: p.
Proof. destruct b as [|c1 [|c2 [|f [|l p]]]]; cbn [length]; try lia. eauto 10. Qed.

(** Every byte string is of exactly one of the two kinds. *)
Lemma parse_total b : (exists xs, parses xs b) \/ (exists xs, broken xs b).
Proof.
  remember (length b) as n eqn:E. revert b E.
  induction n as [n IH] using lt_wf_ind. intros b ->.
  destruct (Nat.lt_ge_cases (length b) 4) as [L|L]; [left; exists []; constructor; exact L|].
  destruct (len4 b L) as (c1 & c2 & f & l & p & ->).
  destruct (Nat.lt_ge_cases (length p) (N.to_nat (Byte.to_N l))) as [S|S].
  - right. exists []. constructor; [exact L|]. cbn [length nth] in *. lia.
  - destruct (represents_long c1 c2 f l p S) as (x & seg & tl & E & R). rewrite E in *.
    pose proof (represents_length _ _ R) as R4.
    destruct (IH (length tl) ltac:(rewrite app_length; lia) tl eq_refl) as [[xs P]|[xs P]];
      [left|right]; exists (x :: xs); constructor; assumption.
Qed.

Lemma xm_loop_parses xs b : parses xs b -> forall fuel acc, length b < fuel ->
  xm_loop fuel true acc b = (acc ++ xs, None).
Proof.
  induction 1 as [stray H|x seg xs tl R P IH]; intros fuel acc F; (destruct fuel as [|fuel]; [lia|]); cbn [xm_loop].
  - destruct (Nat.ltb_spec (length stray) 4); [|lia]. rewrite app_nil_r. reflexivity.
  - pose proof (represents_length _ _ R) as R4. rewrite app_length in *.
    destruct (Nat.ltb_spec (length seg + length tl) 4); [lia|].
    change (dec_xm true) with dec_XM. rewrite !(rt_represents x seg R). cbn [fail val rest].
    rewrite IH by lia. rewrite <- app_assoc. reflexivity.
Qed.

Lemma xm_loop_broken xs b : broken xs b -> forall fuel acc, length b < fuel ->
  exists e, xm_loop fuel true acc b = (acc ++ xs, Some e) /\ (e = EOF \/ e = UnexpectedEOF).
Proof.
  induction 1 as [b L S|x seg xs tl R P IH]; intros fuel acc F; (destruct fuel as [|fuel]; [lia|]); cbn [xm_loop].
  - destruct (Nat.ltb_spec (length b) 4); [lia|].
    destruct (len4 b L) as (c1 & c2 & f & l & p & ->). cbn [length nth] in S.
    change (dec_xm true) with dec_XM.
    destruct (dec_xm_short c1 c2 f l p zero_XM ltac:(lia)) as [E|E]; rewrite E, app_nil_r; eauto.
  - pose proof (represents_length _ _ R) as R4. rewrite app_length in *.
    destruct (Nat.ltb_spec (length seg + length tl) 4); [lia|].
    change (dec_xm true) with dec_XM. rewrite !(rt_represents x seg R). cbn [fail val rest].
    destruct (IH fuel (acc ++ [x]) ltac:(lia)) as (e & E & He). exists e.
    rewrite E, <- app_assoc. auto.
Qed.

(** ** Writing *)
Lemma uwrap1 n : (n < 256)%N -> uwrap 1 n = n.
Proof. intro H. apply uwrap_small. exact H. Qed.
Lemma uwrap2 n : (n < 65536)%N -> uwrap 2 n = n.
Proof. intro H. apply uwrap_small. exact H. Qed.

Lemma field_byte x : wf_XM x ->
  N.lor (uwrap 1 (2 * XM_Type x)) (match XM_Mask x with [] => 0%N | _ => 1%N end)
  = (2 * XM_Type x + has_mask x)%N.
Proof.
  intros (_ & Ht & _). rewrite uwrap1 by lia. unfold has_mask.
  destruct (XM_Mask x); [rewrite N.lor_0_r; lia|].
  destruct (XM_Type x); reflexivity.
Qed.

Lemma be_enc_1 n : be_enc 1 n = [byte_of_N n].
Proof. cbn [be_enc]. change (256 ^ N.of_nat 0)%N with 1%N. rewrite N.div_1_r. reflexivity. Qed.
Lemma be_enc_2 n : be_enc 2 n = [byte_of_N (n / 256); byte_of_N n].
Proof.
  cbn [be_enc]. change (256 ^ N.of_nat 0)%N with 1%N. change (256 ^ N.of_nat 1)%N with 256%N.
  rewrite N.div_1_r. reflexivity.
Qed.

Lemma enc_XM_eq x : wf_XM x ->
  enc_XM x = be_enc 2 (XM_Class x) ++ be_enc 1 (2 * XM_Type x + has_mask x)
             ++ be_enc 1 (N.of_nat (length (XM_Value x) + length (XM_Mask x))) ++ XM_Value x ++ XM_Mask x.
Proof.
  intro W. unfold enc_XM. cbv zeta. rewrite field_byte by exact W.
  destruct W as (_ & _ & _ & Hl). rewrite uwrap1 by lia.
  rewrite (Nat.add_comm (length (XM_Mask x))).
  cbn [concat]. rewrite app_nil_r. reflexivity.
Qed.

Lemma xm_layout_ok x : wf_XM x -> laid_out (enc_XM x) (xm_size x) (xm_layout x).
Proof.
  intro W. apply laid_out_intro.
  - unfold xm_layout. repeat constructor.
  - unfold xm_layout, xm_size. cbn [tiles width Nat.add]. rewrite !Nat.eqb_refl. cbn [andb].
    rewrite !Nat.add_succ_r, !Nat.eqb_refl || idtac. apply Nat.eqb_refl || reflexivity.
  - rewrite enc_XM_eq by exact W. unfold xm_layout. cbn [map snd render concat].
    rewrite app_nil_r. reflexivity.
Qed.

Lemma represents_enc x : wf_XM x -> represents x (enc_XM x).
Proof.
  intro W. rewrite (enc_XM_eq x W), be_enc_2, !be_enc_1.
  destruct W as (Hc & Ht & Hm & Hl).
  exists (byte_of_N (XM_Class x / 256)), (byte_of_N (XM_Class x)),
    (byte_of_N (2 * XM_Type x + has_mask x)),
    (byte_of_N (N.of_nat (length (XM_Value x) + length (XM_Mask x)))), (XM_Value x ++ XM_Mask x).
  rewrite !to_N_byte_of_N, app_length.
  assert (Hh : (has_mask x < 2)%N) by (unfold has_mask; destruct (XM_Mask x); lia).
  rewrite !(N.mod_small (2 * _ + _)) by lia.
  split; [reflexivity|]. split; [lia|]. split; [lia|]. split; [lia|].
  cbv zeta. rewrite N.add_comm, N.even_add_mul_2. unfold has_mask in *.
  destruct (XM_Mask x) as [|b m] eqn:E; cbn [N.even].
  - rewrite app_nil_r. auto.
  - destruct Hm as [Hm|Hm]; [discriminate|]. rewrite Hm.
    replace ((length (XM_Value x) + length (XM_Value x)) / 2) with (length (XM_Value x)) by lia.
    rewrite firstn_app_exact, skipn_app_exact. split; [reflexivity|].
    rewrite <- Hm, firstn_all. reflexivity.
Qed.

Lemma rt_XM x : wf_XM x -> rt dec_XM (enc_XM x) (fun _ => x).
Proof. intro W. apply rt_represents, represents_enc, W. Qed.

Lemma xm_length x : wf_XM x -> length (enc_XM x) = xm_size x.
Proof. intro W. apply (xm_layout_ok x W). Qed.

Lemma fields_length l : Forall wf_XM l -> length (concat (map enc_XM l)) = fields_size l.
Proof.
  intro H. rewrite concat_map_length. unfold fields_size. f_equal.
  induction H as [|x l W _ IH]; [reflexivity|]. cbn [map]. rewrite IH, xm_length by exact W. reflexivity.
Qed.

Lemma parses_enc l : Forall wf_XM l -> parses l (concat (map enc_XM l)).
Proof.
  induction 1 as [|x l W _ IH]; cbn [map concat]; constructor; cbn; auto with arith.
  apply represents_enc, W.
Qed.

Lemma whole_read_all l : Forall wf_XM l ->
  whole (read_all_xm true) (concat (map enc_XM l)) (fun old => old ++ l).
Proof.
  intros H s. unfold read_all_xm. rewrite (xm_loop_parses l _ (parses_enc l H)) by lia. reflexivity.
Qed.

(** ** Matches *)
Lemma up8_pad n : up8 n - n = pad_len n.
Proof. reflexivity. Qed.

Lemma up8_ge n : n <= up8 n < n + 8.
Proof. unfold up8. lia. Qed.

Lemma rt_Match m : wf_Match m -> rt dec_Match (enc_Match m) (fun _ => m).
Proof.
  destruct m as [t l]. intros (Ht & Hl & Hs). cbn [Match_Type Match_Fields] in *.
  assert (L := fields_length l Hl).
  unfold dec_Match, enc_Match. cbn [Match_Type Match_Fields]. cbv zeta.
  rewrite uwrap2 by lia. set (buf := concat (map enc_XM l)) in *.
  replace (concat [u16 t; u16 (N.of_nat (length buf + 4)); buf; pad (pad_len (length buf + 4))])
    with (concat [u16 t; u16 (N.of_nat (length buf + 4))] ++ (buf ++ pad (pad_len (length buf + 4))))
    by (cbn [concat]; rewrite !app_nil_r, <- !app_assoc; reflexivity).
  eapply rt_ext; cycle 1.
  - apply rt_pre, rt_with_local.
    eapply (rt_andthen _ _ _ _ (fun s : N * Match => (N.of_nat (length buf + 4), set_Match_Type t (snd s)))
              (fun s => (fst s, set_Match_Fields (Match_Fields (snd s) ++ l) (snd s)))).
    + eapply rt_ext; cycle 1.
      * eapply rt_concat_cons; [apply rt_sub, rt_fu; exact Ht|].
        eapply rt_concat_cons; [apply rt_fu; unfold fits; change (256 ^ N.of_nat 2)%N with 65536%N; lia|].
        apply rt_concat_nil.
      * reflexivity.
    + intro s. cbn [fst snd].
      apply (rt_sub snd (fun x (s : N * Match) => (fst s, x))
               _ _ (fun m => set_Match_Fields (Match_Fields m ++ l) m)).
      apply (rt_andthen _ _ _ _ (fun m => set_Match_Fields (Match_Fields m ++ l) m) (fun m => m)).
      * apply rt_limited; [lia|]. 
        apply (whole_sub Match_Fields set_Match_Fields _ _ (fun old => old ++ l)), whole_read_all, Hl.
      * intro s'. replace (N.to_nat (N.of_nat (length buf + 4))) with (length buf + 4) by lia.
        apply rt_zeros.
  - reflexivity.
Qed.

Lemma in_sequence_map {A} (one : A -> bytes -> Prop) (enc : A -> bytes) l :
  (forall a, In a l -> one a (enc a)) -> in_sequence one l (concat (map enc l)).
Proof.
  induction l as [|a l IH]; intro H; cbn [map concat]; constructor;
    [apply H; left; reflexivity|]. apply IH. intros b Hb. apply H. right. exact Hb.
Qed.

Lemma match_layout_ok m : wf_Match m -> match_laid_out m (enc_Match m).
Proof.
  destruct m as [t l]. intros (Ht & Hl & Hs). cbn [Match_Type Match_Fields] in *.
  exists (concat (map enc_XM l)). cbn [Match_Type Match_Fields]. split.
  - apply in_sequence_map. intros x Hx. apply xm_layout_ok. rewrite Forall_forall in Hl. auto.
  - cbv zeta. assert (L := fields_length l Hl). set (buf := concat (map enc_XM l)) in *.
    pose proof (up8_ge (4 + length buf)) as U.
    apply laid_out_intro.
    + repeat constructor.
    + unfold tiles. cbn [width]. rewrite !Nat.eqb_refl. cbn [andb Nat.add].
      apply Nat.eqb_eq. cbn [Nat.add] in U. lia.
    + unfold enc_Match. cbn [Match_Type Match_Fields]. cbv zeta. fold buf.
      cbn [map snd render concat]. rewrite uwrap2 by lia. rewrite (Nat.add_comm (length buf) 4).
      rewrite up8_pad. reflexivity.
Qed.

Lemma match_size_ok m : wf_Match m -> length (enc_Match m) = match_size m /\ match_size m mod 8 = 0.
Proof.
  intro W. destruct (match_layout_ok m W) as (body & _ & HL & _).
  pose proof W as (_ & Hf & Hs).
  split; [|unfold match_size, up8; lia].
  unfold match_size. unfold enc_Match. cbv zeta.
  cbn [concat]. rewrite app_nil_r, !app_length. unfold u16, pad. rewrite !be_enc_length, zeros_length.
  rewrite (fields_length _ Hf). unfold pad_len, up8. lia.
Qed.

(** ** Arbitrary bytes as a match *)
Lemma match_header a b c d inp (old : Match) :
  seqr [sub snd (fun x (s : N * Match) => (fst s, x)) (fu 2 set_Match_Type);
        fu 2 (fun v s => (v, snd s))] (0%N, old) (a :: b :: c :: d :: inp)
  = Res (be_dec [c; d], MkMatch (be_dec [a; b]) (Match_Fields old)) 4 None inp.
Proof. destruct old. reflexivity. Qed.

Lemma dec_Match_eq a b c d inp old :
  let L := N.to_nat (be_dec [c; d]) in
  let region := firstn (L - 4) inp in
  let '(l, e) := xm_loop (S (length region)) true [] region in
  dec_Match old (a :: b :: c :: d :: inp)
  = match e with
    | Some e => Res (MkMatch (be_dec [a; b]) l) (4 + length region) (Some e) (skipn (L - 4) inp)
    | None =>
        let r := fpad (pad_len L) (MkMatch (be_dec [a; b]) l) (skipn (L - 4) inp) in
        Res (val r) (4 + (length region + cnt r)) (fail r) (rest r)
    end.
Proof.
  cbv zeta. destruct (xm_loop _ true [] _) as [l e] eqn:E.
  unfold dec_Match, pre.
  rewrite (with_local_eq _ _ _ _ _ _ _ _ (andthen_ok _ _ _ _ _ _ _ (match_header a b c d inp zero_Match))).
  cbn [fst snd Match_Fields zero_Match].
  assert (K : Z.to_nat (Z.of_N (be_dec [c; d]) - 4) = N.to_nat (be_dec [c; d]) - 4) by lia.
  assert (HL : limited (Z.of_N (be_dec [c; d]) - 4) (sub Match_Fields set_Match_Fields (read_all_xm true))
                 (MkMatch (be_dec [a; b]) []) inp
               = Res (MkMatch (be_dec [a; b]) l) (length (firstn (N.to_nat (be_dec [c; d]) - 4) inp)) e
                   ([] ++ skipn (N.to_nat (be_dec [c; d]) - 4) inp)).
  { rewrite <- K. apply limited_eq. rewrite K.
    apply (sub_eq Match_Fields set_Match_Fields (read_all_xm true) (MkMatch (be_dec [a; b]) [])).
    cbn [Match_Fields]. unfold read_all_xm. rewrite E. reflexivity. }
  cbn [app] in HL. destruct e as [e|].
  - rewrite (sub_eq (snd (A:=N)) _ _ (be_dec [c; d], MkMatch (be_dec [a; b]) []) _ _ _ _ _ (andthen_err _ _ _ _ _ _ _ _ HL)). reflexivity.
  - rewrite (sub_eq (snd (A:=N)) _ _ (be_dec [c; d], MkMatch (be_dec [a; b]) []) _ _ _ _ _ (andthen_ok _ _ _ _ _ _ _ HL)). reflexivity.
Qed.

Lemma declared_eq a b c d inp : declared (a :: b :: c :: d :: inp) = N.to_nat (be_dec [c; d]).
Proof. unfold declared. cbn [nth]. rewrite be_dec_2. reflexivity. Qed.

Lemma region_eq a b c d inp :
  region (a :: b :: c :: d :: inp) = firstn (N.to_nat (be_dec [c; d]) - 4) inp.
Proof. unfold region. rewrite declared_eq. reflexivity. Qed.

Lemma match_parsed old inp xs : 4 <= length inp -> parses xs (region inp) ->
  Match_Fields (val (dec_Match old inp)) = xs
  /\ Match_Type (val (dec_Match old inp)) = be_dec (firstn 2 inp)
  /\ (fail (dec_Match old inp) = None
      <-> length (region inp) + (up8 (declared inp) - declared inp) <= length (skipn 4 inp))
  /\ (fail (dec_Match old inp) <> None ->
        fail (dec_Match old inp) = Some EOF \/ fail (dec_Match old inp) = Some UnexpectedEOF).
Proof.
  intros L P. destruct (len4 inp L) as (a & b & c & d & tl & ->).
  pose proof (dec_Match_eq a b c d tl old) as E. cbv zeta in E.
  rewrite region_eq in *. rewrite declared_eq, up8_pad.
  rewrite (xm_loop_parses xs _ P) in E by lia. rewrite E. clear E.
  cbn [app skipn firstn val fail].
  set (n := N.to_nat (be_dec [c; d])) in *.
  assert (HS : length (skipn (n - 4) tl) + length (firstn (n - 4) tl) = length tl).
  { rewrite <- (firstn_skipn (n - 4) tl) at 3. rewrite app_length. lia. }
  unfold fpad. destruct (Nat.lt_ge_cases (length (skipn (n - 4) tl)) (pad_len n)) as [S|S].
  - rewrite take_short by exact S. cbn [val fail Match_Fields Match_Type].
    repeat split; try congruence; [lia|]. destruct (skipn (n - 4) tl); auto.
  - rewrite take_long by exact S. cbn [val fail Match_Fields Match_Type].
    repeat split; try congruence. lia.
Qed.

Lemma match_broken old inp xs : 4 <= length inp -> broken xs (region inp) ->
  Match_Fields (val (dec_Match old inp)) = xs
  /\ (fail (dec_Match old inp) = Some EOF \/ fail (dec_Match old inp) = Some UnexpectedEOF).
Proof.
  intros L P. destruct (len4 inp L) as (a & b & c & d & tl & ->).
  pose proof (dec_Match_eq a b c d tl old) as E. cbv zeta in E. rewrite region_eq in *.
  destruct (xm_loop_broken xs _ P (Datatypes.S (length (firstn (N.to_nat (be_dec [c; d]) - 4) tl))) [] ltac:(lia))
    as (e & Ee & He).
  rewrite Ee in E. rewrite E. cbn [val fail Match_Fields app]. split; [reflexivity|].
  destruct He as [->| ->]; auto.
Qed.

Lemma seqr_match_short (old : Match) inp : length inp < 4 ->
  exists v n e, (e = EOF \/ e = UnexpectedEOF) /\ n = length inp /\
  seqr [sub snd (fun x (s : N * Match) => (fst s, x)) (fu 2 set_Match_Type);
        fu 2 (fun v s => (v, snd s))] (0%N, old) inp = Res v n (Some e) [].
Proof.
  intro H. destruct inp as [|a [|b [|c [|d tl]]]]; cbn [length] in H; try lia;
    (eexists; eexists; eexists; split; [|split]; [|reflexivity|reflexivity]; auto).
Qed.

Lemma match_short old inp : length inp < 4 ->
  Match_Fields (val (dec_Match old inp)) = []
  /\ (fail (dec_Match old inp) = Some EOF \/ fail (dec_Match old inp) = Some UnexpectedEOF).
Proof.
  intro H. unfold dec_Match, pre.
  destruct (seqr_match_short zero_Match inp H) as (v & n & e & He & _ & E).
  assert (HV : Match_Fields (snd v) = []).
  { revert E. destruct inp as [|a [|b [|c [|d tl]]]]; cbn [length] in H; try lia; intro E;
      injection E as <- _ _; reflexivity. }
  rewrite (with_local_eq _ _ _ _ _ _ _ _ (andthen_err _ _ _ _ _ _ _ _ E)). cbn [val fail].
  split; [exact HV|]. destruct He as [->| ->]; auto.
Qed.

Lemma match_bound old inp : 4 <= declared inp ->
  exists used, inp = used ++ rest (dec_Match old inp) /\ length used <= up8 (declared inp)
               /\ (fail (dec_Match old inp) = None -> length used = cnt (dec_Match old inp)).
Proof.
  intro HD. destruct (Nat.lt_ge_cases (length inp) 4) as [S|L].
  { unfold dec_Match, pre. destruct (seqr_match_short zero_Match inp S) as (v & n & e & He & -> & E).
    rewrite (with_local_eq _ _ _ _ _ _ _ _ (andthen_err _ _ _ _ _ _ _ _ E)). cbn [val fail rest].
    exists inp. rewrite app_nil_r. split; [reflexivity|]. pose proof (up8_ge (declared inp)). split; [lia|congruence]. }
  destruct (len4 inp L) as (a & b & c & d & tl & ->). clear L.
  rewrite declared_eq in *. set (n := N.to_nat (be_dec [c; d])) in *.
  pose proof (dec_Match_eq a b c d tl old) as E. cbv zeta in E. fold n in E.
  destruct (xm_loop _ true [] _) as [l [e|]]; rewrite E; cbn [rest fail cnt].
  - exists (a :: b :: c :: d :: firstn (n - 4) tl). cbn [app length].
    rewrite firstn_skipn, firstn_length. pose proof (up8_ge n). split; [reflexivity|]. split; [lia|congruence].
  - unfold fpad. pose proof (up8_ge n) as U. pose proof (up8_pad n) as UP.
    destruct (Nat.lt_ge_cases (length (skipn (n - 4) tl)) (pad_len n)) as [S|S].
    + rewrite take_short by exact S. cbn [rest fail cnt].
      exists (a :: b :: c :: d :: tl). rewrite app_nil_r. cbn [length]. rewrite skipn_length in S.
      split; [reflexivity|]. split; [lia|congruence].
    + rewrite take_long by exact S. cbn [rest fail cnt]. rewrite skipn_skipn_add.
      exists (a :: b :: c :: d :: firstn (n - 4 + pad_len n) tl). cbn [app length].
      rewrite firstn_skipn, !firstn_length. rewrite skipn_length in S.
      split; [reflexivity|]. split; [lia|]. intros _. lia.
Qed.

Lemma match_field_spec m t : first_of_type (Match_Fields m) t (match_field m t).
Proof.
  unfold match_field. induction (Match_Fields m) as [|x l IH]; cbn [find first_of_type]; [constructor|].
  destruct (N.eqb_spec (XM_Type x) t) as [E|E]; cbn [first_of_type].
  - exists [], l. auto.
  - destruct (find _ l) as [y|]; cbn [first_of_type] in *.
    + destruct IH as (p & q & -> & Hy & Hp). exists (x :: p), q. repeat split; auto.
    + constructor; assumption.
Qed.

Lemma parses_stray l stray : Forall wf_XM l -> length stray < 4 ->
  parses l (concat (map enc_XM l) ++ stray).
Proof.
  intros H S. induction H as [|x l W _ IH]; cbn [map concat app]; [constructor; exact S|].
  rewrite <- app_assoc. constructor; [apply represents_enc, W|exact IH].
Qed.

(** A message of [type] and declared length [n] holding [body]. *)
Lemma match_message t n body : (n < 65536)%N -> N.to_nat n - 4 >= length body ->
  let inp := be_enc 2 t ++ be_enc 2 n ++ body in
  declared inp = N.to_nat n /\ region inp = body /\ skipn 4 inp = body /\ 4 <= length inp.
Proof.
  intros Hn Hb. cbv zeta. rewrite !be_enc_2. cbn [app].
  rewrite declared_eq, region_eq, be_dec_2, !to_N_byte_of_N. cbn [skipn length].
  replace (N.to_nat (256 * ((n / 256) mod 256) + n mod 256)) with (N.to_nat n) by lia.
  rewrite firstn_all2 by lia. repeat split. lia.
Qed.

Lemma stray_dropped m old stray tl : wf_Match m -> length stray < 4 ->
  let n := 4 + fields_size (Match_Fields m) + length stray in
  (N.of_nat n < 65536)%N ->
  dec_Match old (be_enc 2 (Match_Type m) ++ be_enc 2 (N.of_nat n)
                 ++ concat (map enc_XM (Match_Fields m)) ++ stray ++ zeros (up8 n - n) ++ tl)
  = Res m (up8 n) None tl.
Proof.
  intros (Ht & Hf & _) S n Hn. pose proof (fields_length _ Hf) as FL.
  set (buf := concat (map enc_XM (Match_Fields m))) in *.
  rewrite (app_assoc buf stray). set (body := buf ++ stray).
  assert (Hb : length body = n - 4) by (unfold body; rewrite app_length; lia).
  rewrite !be_enc_2. cbn [app].
  set (a := byte_of_N (Match_Type m / 256)). set (b := byte_of_N (Match_Type m)).
  set (c := byte_of_N (N.of_nat n / 256)). set (d := byte_of_N (N.of_nat n)).
  assert (EN : N.to_nat (be_dec [c; d]) = n).
  { unfold c, d. rewrite be_dec_2, !to_N_byte_of_N. lia. }
  assert (ET : be_dec [a; b] = Match_Type m).
  { unfold a, b. rewrite be_dec_2, !to_N_byte_of_N. lia. }
  pose proof (dec_Match_eq a b c d (body ++ zeros (up8 n - n) ++ tl) old) as E. cbv zeta in E.
  rewrite EN, ET, <- Hb, firstn_app_exact, skipn_app_exact in E.
  rewrite (xm_loop_parses (Match_Fields m)) in E;
    [|apply parses_stray; [exact Hf|exact S]|lia].
  rewrite E. cbn [app]. rewrite up8_pad, (rt_zeros (pad_len n)). cbn [val cnt fail rest].
  rewrite zeros_length, <- up8_pad, Hb. pose proof (up8_ge n).
  replace (4 + (n - 4 + (up8 n - n))) with (up8 n) by lia. destruct m. reflexivity.
Qed.

Lemma truncated_accepted m old n : wf_Match m -> (n < 65536)%N -> (n mod 8 = 0)%N ->
  4 + fields_size (Match_Fields m) <= N.to_nat n ->
  let r := dec_Match old (be_enc 2 (Match_Type m) ++ be_enc 2 n ++ concat (map enc_XM (Match_Fields m))) in
  val r = m /\ fail r = None.
Proof.
  intros (Ht & Hf & _) Hn H8 Hs. cbv zeta.
  pose proof (fields_length _ Hf) as FL.
  set (buf := concat (map enc_XM (Match_Fields m))) in *.
  destruct (match_message (Match_Type m) n buf Hn ltac:(lia)) as (D & R & K & L).
  set (inp := _ ++ _ ++ buf) in *.
  destruct (match_parsed old inp (Match_Fields m) L) as (A & B & C & _).
  { rewrite R. apply parses_enc, Hf. }
  split.
  - replace (val (dec_Match old inp)) with (MkMatch (Match_Type (val (dec_Match old inp)))
      (Match_Fields (val (dec_Match old inp)))) by (destruct (val _); reflexivity).
    rewrite A, B. unfold inp. rewrite firstn_app_len by apply be_enc_length.
    rewrite be_dec_enc_fits by exact Ht. destruct m; reflexivity.
  - apply C. rewrite D, R, K. unfold up8. lia.
Qed.
