(** Lemmas about the texts of protocol values. *)
From Coq Require Import Bool Lia List String Ascii NArith Arith DecimalString DecimalN.
From Verif Require Export TextModel.
Import ListNotations.
Open Scope string_scope.

Fixpoint lacks (c : ascii) (s : string) : bool :=
  match s with EmptyString => true | String d s' => negb (Ascii.eqb d c) && lacks c s' end.

Lemma cut c : forall a b x y, lacks c a = true -> lacks c b = true ->
  a ++ String c x = b ++ String c y -> a = b /\ x = y.
Proof.
  induction a as [|d a IH]; intros [|e b] x y La Lb E; cbn in *.
  - injection E as E. auto.
  - injection E as E1 _. subst e. rewrite Ascii.eqb_refl in Lb. discriminate Lb.
  - injection E as E1 _. subst d. rewrite Ascii.eqb_refl in La. discriminate La.
  - injection E as E1 E2. apply andb_prop in La. apply andb_prop in Lb.
    destruct (IH b x y (proj2 La) (proj2 Lb) E2) as [-> ->]. subst. auto.
Qed.

Lemma append_inj p : forall a b, p ++ a = p ++ b -> a = b.
Proof. induction p as [|c p IH]; intros a b E; cbn in E; [exact E|]. injection E as E. auto. Qed.

Lemma append_assoc a b c : (a ++ b) ++ c = a ++ (b ++ c).
Proof. induction a as [|d a IH]; cbn; [reflexivity|]. rewrite IH. reflexivity. Qed.

Definition digit (c : ascii) : bool := (48 <=? nat_of_ascii c)%nat && (nat_of_ascii c <=? 57)%nat.

Lemma lacks_uint c u : digit c = false -> lacks c (NilEmpty.string_of_uint u) = true.
Proof.
  intro H. induction u as [|u IH|u IH|u IH|u IH|u IH|u IH|u IH|u IH|u IH|u IH];
    cbn [NilEmpty.string_of_uint lacks]; [reflexivity|..]; rewrite IH, andb_true_r;
    match goal with |- negb (Ascii.eqb ?d c) = true =>
      destruct (Ascii.eqb_spec d c) as [E|E]; [rewrite <- E in H; vm_compute in H; discriminate H|reflexivity] end.
Qed.

Lemma lacks_decimal c n : digit c = false -> lacks c (decimal n) = true.
Proof. apply lacks_uint. Qed.

Lemma decimal_inj n m : decimal n = decimal m -> n = m.
Proof.
  unfold decimal. intro E. apply (f_equal NilEmpty.uint_of_string) in E. rewrite !NilEmpty.usu in E.
  injection E as E. rewrite <- (Unsigned.of_to n), <- (Unsigned.of_to m), E. reflexivity.
Qed.

Lemma paren_inj n m : decimal n ++ ")" = decimal m ++ ")" -> n = m.
Proof.
  intro E. apply decimal_inj. apply (cut ")"%char (decimal n) (decimal m) "" ""); try exact E;
    apply lacks_decimal; reflexivity.
Qed.

(** ** Named values *)
Fixpoint keyed (n : N) (t : list (N * string)) : bool :=
  match t with [] => false | (k, _) :: t' => N.eqb n k || keyed n t' end.
Fixpoint used (s : string) (t : list (N * string)) : bool :=
  match t with [] => false | (_, x) :: t' => String.eqb s x || used s t' end.

(** No text twice, and none that looks like a number in parentheses. *)
Fixpoint tidy (what : string) (t : list (N * string)) : bool :=
  match t with
  | [] => true
  | (k, s) :: t' => negb (used s t') && negb (prefix what s) && tidy what t'
  end.

Lemma prefix_app p : forall s, prefix p (p ++ s) = true.
Proof.
  induction p as [|c p IH]; intro s; [destruct s; reflexivity|]. cbn [append prefix].
  destruct (ascii_dec c c) as [_|E]; [apply IH|congruence].
Qed.

Lemma lookup_used n s : forall t, lookup n t = Some s -> used s t = true.
Proof.
  induction t as [|[k x] t IH]; cbn; [discriminate|]. destruct (N.eqb n k).
  - intro E. injection E as ->. rewrite String.eqb_refl. reflexivity.
  - intro E. rewrite (IH E). apply orb_true_r.
Qed.

Lemma lookup_tidy what n s : forall t, tidy what t = true -> lookup n t = Some s -> prefix what s = false.
Proof.
  induction t as [|[k x] t IH]; cbn; [discriminate|]. intro H. apply andb_prop in H. destruct H as [H1 H2].
  apply andb_prop in H1. destruct (N.eqb n k).
  - intro E. injection E as ->. apply negb_true_iff, H1.
  - apply IH, H2.
Qed.

Lemma lookup_inj what s : forall t n m, tidy what t = true ->
  lookup n t = Some s -> lookup m t = Some s -> n = m.
Proof.
  induction t as [|[k x] t IH]; cbn; [discriminate|]. intros n m H. apply andb_prop in H. destruct H as [H1 H2].
  apply andb_prop in H1. destruct H1 as [H1 _]. apply negb_true_iff in H1.
  destruct (N.eqb_spec n k) as [->|N1], (N.eqb_spec m k) as [->|N2]; auto; intros E1 E2.
  - injection E1 as ->. rewrite (lookup_used _ _ _ E2) in H1. discriminate H1.
  - injection E2 as ->. rewrite (lookup_used _ _ _ E1) in H1. discriminate H1.
Qed.

Lemma named_inj t what n m : tidy (what ++ "(") t = true ->
  named t what n = named t what m -> n = m.
Proof.
  intros H. unfold named. destruct (lookup n t) as [s|] eqn:E1, (lookup m t) as [s'|] eqn:E2; intro E.
  - subst s'. exact (lookup_inj _ _ _ _ _ H E1 E2).
  - exfalso. pose proof (lookup_tidy _ _ _ _ H E1) as P. rewrite E in P.
    rewrite <- append_assoc, prefix_app in P. discriminate P.
  - exfalso. pose proof (lookup_tidy _ _ _ _ H E2) as P. rewrite <- E in P.
    rewrite <- append_assoc, prefix_app in P. discriminate P.
  - apply append_inj in E. injection E as E. apply paren_inj, E.
Qed.

(** ** Errors *)
Definition code_texts : list (N * (N * string)) :=
  List.concat (map (fun g : N * list (N * string) => map (fun ct => (fst g, ct)) (snd g)) tbl_Error).

Fixpoint mentions (s : string) (l : list (N * (N * string))) : bool :=
  match l with [] => false | (_, (_, x)) :: l' => String.eqb s x || mentions s l' end.
Fixpoint clear (l : list (N * (N * string))) : bool :=
  match l with
  | [] => true
  | (_, (_, s)) :: l' => negb (mentions s l') && negb (prefix "ErrType" s) && clear l'
  end.

Lemma mentions_in t c s : forall l, In (t, (c, s)) l -> mentions s l = true.
Proof.
  induction l as [|[t' [c' x]] l IH]; cbn; [intros []|]. intros [E|H].
  - injection E as -> -> ->. rewrite String.eqb_refl. reflexivity.
  - rewrite (IH H). apply orb_true_r.
Qed.

Lemma clear_inj s : forall l t c t' c', clear l = true ->
  In (t, (c, s)) l -> In (t', (c', s)) l -> t = t' /\ c = c'.
Proof.
  induction l as [|[t0 [c0 x]] l IH]; cbn; [intros ? ? ? ? _ []|]. intros t c t' c' H.
  apply andb_prop in H. destruct H as [H1 H2]. apply andb_prop in H1. destruct H1 as [H1 _].
  apply negb_true_iff in H1. intros [E|I1] [E'|I2].
  - injection E as -> -> ->. injection E' as -> ->. auto.
  - injection E as -> -> ->. rewrite (mentions_in _ _ _ _ I2) in H1. discriminate H1.
  - injection E' as -> -> ->. rewrite (mentions_in _ _ _ _ I1) in H1. discriminate H1.
  - eauto.
Qed.

Lemma clear_prefix s : forall l t c, clear l = true -> In (t, (c, s)) l -> prefix "ErrType" s = false.
Proof.
  induction l as [|[t0 [c0 x]] l IH]; cbn -[prefix]; [intros ? ? _ []|]. intros t c H.
  apply andb_prop in H. destruct H as [H1 H2]. apply andb_prop in H1. destruct H1 as [_ H1].
  apply negb_true_iff in H1. intros [E|I1]; [injection E as -> -> ->; exact H1|eauto].
Qed.

Lemma lookup_in {A} n (x : A) : forall t, lookup n t = Some x -> In (n, x) t.
Proof.
  induction t as [|[k y] t IH]; cbn; [discriminate|]. destruct (N.eqb_spec n k) as [->|E].
  - intro H. injection H as ->. auto.
  - auto.
Qed.

Lemma code_in t c codes s : lookup t tbl_Error = Some codes -> lookup c codes = Some s ->
  In (t, (c, s)) code_texts.
Proof.
  intros H1 H2. apply lookup_in in H1. apply lookup_in in H2. unfold code_texts.
  apply in_concat. exists (map (fun ct => (t, ct)) codes). split.
  - apply in_map_iff. exists (t, codes). auto.
  - apply in_map_iff. exists (c, s). auto.
Qed.

Lemma code_texts_clear : clear code_texts = true.
Proof. vm_compute. reflexivity. Qed.

(** The generated part of an error text: the type's own text, then the code. *)
Lemma unknown_error t c : lookup t tbl_Error = None -> text_Error t c = text_ErrType t ++ "Code(" ++ decimal c ++ ")".
Proof.
  intro H. unfold text_Error. rewrite H. unfold text_ErrType, named.
  assert (E : lookup t tbl_ErrType = None).
  { destruct (lookup t tbl_ErrType) as [s|] eqn:E; [|reflexivity]. exfalso. apply lookup_in in E.
    revert H. cbn in E.
    repeat (destruct E as [E|E]; [injection E as <- _; vm_compute; discriminate|]). destruct E. }
  rewrite E, !append_assoc. reflexivity.
Qed.

Lemma error_cases t c :
  (exists s, text_Error t c = s /\ In (t, (c, s)) code_texts)
  \/ text_Error t c = text_ErrType t ++ "Code(" ++ decimal c ++ ")".
Proof.
  destruct (lookup t tbl_Error) as [codes|] eqn:E1; [|right; apply unknown_error, E1].
  unfold text_Error. rewrite E1. destruct (lookup c codes) as [s|] eqn:E2; [left|right; reflexivity].
  exists s. split; [reflexivity|]. exact (code_in _ _ _ _ E1 E2).
Qed.

Lemma errtype_text t : exists s, text_ErrType t = "ErrType" ++ s
  /\ (lacks "(" s = true \/ s = "(" ++ decimal t ++ ")").
Proof.
  unfold text_ErrType, named. destruct (lookup t tbl_ErrType) as [s|] eqn:E.
  - apply lookup_in in E. cbn in E.
    repeat (destruct E as [E|E];
      [injection E as _ <-; match goal with |- exists s, ?x = _ /\ _ =>
         exists (substring 7 (length x) x); split; [reflexivity|left; reflexivity] end|]). destruct E.
  - exists ("(" ++ decimal t ++ ")"). split; [reflexivity|right; reflexivity].
Qed.

Lemma errtype_inj t t' : text_ErrType t = text_ErrType t' -> t = t'.
Proof. apply named_inj. reflexivity. Qed.

Lemma length_append a b : length (a ++ b) = length a + length b.
Proof. induction a as [|c a IH]; cbn; [reflexivity|]. rewrite IH. reflexivity. Qed.

Lemma append_inj_r s : forall a b, a ++ s = b ++ s -> a = b.
Proof.
  induction a as [|c a IH]; intros [|d b] H; [reflexivity|..].
  - apply (f_equal length) in H. rewrite !length_append in H. cbn in H. lia.
  - apply (f_equal length) in H. rewrite !length_append in H. cbn in H. lia.
  - cbn in H. injection H as -> H. f_equal. auto.
Qed.

Lemma lacks_app c x : forall y, lacks c x = true -> lacks c y = true -> lacks c (x ++ y) = true.
Proof.
  induction x as [|d x IH]; intros y H1 H2; cbn [lacks append] in *; [exact H2|].
  apply andb_prop in H1. rewrite (proj1 H1), (IH y (proj2 H1) H2). reflexivity.
Qed.

Lemma code_split x z : x ++ "Code(" ++ z = (x ++ "Code") ++ String "(" z.
Proof. rewrite append_assoc. reflexivity. Qed.

Lemma generated_inj t c t' c' :
  text_ErrType t ++ "Code(" ++ decimal c ++ ")" = text_ErrType t' ++ "Code(" ++ decimal c' ++ ")" ->
  t = t' /\ c = c'.
Proof.
  intro E.
  destruct (errtype_text t) as (s & E1 & F1), (errtype_text t') as (s' & E2 & F2).
  assert (Q : s ++ "Code(" ++ decimal c ++ ")" = s' ++ "Code(" ++ decimal c' ++ ")").
  { rewrite E1, E2, !(append_assoc "ErrType") in E. apply append_inj in E. exact E. }
  destruct F1 as [F1|F1], F2 as [F2|F2].
  - rewrite !code_split in Q. apply cut in Q; [|apply lacks_app; [assumption|reflexivity]..].
    destruct Q as [Q1 Q2]. apply paren_inj in Q2. split; [|exact Q2].
    apply errtype_inj. rewrite E1, E2. f_equal. exact (append_inj_r _ _ _ Q1).
  - exfalso. rewrite code_split, F2 in Q. 
    apply (cut "("%char _ "") in Q; [|apply lacks_app; [assumption|reflexivity]|reflexivity].
    destruct Q as [Q _]. apply (f_equal length) in Q. rewrite length_append in Q. cbn in Q. lia.
  - exfalso. rewrite (code_split s'), F1 in Q. symmetry in Q.
    apply (cut "("%char _ "") in Q; [|apply lacks_app; [assumption|reflexivity]|reflexivity].
    destruct Q as [Q _]. apply (f_equal length) in Q. rewrite length_append in Q. cbn in Q. lia.
  - rewrite F1, F2, !append_assoc in Q. apply (append_inj "(") in Q.
    apply (cut ")"%char) in Q; [|apply lacks_decimal; reflexivity..].
    destruct Q as [Q1 Q2]. split; [apply decimal_inj, Q1|].
    apply (append_inj "Code(") in Q2. apply paren_inj, Q2.
Qed.

Lemma generated_prefix t x : prefix "ErrType" (text_ErrType t ++ x) = true.
Proof.
  destruct (errtype_text t) as (s & -> & _). rewrite append_assoc. apply prefix_app.
Qed.

Lemma error_inj t c t' c' : text_Error t c = text_Error t' c' -> t = t' /\ c = c'.
Proof.
  destruct (error_cases t c) as [(s & -> & I1)| ->], (error_cases t' c') as [(s' & -> & I2)| ->]; intro E.
  - subst s'. exact (clear_inj _ _ _ _ _ _ code_texts_clear I1 I2).
  - exfalso. apply (clear_prefix _ _ _ _ code_texts_clear) in I1. rewrite E, generated_prefix in I1. discriminate I1.
  - exfalso. apply (clear_prefix _ _ _ _ code_texts_clear) in I2. rewrite <- E, generated_prefix in I2. discriminate I2.
  - apply generated_inj, E.
Qed.

(** ** Flags *)
(** Two texts that differ at a position both have. *)
Fixpoint differ (a b : string) : bool :=
  match a, b with
  | String c a', String d b' => negb (Ascii.eqb c d) || differ a' b'
  | _, _ => false
  end.

Lemma differ_app : forall a b u v, differ a b = true -> a ++ u <> b ++ v.
Proof.
  induction a as [|c a IH]; intros [|d b] u v H E; cbn in *; try discriminate H.
  injection E as -> E. rewrite Ascii.eqb_refl in H. cbn in H. exact (IH b u v H E).
Qed.

(** What follows [x ++ " "] in [y], if [y] goes on like that. *)
Fixpoint after_word (x y : string) : option string :=
  match x, y with
  | EmptyString, String " " z => Some z
  | String c x', String d y' => if Ascii.eqb c d then after_word x' y' else None
  | _, _ => None
  end.

Lemma after_word_eq : forall x y z, after_word x y = Some z -> y = x ++ " " ++ z.
Proof.
  induction x as [|c x IH]; intros [|d y] z H; try discriminate H.
  - cbn in H. destruct d as [[] [] [] [] [] [] [] []]; try discriminate H. injection H as ->. reflexivity.
  - cbn in H. destruct (Ascii.eqb_spec c d) as [->|]; [|discriminate H]. cbn. f_equal. apply IH, H.
Qed.

(** The texts after [x] cannot be mistaken for [x] and what may follow it. *)
Definition apart (x : string) (l : list string) : bool :=
  negb (String.eqb x "") &&
  forallb (fun y => differ x y ||
    match after_word x y with Some z => forallb (differ z) l | None => false end) l.

Fixpoint decodable (l : list string) : bool :=
  match l with [] => true | x :: l' => apart x l' && decodable l' end.

Fixpoint sel (b : list bool) (l : list string) : list string :=
  match b, l with
  | c :: b', x :: l' => if c then x :: sel b' l' else sel b' l'
  | _, _ => []
  end.

Definition rest_of (l : list string) : string := match l with [] => "" | _ => " " ++ join " " l end.

Lemma join_cons x l : join " " (x :: l) = x ++ rest_of l.
Proof. destruct l as [|y l]; cbn [join rest_of]; [|reflexivity]. induction x as [|c x IH]; cbn; congruence. Qed.

Lemma sel_in x : forall b l, In x (sel b l) -> In x l.
Proof.
  induction b as [|[|] b IH]; intros [|y l] H; try destruct H; cbn in *; auto.
Qed.

Lemma sel_apart x l b b' : apart x l = true ->
  x ++ rest_of (sel b l) <> join " " (sel b' l).
Proof.
  intros A E. apply andb_prop in A. destruct A as [A0 A1].
  apply negb_true_iff in A0. apply String.eqb_neq in A0.
  destruct (sel b' l) as [|y r'] eqn:S'.
  { destruct x; [congruence|discriminate E]. }
  assert (Iy : In y l) by (apply (sel_in y b' l); rewrite S'; left; reflexivity).
  rewrite join_cons in E.
  pose proof (proj1 (forallb_forall _ _) A1 y Iy) as D. apply orb_prop in D. destruct D as [D|D].
  { exact (differ_app _ _ _ _ D E). }
  destruct (after_word x y) as [z|] eqn:W; [|discriminate D]. apply after_word_eq in W. subst y.
  rewrite append_assoc in E. apply append_inj in E.
  destruct (sel b l) as [|w r] eqn:Sb; [discriminate E|]. cbn [rest_of] in E.
  rewrite join_cons, append_assoc in E. apply (append_inj " ") in E.
  assert (Iw : In w l) by (apply (sel_in w b l); rewrite Sb; left; reflexivity).
  pose proof (proj1 (forallb_forall _ _) D w Iw) as D2. symmetry in E. exact (differ_app _ _ _ _ D2 E).
Qed.

Lemma sel_inj : forall l, decodable l = true -> forall b b', List.length b = List.length l -> List.length b' = List.length l ->
  join " " (sel b l) = join " " (sel b' l) -> b = b'.
Proof.
  induction l as [|x l IH]; intros D [|c b] [|c' b'] L L' E; try discriminate; [reflexivity|].
  cbn in D. apply andb_prop in D. destruct D as [A D]. injection L as L. injection L' as L'.
  cbn [sel] in E. destruct c, c'.
  - rewrite !join_cons in E. apply append_inj in E. f_equal. apply (IH D); auto.
    destruct (sel b l), (sel b' l); cbn [rest_of] in E; try discriminate E; [reflexivity|].
    apply (append_inj " ") in E. exact E.
  - rewrite join_cons in E. destruct (sel_apart _ _ _ _ A E).
  - rewrite join_cons in E. symmetry in E. destruct (sel_apart _ _ _ _ A E).
  - f_equal. apply (IH D); auto.
Qed.

Definition bits (t : list (N * string)) (f : N) : list bool :=
  map (fun mt => negb (N.eqb (N.land (fst mt) f) 0)) t.

Lemma flags_sel t f : flags t f = sel (bits t f) (map snd t).
Proof.
  unfold flags, bits. induction t as [|[m x] t IH]; [reflexivity|]. cbn [map filter fst snd sel].
  destruct (negb (N.eqb (N.land m f) 0)); cbn [map snd]; rewrite IH; reflexivity.
Qed.

Lemma bit_test i f : negb (N.eqb (N.land (2 ^ i) f) 0) = N.testbit f i.
Proof.
  destruct (N.testbit f i) eqn:E.
  - apply negb_true_iff, N.eqb_neq. intro H. apply (f_equal (fun x => N.testbit x i)) in H.
    rewrite N.land_spec, N.pow2_bits_true, E, N.bits_0 in H. discriminate H.
  - apply negb_false_iff, N.eqb_eq. apply N.bits_inj. intro j. rewrite N.land_spec, N.bits_0.
    destruct (N.eq_dec i j) as [->|Hj]; [rewrite E, andb_false_r; reflexivity|].
    rewrite N.pow2_bits_false by exact Hj. reflexivity.
Qed.

(** A table with one bit per entry, in order. *)
Definition consecutive (t : list (N * string)) : Prop :=
  map fst t = map (fun i => (2 ^ N.of_nat i)%N) (seq 0 (List.length t)).

Lemma bits_test t f : consecutive t -> bits t f = map (fun i => N.testbit f (N.of_nat i)) (seq 0 (List.length t)).
Proof.
  intro C. unfold bits. rewrite <- (map_map fst (fun m => negb (N.eqb (N.land m f) 0))), C, map_map.
  apply map_ext. intro i. apply bit_test.
Qed.

Lemma bits_eq t f g : consecutive t ->
  (bits t f = bits t g <-> (f mod 2 ^ N.of_nat (List.length t) = g mod 2 ^ N.of_nat (List.length t))%N).
Proof.
  intro C. rewrite !bits_test by exact C. rewrite <- !N.land_ones. set (n := List.length t). split; intro H.
  - apply N.bits_inj. intro j. rewrite !N.land_spec.
    destruct (N.ltb_spec j (N.of_nat n)) as [L|L].
    + f_equal. apply (f_equal (fun l => nth_error l (N.to_nat j))) in H. rewrite !nth_error_map in H.
      assert (E : nth_error (seq 0 n) (N.to_nat j) = Some (N.to_nat j)).
      { rewrite (nth_error_nth' _ 0%nat) by (rewrite seq_length; lia). f_equal. rewrite seq_nth by lia. reflexivity. }
      rewrite E in H. cbn in H. rewrite N2Nat.id in H. injection H. auto.
    + rewrite N.ones_spec_high by exact L. rewrite !andb_false_r. reflexivity.
  - apply map_ext_in. intros i Hi. apply in_seq in Hi.
    apply (f_equal (fun x => N.testbit x (N.of_nat i))) in H. rewrite !N.land_spec in H.
    rewrite N.ones_spec_low in H by lia. rewrite !andb_true_r in H. exact H.
Qed.

Lemma bits_length t f : List.length (bits t f) = List.length t.
Proof. apply map_length. Qed.

Lemma feature_text f g :
  text_PortFeature f = text_PortFeature g <-> (f mod 65536 = g mod 65536)%N.
Proof.
  change 65536%N with (2 ^ N.of_nat (List.length tbl_PortFeature))%N.
  rewrite <- bits_eq by reflexivity. unfold text_PortFeature. rewrite !flags_sel. split.
  - apply sel_inj; [reflexivity|rewrite bits_length, map_length; reflexivity..].
  - intros ->. reflexivity.
Qed.

Lemma config_sel c : text_PortConfig c
  = join " " (sel (negb (N.testbit c 0) :: bits tbl_PortConfig c) ("up" :: map snd tbl_PortConfig)).
Proof.
  unfold text_PortConfig. rewrite flags_sel. cbn [sel].
  pose proof (bit_test 0 c) as B. change (2 ^ 0)%N with 1%N in B. rewrite <- B, negb_involutive.
  destruct (N.eqb (N.land 1 c) 0); reflexivity.
Qed.

Lemma config_text c d :
  text_PortConfig c = text_PortConfig d <-> (c mod 128 = d mod 128)%N.
Proof.
  change 128%N with (2 ^ N.of_nat (List.length tbl_PortConfig))%N.
  rewrite <- bits_eq by reflexivity. rewrite !config_sel. split.
  - intro H. apply sel_inj in H; try reflexivity.
    exact (f_equal (@tl bool) H).
  - intro H. rewrite H. do 3 f_equal.
    rewrite !bits_test in H by reflexivity. cbn in H. injection H as H _. rewrite H. reflexivity.
Qed.

Lemma state_text s : (s = 1 \/ s = 2 \/ s = 4)%N \/ text_PortState s = "link up".
Proof.
  unfold text_PortState. cbn [lookup tbl_PortState].
  destruct (N.eqb_spec s 1), (N.eqb_spec s 2), (N.eqb_spec s 4); auto.
Qed.
