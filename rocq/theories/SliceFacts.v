(** Lemmas about slices on shared arrays. *)
From Verif Require Import SliceModel SliceSpec StepFacts.
From Coq Require Import Lia.

(** ** Cells *)
Definition cell {A} (h : heap A) (a i : nat) : option A := nth_error (nth a h []) i.

Lemma nth_error_ext {A} (l m : list A) : (forall i, nth_error l i = nth_error m i) -> l = m.
Proof.
  revert m. induction l as [|x l IH]; intros [|y m] H; [reflexivity | | |].
  - specialize (H 0). discriminate.
  - specialize (H 0). discriminate.
  - f_equal; [specialize (H 0); cbn in H; congruence | apply IH; intro i; exact (H (S i))].
Qed.

Lemma nth_error_firstn {A} n (l : list A) i : nth_error (firstn n l) i = if i <? n then nth_error l i else None.
Proof.
  revert n i. induction l as [|x l IH]; intros [|n] [|i]; cbn [firstn nth_error]; try reflexivity.
  - now destruct (S i <? S n).
  - rewrite IH. reflexivity.
Qed.

Lemma nth_error_skipn {A} n (l : list A) i : nth_error (skipn n l) i = nth_error l (n + i).
Proof. revert l. induction n as [|n IH]; intros [|x l]; cbn; try reflexivity; [now destruct i | apply IH]. Qed.

Lemma nth_error_set {A} j (x : A) l i :
  nth_error (set_cell j x l) i = if (i =? j) && (j <? length l) then Some x else nth_error l i.
Proof.
  revert j i. induction l as [|y l IH]; intros [|j] [|i]; cbn [set_cell nth_error length]; try reflexivity.
  - cbn. now rewrite andb_false_r.
  - rewrite IH. reflexivity.
Qed.

Lemma set_cell_length {A} j (x : A) l : length (set_cell j x l) = length l.
Proof. revert j; induction l as [|y l IH]; intros [|j]; cbn; auto. Qed.

Lemma nth_set {A} j (x : A) l i d : j < length l -> nth i (set_cell j x l) d = if i =? j then x else nth i l d.
Proof.
  revert j i. induction l as [|y l IH]; intros [|j] [|i] H; cbn [set_cell nth length] in *; try lia; try reflexivity.
  change (S i =? S j) with (i =? j). apply IH; lia.
Qed.

Lemma view_at {A} (h : heap A) s i : nth_error (view h s) i = if i <? len s then cell h (arr s) (off s + i) else None.
Proof. unfold view, cell. now rewrite nth_error_firstn, nth_error_skipn. Qed.

Lemma view_length {A} (h : heap A) s : proper h s -> length (view h s) = len s.
Proof.
  intros [H1 [H2|[H2 H3]]]; unfold view; rewrite firstn_length, ?skipn_length; lia.
Qed.

(** ** One append *)
Definition pushes {A} grow z (l : list A) (s : store A) : store A := fold_left (fun s x => push grow z x s) l s.

Definition region {A} (s : store A) (n a i : nat) : bool :=
  (a =? arr (var s)) && (off (var s) + len (var s) <=? i)
  && (i <? off (var s) + Nat.min (cap (var s)) (len (var s) + n)).

Lemma push_proper {A} grow z (x : A) s : proper (cells s) (var s) ->
  proper (cells (push grow z x s)) (var (push grow z x s)).
Proof.
  intros P. pose proof P as [H1 H2]. unfold push, append.
  destruct (Nat.ltb_spec (len (var s)) (cap (var s))); cbn [cells var]; unfold proper; cbn [arr off len cap].
  - destruct H2 as [H2|[H2 H3]]; [lia|]. split; [lia|right].
    rewrite set_cell_length, nth_set, Nat.eqb_refl, set_cell_length by exact H2. lia.
  - split; [lia|right]. rewrite app_length, nth_middle; cbn [length]. split; [lia|].
    rewrite !app_length, repeat_length, view_length by exact P. cbn [length]. lia.
Qed.

Lemma push_length {A} grow z (x : A) s : length (cells s) <= length (cells (push grow z x s)).
Proof.
  unfold push, append. destruct (_ <? _); cbn [cells]; [now rewrite set_cell_length | rewrite app_length; lia].
Qed.

Lemma push_cell {A} grow z (x : A) s a i : proper (cells s) (var s) -> a < length (cells s) ->
  cell (cells (push grow z x s)) a i = if region s 1 a i then Some x else cell (cells s) a i.
Proof.
  intros [H1 H2] Ha. unfold push, append, region, cell.
  destruct (Nat.ltb_spec (len (var s)) (cap (var s))); cbn [cells].
  - destruct H2 as [H2|[H2 H3]]; [lia|]. rewrite nth_set by exact H2.
    destruct (Nat.eqb_spec a (arr (var s))) as [->|Hn]; cbn [andb]; [|reflexivity].
    rewrite nth_error_set.
    destruct (Nat.eqb_spec i (off (var s) + len (var s))); destruct (Nat.ltb_spec (off (var s) + len (var s)) (length (nth (arr (var s)) (cells s) [])));
      destruct (Nat.leb_spec (off (var s) + len (var s)) i); destruct (Nat.ltb_spec i (off (var s) + Nat.min (cap (var s)) (len (var s) + 1)));
      cbn [andb]; try reflexivity; lia.
  - rewrite app_nth1 by exact Ha.
    replace (_ && _) with false; [reflexivity|]. symmetry. apply andb_false_iff.
    destruct (Nat.leb_spec (off (var s) + len (var s)) i); [right; apply Nat.ltb_ge; lia | left; now rewrite andb_false_r].
Qed.

Lemma push_holds {A} grow z (x : A) s : proper (cells s) (var s) -> holds (push grow z x s) = holds s ++ [x].
Proof.
  intros P. pose proof P as [H1 H2]. unfold holds.
  assert (L : length (view (cells s) (var s)) = len (var s)) by now apply view_length.
  apply nth_error_ext. intro i.
  destruct (Nat.ltb_spec (len (var s)) (cap (var s))) as [Hc|Hc].
  - destruct H2 as [H2|[H2 H3]]; [lia|].
    assert (V : var (push grow z x s) = MkSlice (arr (var s)) (off (var s)) (S (len (var s))) (cap (var s))).
    { unfold push, append. destruct (Nat.ltb_spec (len (var s)) (cap (var s))); [reflexivity|lia]. }
    rewrite view_at, V; cbn [arr off len]. rewrite push_cell by assumption. unfold region. rewrite Nat.eqb_refl. cbn [andb].
    destruct (Nat.lt_trichotomy i (len (var s))) as [E|[E|E]].
    + rewrite nth_error_app1 by lia. rewrite view_at.
      destruct (Nat.ltb_spec i (S (len (var s)))); [|lia]. destruct (Nat.ltb_spec i (len (var s))); [|lia].
      destruct (Nat.leb_spec (off (var s) + len (var s)) (off (var s) + i)); [lia|]. reflexivity.
    + subst i. rewrite nth_error_app2, L, Nat.sub_diag by lia. cbn [nth_error].
      destruct (Nat.ltb_spec (len (var s)) (S (len (var s)))); [|lia]. rewrite Nat.leb_refl.
      destruct (Nat.ltb_spec (off (var s) + len (var s)) (off (var s) + Nat.min (cap (var s)) (len (var s) + 1))); [reflexivity|lia].
    + destruct (Nat.ltb_spec i (S (len (var s)))); [lia|]. symmetry. apply nth_error_None. rewrite app_length. cbn. lia.
  - unfold push, append. destruct (Nat.ltb_spec (len (var s)) (cap (var s))); [lia|]. cbn [cells var].
    f_equal. unfold view at 1. cbn [arr off len skipn]. rewrite nth_middle, app_assoc, firstn_app.
    assert (L' : length (view (cells s) (var s) ++ [x]) = S (len (var s))) by (rewrite app_length; cbn; lia).
    rewrite L', Nat.sub_diag, firstn_O, app_nil_r. apply firstn_all2. lia.
Qed.

(** ** Many *)
Lemma pushes_proper {A} grow z (l : list A) s : proper (cells s) (var s) ->
  proper (cells (pushes grow z l s)) (var (pushes grow z l s)).
Proof. revert s. induction l as [|x l IH]; intros s P; [exact P|]. cbn. apply IH, push_proper, P. Qed.

Lemma pushes_holds {A} grow z (l : list A) s : proper (cells s) (var s) -> holds (pushes grow z l s) = holds s ++ l.
Proof.
  revert s. induction l as [|x l IH]; intros s P; cbn; [now rewrite app_nil_r|].
  change (fold_left _ l _) with (pushes grow z l (push grow z x s)).
  rewrite IH by now apply push_proper. rewrite push_holds by exact P. now rewrite <- app_assoc.
Qed.

Lemma pushes_cell {A} grow z (l : list A) s a i : proper (cells s) (var s) -> a < length (cells s) ->
  cell (cells (pushes grow z l s)) a i
  = if region s (length l) a i then nth_error l (i - (off (var s) + len (var s))) else cell (cells s) a i.
Proof.
  revert s. induction l as [|x l IH]; intros s P Ha.
  - cbn [pushes fold_left length]. unfold region.
    replace (_ && _) with false; [reflexivity|]. symmetry. apply andb_false_iff.
    destruct (Nat.leb_spec (off (var s) + len (var s)) i); [right; apply Nat.ltb_ge; lia | left; now rewrite andb_false_r].
  - change (pushes grow z (x :: l) s) with (pushes grow z l (push grow z x s)).
    rewrite IH; [| now apply push_proper | pose proof (push_length grow z x s); lia].
    rewrite push_cell by assumption. pose proof P as [H1 H2].
    destruct (Nat.ltb_spec (len (var s)) (cap (var s))) as [Hc|Hc].
    + assert (V : var (push grow z x s) = MkSlice (arr (var s)) (off (var s)) (S (len (var s))) (cap (var s))).
      { unfold push, append. destruct (Nat.ltb_spec (len (var s)) (cap (var s))); [reflexivity|lia]. }
      unfold region. rewrite V; cbn [arr off len cap length].
      destruct (a =? arr (var s)); cbn [andb]; [|reflexivity].
      destruct (Nat.leb_spec (off (var s) + S (len (var s))) i);
        destruct (Nat.ltb_spec i (off (var s) + Nat.min (cap (var s)) (S (len (var s)) + length l)));
        destruct (Nat.leb_spec (off (var s) + len (var s)) i);
        destruct (Nat.ltb_spec i (off (var s) + Nat.min (cap (var s)) (len (var s) + 1)));
        destruct (Nat.ltb_spec i (off (var s) + Nat.min (cap (var s)) (len (var s) + S (length l))));
        cbn [andb]; try lia; try reflexivity.
      * replace (i - (off (var s) + len (var s))) with (S (i - (off (var s) + S (len (var s))))) by lia. reflexivity.
      * replace (i - (off (var s) + len (var s))) with 0 by lia. reflexivity.
    + assert (V : arr (var (push grow z x s)) = length (cells s)).
      { unfold push, append. destruct (Nat.ltb_spec (len (var s)) (cap (var s))); [lia|reflexivity]. }
      unfold region. rewrite V.
      destruct (Nat.eqb_spec a (length (cells s))); [lia|]. cbn [andb].
      destruct (a =? arr (var s)); cbn [andb]; [|reflexivity].
      destruct (Nat.leb_spec (off (var s) + len (var s)) i); cbn [andb]; [|reflexivity].
      destruct (Nat.ltb_spec i (off (var s) + Nat.min (cap (var s)) (len (var s) + 1)));
        destruct (Nat.ltb_spec i (off (var s) + Nat.min (cap (var s)) (len (var s) + length (x :: l)))); try lia; reflexivity.
Qed.

(** A slice that existed, after the appends. *)
Lemma proper_array {A} (h : heap A) k i : proper h k -> i < len k -> arr k < length h.
Proof. intros [H1 [H2|[H2 _]]] Hi; lia. Qed.

Lemma pushes_view {A} grow z (l : list A) s k : proper (cells s) (var s) -> proper (cells s) k ->
  forall i, nth_error (view (cells (pushes grow z l s)) k) i
  = if (i <? len k) && region s (length l) (arr k) (off k + i)
    then nth_error l (off k + i - (off (var s) + len (var s))) else nth_error (view (cells s) k) i.
Proof.
  intros P K i. rewrite !view_at. destruct (Nat.ltb_spec i (len k)) as [Hi|Hi]; cbn [andb]; [|reflexivity].
  apply pushes_cell; [exact P | eapply proper_array; eassumption].
Qed.

Lemma pushes_elsewhere {A} grow z (l : list A) s : proper (cells s) (var s) -> others_untouched s (pushes grow z l s).
Proof.
  intros P k K N. apply nth_error_ext. intro i. rewrite pushes_view by assumption.
  unfold region. destruct (Nat.eqb_spec (arr k) (arr (var s))); [contradiction|]. cbn [andb]. now rewrite andb_false_r.
Qed.

Lemma pushes_no_room {A} grow z (l : list A) s : proper (cells s) (var s) -> cap (var s) = 0 ->
  nothing_touched s (pushes grow z l s).
Proof.
  intros P C k K. apply nth_error_ext. intro i. rewrite pushes_view by assumption.
  replace (region _ _ _ _) with false; [now rewrite andb_false_r|].
  symmetry. unfold region. rewrite C. apply andb_false_iff.
  destruct (Nat.leb_spec (off (var s) + len (var s)) (off k + i)); [right; apply Nat.ltb_ge; lia | left; now rewrite andb_false_r].
Qed.

Lemma truncate_proper {A} (s : store A) : proper (cells s) (var s) -> proper (cells (truncate s)) (var (truncate s)).
Proof. intros [H1 H2]. split; cbn; [lia|exact H2]. Qed.

Lemma forget_proper {A} (s : store A) : proper (cells (forget s)) (var (forget s)).
Proof. split; cbn; [lia|now left]. Qed.

Lemma pushes_truncated {A} grow z (l : list A) s : proper (cells s) (var s) ->
  view (cells (pushes grow z l (truncate s))) (var s) = overwritten l (holds s).
Proof.
  intros P. pose proof P as [H1 H2]. apply nth_error_ext. intro i.
  assert (L : length (holds s) = len (var s)) by now apply view_length.
  rewrite (pushes_view grow z l (truncate s) (var s)); [| now apply truncate_proper | exact P].
  unfold region, truncate, truncated, overwritten, holds; cbn [cells var arr off len cap]. rewrite Nat.eqb_refl. cbn [andb].
  fold (holds s). rewrite L.
  destruct (Nat.ltb_spec i (len (var s))) as [Hi|Hi]; cbn [andb].
  - destruct (Nat.leb_spec (off (var s) + 0) (off (var s) + i)); [|lia]. cbn [andb].
    destruct (Nat.ltb_spec (off (var s) + i) (off (var s) + Nat.min (cap (var s)) (0 + length l))).
    + rewrite nth_error_app1 by (rewrite firstn_length; lia). rewrite nth_error_firstn.
      destruct (Nat.ltb_spec i (len (var s))); [|lia]. f_equal. lia.
    + rewrite nth_error_app2 by (rewrite firstn_length; lia). rewrite nth_error_skipn.
      unfold holds. f_equal. rewrite firstn_length. lia.
  - transitivity (@None A); [apply nth_error_None; unfold holds in *; lia|].
    symmetry. apply nth_error_None. rewrite app_length, firstn_length, skipn_length. unfold holds in *; lia.
Qed.

(** Lists that end where the variable's list ends, or before. *)
Lemma pushes_before {A} grow z (l : list A) s k : proper (cells s) (var s) -> proper (cells s) k ->
  (arr k = arr (var s) -> off k + len k <= off (var s) + len (var s)) ->
  view (cells (pushes grow z l s)) k = view (cells s) k.
Proof.
  intros P K E. apply nth_error_ext. intro i. rewrite pushes_view by assumption.
  replace ((i <? len k) && _) with false; [reflexivity|]. symmetry.
  destruct (Nat.ltb_spec i (len k)); cbn [andb]; [|reflexivity]. unfold region.
  destruct (Nat.eqb_spec (arr k) (arr (var s))) as [F|F]; cbn [andb]; [|reflexivity]. specialize (E F).
  destruct (Nat.leb_spec (off (var s) + len (var s)) (off k + i)); [lia|reflexivity].
Qed.

(** ** Loops with an append, and the lists they read *)
Lemma scan_loop_acc {A} fuel mk (rd : step A) acc inp :
  scan_loop fuel mk rd acc inp
  = Res (acc ++ val (scan_loop fuel mk rd [] inp)) (cnt (scan_loop fuel mk rd [] inp))
        (fail (scan_loop fuel mk rd [] inp)) (rest (scan_loop fuel mk rd [] inp)).
Proof.
  revert acc inp. induction fuel as [|f IH]; intros acc inp; cbn [scan_loop].
  - cbn [val cnt fail rest]. now rewrite app_nil_r.
  - destruct (length inp <? 2); [cbn [val cnt fail rest]; now rewrite app_nil_r|].
    destruct (mk _) as [| |a]; try (cbn [val cnt fail rest]; now rewrite app_nil_r).
    destruct (fail (rd a inp)); [reflexivity|].
    rewrite (IH (acc ++ _)), (IH ([] ++ _)). cbn [val cnt fail rest app]. now rewrite <- app_assoc.
Qed.

Lemma scan_to_fold {A St} fuel mk (rd : step A) (put : A -> St -> St) s inp :
  scan_to fuel mk rd put s inp
  = let r := scan_loop fuel mk rd [] inp in
    Res (fold_left (fun s x => put x s) (val r) s) (cnt r) (fail r) (rest r).
Proof.
  revert s inp. induction fuel as [|f IH]; intros s inp; cbn [scan_to scan_loop]; [reflexivity|].
  destruct (length inp <? 2); [reflexivity|].
  destruct (mk _) as [| |a]; try reflexivity.
  destruct (fail (rd a inp)); [reflexivity|].
  rewrite IH, (scan_loop_acc f mk rd ([] ++ [val (rd a inp)])). reflexivity.
Qed.

Opaque dec_xm dec_Port.

Lemma xm_loop_acc fuel p acc inp :
  xm_loop fuel p acc inp = (acc ++ fst (xm_loop fuel p [] inp), snd (xm_loop fuel p [] inp)).
Proof.
  revert acc inp. induction fuel as [|f IH]; intros acc inp; cbn [xm_loop].
  - now rewrite app_nil_r.
  - destruct (length inp <? 4); [cbn [fst snd]; now rewrite app_nil_r|].
    generalize (dec_xm p zero_XM inp). intros [v n e r]. cbn [val fail rest].
    destruct e as [e|]; [cbn [fst snd]; now rewrite app_nil_r|].
    rewrite (IH (acc ++ [v])), (IH ([] ++ [v])). cbn [fst snd app]. rewrite <- app_assoc. reflexivity.
Qed.

Lemma xm_to_fold {St} fuel p (put : XM -> St -> St) s inp :
  xm_to fuel p put s inp = (fold_left (fun s x => put x s) (fst (xm_loop fuel p [] inp)) s, snd (xm_loop fuel p [] inp)).
Proof.
  revert s inp. induction fuel as [|f IH]; intros s inp; cbn [xm_to xm_loop]; [reflexivity|].
  destruct (length inp <? 4); [reflexivity|].
  generalize (dec_xm p zero_XM inp). intros [v n e r]. cbn [val fail rest]. destruct e as [e|]; [reflexivity|].
  rewrite IH, (xm_loop_acc f p ([] ++ [v])). cbn [fst snd app fold_left]. reflexivity.
Qed.

Lemma ports_loop_acc fuel acc inp :
  ports_loop fuel acc inp
  = Res (acc ++ val (ports_loop fuel [] inp)) (cnt (ports_loop fuel [] inp))
        (fail (ports_loop fuel [] inp)) (rest (ports_loop fuel [] inp)).
Proof.
  revert acc inp. induction fuel as [|f IH]; intros acc inp; cbn [ports_loop].
  - cbn [val cnt fail rest]. now rewrite app_nil_r.
  - generalize (dec_Port zero_Port inp). intros [v n e r]. cbn [val cnt fail rest].
    destruct e as [e|].
    + destruct e; cbn [val cnt fail rest app]; rewrite ?app_nil_r; reflexivity.
    + rewrite (IH (acc ++ [v])), (IH ([] ++ [v])). cbn [val cnt fail rest app]. rewrite <- app_assoc. reflexivity.
Qed.

Lemma ports_to_fold {St} fuel (put : Port -> St -> St) s inp :
  ports_to fuel put s inp
  = let r := ports_loop fuel [] inp in
    Res (fold_left (fun s x => put x s) (val r) s) (cnt r) (fail r) (rest r).
Proof.
  revert s inp. induction fuel as [|f IH]; intros s inp; cbn [ports_to ports_loop]; [reflexivity|].
  generalize (dec_Port zero_Port inp). intros [v n e r]. cbn [val cnt fail rest].
  destruct e as [e|].
  - destruct e; reflexivity.
  - rewrite IH, (ports_loop_acc f ([] ++ [v])). cbn [val cnt fail rest app fold_left]. reflexivity.
Qed.

Lemma readfunc_loop_acc {A} fuel (zero : A) rd acc inp :
  readfunc_loop fuel zero rd (fun a l => l ++ [a]) acc inp
  = Res (acc ++ val (readfunc_loop fuel zero rd (fun a l => l ++ [a]) [] inp))
        (cnt (readfunc_loop fuel zero rd (fun a l => l ++ [a]) [] inp))
        (fail (readfunc_loop fuel zero rd (fun a l => l ++ [a]) [] inp))
        (rest (readfunc_loop fuel zero rd (fun a l => l ++ [a]) [] inp)).
Proof.
  revert acc inp. induction fuel as [|f IH]; intros acc inp; cbn [readfunc_loop].
  - cbn [val cnt fail rest]. now rewrite app_nil_r.
  - destruct (fail (rd zero inp)); [cbn [val cnt fail rest]; now rewrite app_nil_r|].
    rewrite (IH (acc ++ _)), (IH ([] ++ _)). cbn [val cnt fail rest app]. now rewrite <- app_assoc.
Qed.

Lemma readfunc_fold {A St} fuel (zero : A) rd (put : A -> St -> St) s inp :
  readfunc_loop fuel zero rd put s inp
  = let r := readfunc_loop fuel zero rd (fun a l => l ++ [a]) [] inp in
    Res (fold_left (fun s x => put x s) (val r) s) (cnt r) (fail r) (rest r).
Proof.
  revert s inp. induction fuel as [|f IH]; intros s inp; cbn [readfunc_loop]; [reflexivity|].
  destruct (fail (rd zero inp)); [reflexivity|].
  rewrite IH, (readfunc_loop_acc f zero rd ([] ++ _)). reflexivity.
Qed.

Transparent dec_xm dec_Port.

(** ** Readers of the same message on lists and on slices *)
Definition alike {S T} (R : S -> T -> Prop) (f : step S) (g : step T) : Prop := forall s t inp, R s t ->
  let a := f s inp in let b := g t inp in
  R (val a) (val b) /\ cnt a = cnt b /\ fail a = fail b /\ rest a = rest b.

Lemma alike_take {S T} (R : S -> T -> Prop) k u v :
  (forall b s t, R s t -> R (u b s) (v b t)) -> alike R (take_full k u) (take_full k v).
Proof.
  intros H s t inp HR. cbn zeta. destruct (Nat.ltb_spec (length inp) k).
  - rewrite !take_short by assumption. cbn [val cnt fail rest]. auto.
  - rewrite !take_long by assumption. cbn [val cnt fail rest]. auto.
Qed.

Lemma alike_andthen {S T} (R : S -> T -> Prop) a a' b b' : alike R a a' ->
  (forall n h h', R h h' -> alike R (b n h) (b' n h')) -> alike R (andthen a b) (andthen a' b').
Proof.
  intros Ha Hb s t inp HR. destruct (Ha s t inp HR) as (R1 & C1 & F1 & E1). cbn zeta.
  destruct (a s inp) as [v n e r] eqn:Ea, (a' t inp) as [v' n' e' r'] eqn:Ea'. cbn [val cnt fail rest] in *. subst n' e' r'.
  destruct e as [e|].
  - rewrite (andthen_err a b _ _ _ _ _ _ Ea), (andthen_err a' b' _ _ _ _ _ _ Ea'). cbn [val cnt fail rest]. auto.
  - rewrite (andthen_ok a b _ _ _ _ _ Ea), (andthen_ok a' b' _ _ _ _ _ Ea').
    destruct (Hb n v v' R1 v v' r R1) as (R2 & C2 & F2 & E2). cbn [val cnt fail rest]. repeat split; congruence.
Qed.

Lemma alike_with_local {L S T} (R : S -> T -> Prop) (l : L) f g :
  alike (fun x y => fst x = fst y /\ R (snd x) (snd y)) f g -> alike R (with_local l f) (with_local l g).
Proof.
  intros H s t inp HR. destruct (H (l, s) (l, t) inp (conj eq_refl HR)) as ((_ & R1) & C1 & F1 & E1). cbn zeta.
  destruct (f (l, s) inp) as [v n e r] eqn:Ef, (g (l, t) inp) as [v' n' e' r'] eqn:Eg.
  rewrite (with_local_eq l f s inp _ _ _ _ Ef), (with_local_eq l g t inp _ _ _ _ Eg). cbn [val cnt fail rest] in *. auto.
Qed.

Lemma alike_limited {S T} (R : S -> T -> Prop) z f g : alike R f g -> alike R (limited z f) (limited z g).
Proof.
  intros H s t inp HR. cbn zeta. unfold limited.
  destruct (H s t (firstn (Z.to_nat z) inp) HR) as (R1 & C1 & F1 & E1). cbn [val cnt fail rest]. repeat split; congruence.
Qed.

Lemma alike_sub_snd {L S T} (R : S -> T -> Prop) f g : alike R f g ->
  alike (fun x y => fst x = fst y /\ R (snd x) (snd y))
    (sub snd (fun x (s : L * S) => (fst s, x)) f) (sub snd (fun x (s : L * T) => (fst s, x)) g).
Proof.
  intros H s t inp [E HR]. cbn zeta. unfold sub. destruct (H (snd s) (snd t) inp HR) as (R1 & C1 & F1 & E1).
  cbn [val cnt fail rest fst snd]. repeat split; assumption.
Qed.

(** A property and the same property with its list on an array. *)
Definition on_array {A} (k : bool -> list A -> TableProp) (p : TableProp) (t : list_prop A) : Prop :=
  p = k (fst t) (holds (snd t)) /\ proper (cells (snd t)) (var (snd t)).

Lemma truncate_holds {A} (s : store A) : holds (truncate s) = [].
Proof. reflexivity. Qed.

Lemma readfunc_pushes {A} grow z (zero : A) rd s inp : exists l r,
  readfunc_loop (S (length inp)) zero rd (fun a l => l ++ [a]) [] inp = r /\ l = val r /\
  readfunc zero rd (push grow z) s inp = Res (pushes grow z l s) (cnt r) (fail r) (rest r).
Proof.
  exists (val (readfunc_loop (S (length inp)) zero rd (fun a l => l ++ [a]) [] inp)). eexists.
  split; [reflexivity|]. split; [reflexivity|]. unfold readfunc. rewrite readfunc_fold. reflexivity.
Qed.

Lemma types_body grow k : type_prop k ->
  alike (on_array k) (pre (set_types []) (readfunc 0%N dec_bare (fun t p => set_types (get_types p ++ [t]) p)))
    (sub snd (fun (x : store N) (s : list_prop N) => (fst s, x)) (pre truncate (readfunc 0%N dec_bare (push grow 0%N)))).
Proof.
  intros K p [m st] inp [E P]. cbn [fst snd] in *. cbn zeta.
  destruct (readfunc_pushes grow 0%N 0%N dec_bare (truncate st) inp) as (l & r & Hr & Hl & H).
  assert (H' : sub snd (fun (x : store N) (s : list_prop N) => (fst s, x)) (pre truncate (readfunc 0%N dec_bare (push grow 0%N))) (m, st) inp
               = Res (m, pushes grow 0%N l (truncate st)) (cnt r) (fail r) (rest r)).
  { apply (sub_eq snd (fun (x : store N) (s : list_prop N) => (fst s, x))
             (pre truncate (readfunc 0%N dec_bare (push grow 0%N))) (m, st)). exact H. }
  rewrite H'. clear H H'. unfold pre, readfunc. rewrite readfunc_fold, Hr. cbn zeta. cbn [val cnt fail rest]. rewrite <- Hl.
  split; [|auto]. split; cbn [fst snd].
  - rewrite pushes_holds by now apply truncate_proper. rewrite truncate_holds, E. cbn [app].
    assert (F : forall l1 l0 : list N, fold_left (fun p t => set_types (get_types p ++ [t]) p) l1 (k m l0) = k m (l0 ++ l1)).
    { induction l1 as [|t l1 IH]; intro l0; cbn [fold_left]; [now rewrite app_nil_r|].
      replace (set_types (get_types (k m l0) ++ [t]) (k m l0)) with (k m (l0 ++ [t])) by (destruct K; reflexivity).
      rewrite IH, <- app_assoc. reflexivity. }
    replace (set_types [] (k m (holds st))) with (k m []) by (destruct K; reflexivity). apply (F l []).
  - apply pushes_proper, truncate_proper, P.
Qed.

Lemma fields_body grow b k : field_prop b k ->
  alike (on_array k) (pre (set_xms []) (sub get_xms set_xms (read_all_xm false)))
    (sub snd (fun (x : store XM) (s : list_prop XM) => (fst s, x)) (pre truncate (all_xm false (push grow zero_XM)))).
Proof.
  intros K p [m st] inp [E P]. cbn [fst snd] in *. cbn zeta.
  assert (H : pre truncate (all_xm false (push grow zero_XM)) st inp
    = Res (pushes grow zero_XM (fst (xm_loop (S (length inp)) false [] inp)) (truncate st)) (length inp)
          (snd (xm_loop (S (length inp)) false [] inp)) []).
  { unfold pre, all_xm. rewrite xm_to_fold. reflexivity. }
  apply (sub_eq snd (fun (x : store XM) (s : list_prop XM) => (fst s, x))
           (pre truncate (all_xm false (push grow zero_XM))) (m, st)) in H. rewrite H.
  assert (G : read_all_xm false [] inp = Res (fst (xm_loop (S (length inp)) false [] inp)) (length inp)
                (snd (xm_loop (S (length inp)) false [] inp)) []).
  { unfold read_all_xm. destruct (xm_loop _ _ _ _); reflexivity. }
  generalize dependent (xm_loop (S (length inp)) false [] inp). intros [l e] H G. cbn [fst snd] in *.
  assert (G' : pre (set_xms []) (sub get_xms set_xms (read_all_xm false)) p inp = Res (k m l) (length inp) e []).
  { unfold pre. rewrite E.
    replace (k m l) with (set_xms l (set_xms [] (k m (holds st)))) by (destruct K; reflexivity).
    apply sub_eq. replace (get_xms (set_xms [] (k m (holds st)))) with (@nil XM) by (destruct K; reflexivity). exact G. }
  rewrite G'. cbn [val cnt fail rest]. split; [|auto]. split; cbn [fst snd].
  - rewrite pushes_holds by now apply truncate_proper. reflexivity.
  - apply pushes_proper, truncate_proper, P.
Qed.

Lemma prop_bodies {A} (flag : bool) (k : bool -> list A -> TableProp) f g :
  (forall b m l, set_miss b (k m l) = k (if flag then b else m) l) ->
  alike (on_array k) f (sub snd (fun (x : store A) (s : list_prop A) => (fst s, x)) (pre truncate g)) ->
  alike (on_array k) (prop_body f) (list_prop_body flag g).
Proof.
  intros K H. unfold prop_body, list_prop_body. apply alike_with_local. apply alike_andthen.
  - unfold prop_head, list_prop_head, fbytes. apply alike_take. intros b s t [_ [E P]]. cbn [fst snd].
    split; [reflexivity|]. split; cbn [fst snd]; [rewrite E; apply K | exact P].
  - intros _ h h' [E _]. rewrite <- E. apply alike_andthen.
    + apply alike_limited. apply (alike_sub_snd (on_array k)). exact H.
    + intros _ _ _ _. unfold fpad. apply alike_take. intros _ s t HR. exact HR.
Qed.

Lemma types_alike grow k : type_prop k -> alike (on_array k) dec_prop_types (slice_types grow).
Proof.
  intro K. unfold dec_prop_types, slice_types. apply prop_bodies.
  - intros b m l. destruct K; reflexivity.
  - apply types_body, K.
Qed.

Lemma fields_alike grow b k : field_prop b k -> alike (on_array k) dec_prop_xm (slice_xms grow b).
Proof.
  intro K. unfold dec_prop_xm, slice_xms. apply prop_bodies.
  - intros b' m l. destruct K; reflexivity.
  - apply (fields_body grow b), K.
Qed.

(** What becomes of the arrays. *)
Lemma list_prop_store {A} flag (g : step (store A)) m st inp :
  snd (val (list_prop_body flag g (m, st) inp))
  = if length inp <? 4 then st
    else val (g (truncate st) (firstn (N.to_nat (sub16 (be_dec (skipn 2 (firstn 4 inp))) 4)) (skipn 4 inp))).
Proof.
  unfold list_prop_body.
  destruct (Nat.ltb_spec (length inp) 4) as [Hs|Hs].
  - pose proof (take_short 4 (fun b (s : N * list_prop A) => (be_dec (skipn 2 b),
       ((if flag then N.testbit (be_dec (firstn 2 b)) 0 else fst (snd s)), snd (snd s)))) (0%N, (m, st)) inp Hs) as T.
    fold (fbytes 4 (fun b (s : N * list_prop A) => (be_dec (skipn 2 b),
       ((if flag then N.testbit (be_dec (firstn 2 b)) 0 else fst (snd s)), snd (snd s))))) in T.
    fold (@list_prop_head A flag) in T.
    erewrite with_local_eq; [|apply andthen_err; exact T]. reflexivity.
  - pose proof (take_long 4 (fun b (s : N * list_prop A) => (be_dec (skipn 2 b),
       ((if flag then N.testbit (be_dec (firstn 2 b)) 0 else fst (snd s)), snd (snd s)))) (0%N, (m, st)) inp Hs) as T.
    fold (fbytes 4 (fun b (s : N * list_prop A) => (be_dec (skipn 2 b),
       ((if flag then N.testbit (be_dec (firstn 2 b)) 0 else fst (snd s)), snd (snd s))))) in T.
    fold (@list_prop_head A flag) in T.
    erewrite with_local_eq; [|apply andthen_ok; exact T]. cbn [val].
    cbn [fst snd].
    set (n := be_dec (skipn 2 (firstn 4 inp))).
    replace (Z.to_nat (Z.of_N (sub16 n 4))) with (N.to_nat (sub16 n 4)) in * by lia.
    set (lim := limited _ _).
    assert (V : forall s r, val (fpad (S := N * list_prop A) (pad_len (N.to_nat n)) s r) = s).
    { intros s r. unfold fpad. destruct (Nat.ltb_spec (length r) (pad_len (N.to_nat n)));
        [rewrite take_short by assumption|rewrite take_long by assumption]; reflexivity. }
    set (h := (n, _)).
    assert (W : val (andthen lim (fun _ _ => fpad (pad_len (N.to_nat n))) h (skipn 4 inp)) = val (lim h (skipn 4 inp))).
    { destruct (lim h (skipn 4 inp)) as [v c e r] eqn:E. destruct e.
      - now rewrite (andthen_err _ _ _ _ _ _ _ _ E).
      - rewrite (andthen_ok _ _ _ _ _ _ _ E). apply V. }
    match goal with |- snd (snd ?x) = _ => change x with (val (andthen lim (fun _ _ => fpad (pad_len (N.to_nat n))) h (skipn 4 inp))) end.
    rewrite W. subst lim h. unfold limited. cbn [val].
    replace (Z.to_nat (Z.of_N (sub16 n 4))) with (N.to_nat (sub16 n 4)) by lia. reflexivity.
Qed.

(** ** The readers without a header *)
Definition pushing {A} (g : step (store A)) grow z (new : bytes -> res (list A)) : Prop := forall st inp,
  g st inp = Res (pushes grow z (val (new inp)) st) (cnt (new inp)) (fail (new inp)) (rest (new inp)).

Lemma scanning_pushing {A} grow z mk (rd : step A) : pushing (scanning mk rd (push grow z)) grow z (scan mk rd []).
Proof. intros st inp. unfold scanning, scan. rewrite scan_to_fold. reflexivity. Qed.

Lemma xm_pushing grow z p : pushing (all_xm p (push grow z)) grow z (read_all_xm p []).
Proof. intros st inp. unfold all_xm, read_all_xm. rewrite xm_to_fold. destruct (xm_loop _ _ _ _); reflexivity. Qed.

Lemma slice_Ports_eq grow s inp : slice_Ports grow s inp = ports_to (S (length inp)) (push grow zero_Port) s inp.
Proof. reflexivity. Qed.

Lemma dec_Ports_eq old inp : dec_Ports old inp = ports_loop (S (length inp)) old inp.
Proof. reflexivity. Qed.

Lemma ports_pushing grow : pushing (slice_Ports grow) grow zero_Port (dec_Ports []).
Proof.
  intros st inp. pose proof (slice_Ports_eq grow st inp) as H. rewrite ports_to_fold in H.
  pose proof (dec_Ports_eq [] inp) as G. revert G H.
  generalize (ports_loop (S (length inp)) [] inp) (slice_Ports grow st inp) (dec_Ports [] inp).
  intros r s d -> ->. reflexivity.
Qed.

Lemma dec_Ports_app old inp : dec_Ports old inp
  = Res (old ++ val (dec_Ports [] inp)) (cnt (dec_Ports [] inp)) (fail (dec_Ports [] inp)) (rest (dec_Ports [] inp)).
Proof.
  pose proof (ports_loop_acc (S (length inp)) old inp) as H. pose proof (dec_Ports_eq [] inp) as G.
  pose proof (dec_Ports_eq old inp) as G'. revert G G' H.
  generalize (ports_loop (S (length inp)) [] inp) (ports_loop (S (length inp)) old inp) (dec_Ports old inp) (dec_Ports [] inp).
  intros a b c d -> -> H. exact H.
Qed.

Lemma scan_app {A} mk (rd : step A) old inp : scan mk rd old inp
  = Res (old ++ val (scan mk rd [] inp)) (cnt (scan mk rd [] inp)) (fail (scan mk rd [] inp)) (rest (scan mk rd [] inp)).
Proof. unfold scan. apply scan_loop_acc. Qed.

Lemma pushing_same {A} (f : step (list A)) g grow z : pushing g grow z (f []) ->
  (forall old inp, f old inp = Res (old ++ val (f [] inp)) (cnt (f [] inp)) (fail (f [] inp)) (rest (f [] inp))) ->
  same_list f g.
Proof.
  intros H F st inp P. cbn zeta. rewrite H, F. cbn [val cnt fail rest].
  rewrite pushes_holds by exact P. split; [reflexivity|]. apply pushes_proper, P.
Qed.

Lemma forget_same {A} (f : step (list A)) g grow z : pushing g grow z (f []) ->
  same_list (pre (fun _ => []) f) (pre forget g).
Proof.
  intros H st inp P. unfold pre. cbn zeta. rewrite H. cbn [val cnt fail rest].
  rewrite pushes_holds by apply forget_proper. split; [apply res_eta|]. apply pushes_proper, forget_proper.
Qed.

Lemma forget_keeps {A} (g : step (store A)) grow z new : pushing g grow z new -> keeps_all (pre forget g).
Proof.
  intros H st inp P k K. unfold pre. rewrite H. cbn [val].
  apply (pushes_no_room grow z _ (forget st)); [apply forget_proper|reflexivity|exact K].
Qed.

Lemma pushing_shorter {A} (g : step (store A)) grow z new : pushing g grow z new -> keeps_shorter g.
Proof. intros H st inp k P K E. rewrite H. cbn [val]. now apply pushes_before. Qed.

Lemma pushes_behind {A} grow z (l : list A) s k : proper (cells s) (var s) -> proper (cells s) k ->
  arr k = arr (var s) -> off k = off (var s) -> len (var s) <= len k <= cap (var s) ->
  view (cells (pushes grow z l s)) k = written_behind (len (var s)) l (view (cells s) k).
Proof.
  intros P K E O [L1 L2]. apply nth_error_ext. intro i. rewrite pushes_view by assumption.
  assert (LK : length (view (cells s) k) = len k) by now apply view_length.
  unfold written_behind, overwritten, region. rewrite E, O, Nat.eqb_refl. cbn [andb].
  assert (LF : length (firstn (len (var s)) (view (cells s) k)) = len (var s)) by (rewrite firstn_length; lia).
  destruct (Nat.ltb_spec i (len (var s))).
  - rewrite nth_error_app1 by lia. rewrite nth_error_firstn.
    replace (i <? len (var s)) with true by (symmetry; apply Nat.ltb_lt; lia).
    replace (off (var s) + len (var s) <=? off (var s) + i) with false by (symmetry; apply Nat.leb_gt; lia).
    cbn [andb]. now rewrite andb_false_r.
  - rewrite nth_error_app2 by lia. rewrite LF.
    replace (off (var s) + len (var s) <=? off (var s) + i) with true by (symmetry; apply Nat.leb_le; lia). cbn [andb].
    rewrite skipn_length, LK.
    destruct (Nat.ltb_spec i (len k)) as [Hk|Hk]; cbn [andb].
    + destruct (Nat.ltb_spec (off (var s) + i) (off (var s) + Nat.min (cap (var s)) (len (var s) + length l))) as [Hl|Hl].
      * rewrite nth_error_app1 by (rewrite firstn_length; lia). rewrite nth_error_firstn.
        replace (i - len (var s) <? len k - len (var s)) with true by (symmetry; apply Nat.ltb_lt; lia).
        f_equal. lia.
      * rewrite nth_error_app2 by (rewrite firstn_length; lia). rewrite firstn_length, !nth_error_skipn. f_equal. lia.
    + symmetry. rewrite (proj2 (nth_error_None _ _)); [symmetry; apply nth_error_None; lia|].
      rewrite app_length, firstn_length, !skipn_length. lia.
Qed.

Lemma pushing_behind {A} (g : step (store A)) grow z new : pushing g grow z new -> writes_behind g (fun inp => val (new inp)).
Proof. intros H st inp k P K E O L. rewrite H. cbn [val]. now apply pushes_behind. Qed.

(** Value receivers. *)
Lemma by_value_same {A} (f : step (list A)) g grow z : pushing g grow z (f []) ->
  (forall old inp, f old inp = Res (old ++ val (f [] inp)) (cnt (f [] inp)) (fail (f [] inp)) (rest (f [] inp))) ->
  same_list (lost f) (by_value g).
Proof.
  intros H F st inp P. unfold by_value, lost. cbn zeta. rewrite H, F. cbn [val cnt fail rest].
  assert (V : view (cells (pushes grow z (val (f [] inp)) st)) (var st) = holds st) by (apply pushes_before; auto).
  split; [unfold holds at 2; cbn [cells var]; now rewrite V|]. cbn [cells var].
  destruct P as [P1 P2]. split; [exact P1|]. destruct P2 as [P2|[P2 P3]]; [left; exact P2|right].
  clear V. revert P2 P3. generalize (val (f [] inp)). intros l. revert st P1.
  assert (G : forall l (s : store A), proper (cells s) (var s) -> forall a, a < length (cells s) ->
            a < length (cells (pushes grow z l s)) /\ length (nth a (cells (pushes grow z l s)) []) = length (nth a (cells s) [])).
  { induction l0 as [|x l0 IH]; intros s Q a Ha; [cbn; auto|].
    change (pushes grow z (x :: l0) s) with (pushes grow z l0 (push grow z x s)).
    pose proof (push_length grow z x s) as PL.
    destruct (IH (push grow z x s) (push_proper _ _ _ _ Q) a) as [I1 I2]; [lia|]. split; [exact I1|]. rewrite I2.
    destruct Q as [Q1 Q2].
    unfold push, append. destruct (Nat.ltb_spec (len (var s)) (cap (var s))); cbn [cells].
    - rewrite nth_set by lia. destruct (Nat.eqb_spec a (arr (var s))); [subst; apply set_cell_length|reflexivity].
    - rewrite app_nth1 by lia. reflexivity. }
  intros st P1 P2 P3. destruct (G l st (conj P1 (or_intror (conj P2 P3))) _ P2) as [G1 G2].
  split; [exact G1|]. rewrite G2. exact P3.
Qed.

Lemma by_value_shorter {A} (g : step (store A)) : keeps_shorter g -> keeps_shorter (by_value g).
Proof. intros H st inp k P K E. unfold by_value. cbn [val cells]. now apply H. Qed.

Lemma by_value_behind {A} (g : step (store A)) new : writes_behind g new -> writes_behind (by_value g) new.
Proof. intros H st inp k P K E O L. unfold by_value. cbn [val cells]. now apply H. Qed.

(** Appends whose result is dropped. *)
Definition drops {A} grow z (l : list A) (s : store A) : store A := fold_left (fun s x => push_dropped grow z x s) l s.

Lemma drop_cell {A} grow z (x : A) s a i : proper (cells s) (var s) -> a < length (cells s) ->
  cell (cells (push_dropped grow z x s)) a i = if region s 1 a i then Some x else cell (cells s) a i.
Proof.
  intros P Ha. rewrite <- (push_cell grow z x s a i P Ha). unfold push_dropped, push. now destruct (append _ _ _ _ _).
Qed.

Lemma drop_proper {A} grow z (x : A) s k : proper (cells s) (var s) -> proper (cells s) k -> proper (cells (push_dropped grow z x s)) k.
Proof.
  intros [P1 P2] [K1 K2]. split; [exact K1|]. destruct K2 as [K2|[K2 K3]]; [left; exact K2|right].
  unfold push_dropped, append. destruct (Nat.ltb_spec (len (var s)) (cap (var s))); cbn [fst cells].
  - rewrite set_cell_length, nth_set by lia. split; [exact K2|].
    destruct (Nat.eqb_spec (arr k) (arr (var s))) as [E|]; [rewrite set_cell_length, <- E; exact K3|exact K3].
  - rewrite app_length, app_nth1 by lia. split; [lia|exact K3].
Qed.

Lemma drop_length {A} grow z (x : A) s : length (cells s) <= length (cells (push_dropped grow z x s)).
Proof.
  unfold push_dropped, append. destruct (_ <? _); cbn [fst cells]; [now rewrite set_cell_length | rewrite app_length; lia].
Qed.

Lemma drops_var {A} grow z (l : list A) s : var (drops grow z l s) = var s.
Proof. revert s. induction l as [|x l IH]; intro s; [reflexivity|]. cbn. change (fold_left _ l _) with (drops grow z l (push_dropped grow z x s)). now rewrite IH. Qed.

Lemma drops_proper {A} grow z (l : list A) s k : proper (cells s) (var s) -> proper (cells s) k -> proper (cells (drops grow z l s)) k.
Proof.
  revert s. induction l as [|x l IH]; intros s P K; [exact K|].
  change (drops grow z (x :: l) s) with (drops grow z l (push_dropped grow z x s)).
  apply IH; [apply (drop_proper grow z x s (var s)); assumption|now apply drop_proper].
Qed.

Lemma drops_cell {A} grow z (l : list A) s a i : proper (cells s) (var s) -> a < length (cells s) ->
  cell (cells (drops grow z l s)) a i
  = if region s (length (last_only l)) a i then nth_error (last_only l) (i - (off (var s) + len (var s))) else cell (cells s) a i.
Proof.
  revert s. induction l as [|x l IH]; intros s P Ha.
  - cbn. unfold region. replace (_ && _) with false; [reflexivity|]. symmetry. rewrite Nat.add_0_r.
    destruct (a =? _); [|reflexivity]. cbn [andb]. destruct (Nat.leb_spec (off (var s) + len (var s)) i); [|reflexivity].
    apply Nat.ltb_ge. lia.
  - change (drops grow z (x :: l) s) with (drops grow z l (push_dropped grow z x s)).
    pose proof (drop_length grow z x s). rewrite IH; [|apply (drop_proper grow z x s (var s)); assumption|lia].
    rewrite drop_cell by assumption.
    replace (region (push_dropped grow z x s)) with (region s) by reflexivity.
    replace (var (push_dropped grow z x s)) with (var s) by reflexivity.
    destruct l as [|y l].
    + cbn [last_only length skipn Nat.sub]. unfold region. rewrite Nat.add_0_r.
      destruct (a =? arr (var s)); [|reflexivity]. cbn [andb].
      destruct (Nat.leb_spec (off (var s) + len (var s)) i); [|reflexivity]. cbn [andb].
      replace (i <? off (var s) + Nat.min (cap (var s)) (len (var s))) with false by (symmetry; apply Nat.ltb_ge; lia).
      destruct (Nat.ltb_spec i (off (var s) + Nat.min (cap (var s)) (len (var s) + 1))); [|reflexivity].
      replace (i - (off (var s) + len (var s))) with 0 by lia. reflexivity.
    + replace (last_only (x :: y :: l)) with (last_only (y :: l)).
      2:{ unfold last_only. cbn [length Nat.sub]. rewrite Nat.sub_0_r. reflexivity. }
      assert (L : length (last_only (y :: l)) = 1) by (unfold last_only; rewrite skipn_length; cbn [length]; lia).
      rewrite L. destruct (region s 1 a i); reflexivity.
Qed.

Lemma drops_view {A} grow z (l : list A) s k : proper (cells s) (var s) -> proper (cells s) k ->
  view (cells (drops grow z l s)) k = view (cells (pushes grow z (last_only l) s)) k.
Proof.
  intros P K. apply nth_error_ext. intro i. rewrite !view_at. destruct (Nat.ltb_spec i (len k)); [|reflexivity].
  assert (arr k < length (cells s)) by (eapply proper_array; eassumption).
  rewrite drops_cell, pushes_cell by assumption. reflexivity.
Qed.

Definition dropping {A} (g : step (store A)) grow z (new : bytes -> res (list A)) : Prop := forall st inp,
  g st inp = Res (drops grow z (val (new inp)) st) (cnt (new inp)) (fail (new inp)) (rest (new inp)).

Lemma readfunc_dropping {A} grow z (zero : A) rd :
  dropping (readfunc zero rd (push_dropped grow z)) grow z (readfunc zero rd (fun a l => l ++ [a]) []).
Proof. intros st inp. unfold readfunc. rewrite readfunc_fold. reflexivity. Qed.

Lemma dropping_same {A} (zero : A) rd grow z :
  same_list (readslice zero rd) (readfunc zero rd (push_dropped grow z)).
Proof.
  intros st inp P. cbn zeta. rewrite (readfunc_dropping grow z zero rd st inp). cbn [val cnt fail rest]. split.
  - unfold readslice, readfunc. rewrite readfunc_fold. cbn zeta. f_equal.
    transitivity (holds st).
    { generalize (val (readfunc_loop (S (length inp)) zero rd (fun a l => l ++ [a]) [] inp)). intro l. induction l; [reflexivity|exact IHl]. }
    unfold holds at 2. rewrite drops_var, drops_view by assumption. symmetry. apply pushes_before; auto.
  - rewrite drops_var. now apply drops_proper.
Qed.

Lemma dropping_shorter {A} (zero : A) rd grow z : keeps_shorter (readfunc zero rd (push_dropped grow z)).
Proof.
  intros st inp k P K E. rewrite (readfunc_dropping grow z zero rd st inp). cbn [val].
  rewrite drops_view by assumption. now apply pushes_before.
Qed.

Lemma dropping_behind {A} (zero : A) rd grow z :
  writes_behind (readfunc zero rd (push_dropped grow z))
    (fun inp => last_only (val (readfunc zero rd (fun a l => l ++ [a]) [] inp))).
Proof.
  intros st inp k P K E O L. rewrite (readfunc_dropping grow z zero rd st inp). cbn [val].
  rewrite drops_view by assumption. now apply pushes_behind.
Qed.
