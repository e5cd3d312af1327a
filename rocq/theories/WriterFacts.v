(** Writing one after another, for every destination. *)
From Verif Require Export WriterSpec.

Definition runs (f : writing) (ps : list bytes) : Prop :=
  forall w h, obeys w -> exists cs, calls (f w h) = h ++ cs
    /\ count (f w h) = length (kept w h cs)
    /\ offered w h (filter filled ps) cs (error (f w h)).

Lemma kept_app : forall w cs h ds, kept w h (cs ++ ds) = kept w h cs ++ kept w (h ++ cs) ds.
Proof.
  intros w cs. induction cs as [|c cs IH]; intros h ds; cbn [kept app]; [rewrite app_nil_r; reflexivity|].
  rewrite IH, <- !app_assoc. reflexivity.
Qed.

Lemma smooth_app : forall w cs h ds, smooth w h (cs ++ ds) <-> smooth w h cs /\ smooth w (h ++ cs) ds.
Proof.
  intros w cs. induction cs as [|c cs IH]; intros h ds; cbn [smooth app]; [rewrite app_nil_r; tauto|].
  rewrite IH, <- app_assoc. cbn [app]. tauto.
Qed.

Lemma kept_smooth : forall w cs h, smooth w h cs -> kept w h cs = concat cs.
Proof.
  intros w cs. induction cs as [|c cs IH]; intros h H; [reflexivity|]. cbn [kept concat smooth] in *.
  destruct H as (A & B). rewrite A, (IH _ B). cbn [fst]. rewrite firstn_all. reflexivity.
Qed.

Lemma runs_once : forall b, runs (at_once b) [b].
Proof.
  intros b w h W. unfold at_once, write_elems, buffer_to. destruct b as [|x b'] eqn:E.
  { exists []. cbn. rewrite app_nil_r. auto. }
  rewrite <- E. specialize (W h b) as L. destruct (w h b) as [m e] eqn:R. cbn [fst] in L.
  destruct (Nat.ltb_spec (length b) m); [lia|].
  exists [b]. cbn [calls count error kept filter]. rewrite R. cbn [fst]. rewrite app_nil_r, firstn_length.
  replace (filled b) with true by (subst b; reflexivity).
  split; [reflexivity|]. split; [lia|].
  destruct e as [e|]; [|destruct (Nat.eqb_spec m (length b)) as [M|M]].
  - exists [], b, []. cbn. rewrite app_nil_r. unfold broke. rewrite R. auto.
  - cbn. rewrite R, M. auto.
  - exists [], b, []. cbn. rewrite app_nil_r. unfold broke. rewrite R. cbn. repeat split. right. repeat split. lia.
Qed.

Lemma runs_nil : runs (one_by_one []) [].
Proof. intros w h W. exists []. cbn. rewrite app_nil_r. auto. Qed.

Lemma runs_cons : forall f ps ws qs, runs f ps -> runs (one_by_one ws) qs -> runs (one_by_one (f :: ws)) (ps ++ qs).
Proof.
  intros f ps ws qs F G w h W. cbn [one_by_one]. destruct (F w h W) as (cs & C & N & O).
  rewrite filter_app.
  destruct (error (f w h)) as [e|] eqn:E.
  { exists cs. rewrite C, N. repeat split. rewrite E. destruct O as (a & c & t & P & Q & S & B).
    exists a, c, (t ++ filter filled qs). rewrite P, <- app_assoc. cbn. auto. }
  destruct O as (P & S). destruct (G w (calls (f w h)) W) as (ds & C' & N' & O'). rewrite C in C', N', O'.
  cbn [calls count error]. exists (cs ++ ds). rewrite C, C', app_assoc, N, N', kept_app, app_length.
  split; [reflexivity|]. split; [reflexivity|].
  unfold offered in *. destruct (error (one_by_one ws w (h ++ cs))) as [e|].
  - destruct O' as (a & c & t & P' & Q' & S' & B'). exists (cs ++ a), c, t.
    rewrite P', Q', <- P. split; [apply app_assoc|]. split; [apply app_assoc|].
    split; [rewrite smooth_app; auto|]. rewrite app_assoc. exact B'.
  - destruct O' as (P' & S'). rewrite P', P. split; [reflexivity|]. rewrite smooth_app, <- P, <- P'. auto.
Qed.

Lemma runs_map : forall (A : Type) (g : A -> bytes) l, runs (one_by_one (map (fun x => at_once (g x)) l)) (map g l).
Proof.
  intros A g l. induction l as [|x l IH]; [exact runs_nil|]. cbn [map].
  exact (runs_cons _ [g x] _ _ (runs_once _) IH).
Qed.

Lemma runs_eq : forall f ps qs, runs f ps -> ps = qs -> runs f qs.
Proof. intros f ps qs R <-. exact R. Qed.

Lemma pieces_GroupMod : forall m, firstn 8 (enc_GroupMod m)
  = concat [u16 (GroupMod_Command m); u8 (GroupMod_Type m); pad 1; u32 (GroupMod_Group m)].
Proof. intros m. reflexivity. Qed.

Lemma bare_length : forall l, length (bare l) = 4 * length l.
Proof. induction l as [|x l IH]; [reflexivity|]. change (bare (x :: l)) with ((u16 x ++ u16 4) ++ bare l). rewrite app_length, IH. cbn. lia. Qed.

Lemma pieces_xm : forall t l, let b := enc_prop_xm t l in
  firstn 4 b = prop_header t (uwrap 2 (N.of_nat (4 + 4 * length l)))
  /\ skipn (4 + length (concat (map enc_XM l))) b = pad (pad_len (4 + 4 * length l)).
Proof.
  intros t l. unfold enc_prop_xm. cbn [concat]. rewrite app_nil_r. split; [reflexivity|].
  rewrite app_assoc. rewrite skipn_app.
  rewrite skipn_all2 by (rewrite app_length; cbn; lia).
  rewrite app_length. change (length (prop_header t (uwrap 2 (N.of_nat (4 + 4 * length l))))) with 4. rewrite Nat.sub_diag. reflexivity.
Qed.

Lemma pieces_instructions : forall t l, let b := enc_prop_instructions t l in
  let len := uwrap 2 (N.of_nat (4 + 4 * length l)) in
  firstn (4 + 4 * length l) b = prop_header t len ++ bare l
  /\ skipn (4 + 4 * length l) b = pad (pad_len (N.to_nat len)).
Proof.
  intros t l b len. unfold b, enc_prop_instructions. cbn [concat]. rewrite app_nil_r. fold len.
  assert (L : length (prop_header t len ++ bare l) = 4 + 4 * length l) by (rewrite app_length, bare_length; reflexivity).
  rewrite app_assoc. rewrite <- L. rewrite firstn_app, firstn_all, Nat.sub_diag, app_nil_r.
  rewrite skipn_app, skipn_all, Nat.sub_diag. auto.
Qed.

Lemma runs_xm : forall t l, runs (write_prop_xm t l)
  (firstn 4 (enc_prop_xm t l) :: map enc_XM l ++ [skipn (4 + length (concat (map enc_XM l))) (enc_prop_xm t l)]).
Proof.
  intros t l. destruct (pieces_xm t l) as (A & B). rewrite A, B. unfold write_prop_xm.
  refine (runs_cons _ [_] _ _ (runs_once _) _). refine (runs_cons _ _ _ _ (runs_map _ _ _) _).
  exact (runs_cons _ [_] _ [] (runs_once _) runs_nil).
Qed.

Lemma runs_TableProp : forall p, runs (write_TableProp p) (parts (OTableProp p)).
Proof.
  destruct p; cbn [write_TableProp parts encoding_of]; try exact (runs_once _); try exact (runs_xm _ _).
  cbn [enc_TableProp]. destruct (pieces_instructions (prop_type (TInstructions miss l)) l) as (A & B). rewrite A, B.
  unfold write_prop_instructions. refine (runs_cons _ [_] _ _ (runs_once _) _).
  exact (runs_cons _ [_] _ [] (runs_once _) runs_nil).
Qed.

(** Every value, unless one of its elements fails. *)
Lemma runs_value : forall v b, encoding_of v = inl b -> runs (write_value v) (parts v).
Proof.
  intros v b E. destruct v; try (cbn [write_value encoding_of parts]; exact (runs_once _)).
  - cbn [write_value parts]. rewrite pieces_GroupMod. unfold write_GroupMod.
    refine (runs_cons _ [_] _ _ (runs_once _) _).
    refine (runs_eq _ _ _ (runs_cons _ _ _ _ (runs_map _ _ _) runs_nil) (app_nil_r _)).
  - exact (runs_map _ _ _).
  - cbn [write_value parts]. rewrite E. exact (runs_once _).
  - exact (runs_TableProp m).
Qed.

Lemma parts_concat : forall v b, encoding_of v = inl b -> concat (parts v) = b.
Proof.
  assert (X : forall t l, concat (firstn 4 (enc_prop_xm t l) :: map enc_XM l ++ [skipn (4 + length (concat (map enc_XM l))) (enc_prop_xm t l)]) = enc_prop_xm t l).
  { intros t l. destruct (pieces_xm t l) as (A & B). rewrite A, B. cbn [concat]. rewrite concat_app. cbn [concat]. reflexivity. }
  intros v b E. destruct v; try (cbn [encoding_of parts concat] in *; injection E as <-; rewrite app_nil_r; reflexivity).
  - injection E as <-. cbn [parts concat]. rewrite pieces_GroupMod. unfold enc_GroupMod. cbn [concat].
    rewrite !app_nil_r, <- !app_assoc. reflexivity.
  - injection E as <-. reflexivity.
  - cbn [parts]. rewrite E. cbn. apply app_nil_r.
  - injection E as <-. destruct m; cbn [parts encoding_of]; try exact (X _ _); try (cbn [concat]; rewrite app_nil_r; reflexivity).
    cbn [concat]. rewrite app_nil_r. apply firstn_skipn.
Qed.

Lemma concat_filled : forall ps, concat (filter filled ps) = concat ps.
Proof. induction ps as [|[|x c] ps IH]; cbn; rewrite ?IH; reflexivity. Qed.

Lemma offered_prefix : forall w ps cs e, obeys w -> offered w [] ps cs e ->
  exists t, concat ps = kept w [] cs ++ t /\ (e = None -> t = []).
Proof.
  intros w ps cs [e|] W O.
  - destruct O as (f & c & t & -> & -> & S & B). rewrite kept_app, (kept_smooth _ _ _ S). cbn [kept app].
    exists (skipn (fst (w f c)) c ++ concat t). rewrite concat_app. cbn [concat]. rewrite app_nil_r, <- !app_assoc.
    split; [|discriminate]. f_equal. rewrite app_assoc. f_equal. symmetry. apply firstn_skipn.
  - destruct O as (-> & S). exists []. rewrite (kept_smooth _ _ _ S), app_nil_r. auto.
Qed.
