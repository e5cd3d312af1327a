(** Theorems on replies written with one Header value: C99. *)
From Coq Require Import Lia.
From Verif Require Import SharedModel RequestSpec RequestFacts.

Definition sizeN (w : writer) : N := uwrap 2 (8 + uwrap 2 (lenN (wr_payload w))).

(** The version that stays in the header: the first that is not zero. *)
Fixpoint first_version (v : N) (ws : list writer) : N :=
  if (v =? 0)%N then match ws with [] => 0%N | w :: ws' => first_version (wr_version w) ws' end else v.

(** C99: used again and again, one reply after another, a header keeps the
    version of the first request; lengths and payloads are right. *)
Theorem C99_in_a_row : forall ws h, Forall (fun w => (lenN (wr_payload w) <= 65527)%N) ws ->
  length (in_a_row h ws) = length ws /\
  forall k w, nth_error ws k = Some w -> exists f, nth_error (in_a_row h ws) k = Some f /\
    is_frame f (first_version (Header_Version h) (firstn (S k) ws)) (Header_Type h) (Header_Transaction h) (wr_payload w).
Proof.
  induction ws as [|w ws IH]; intros h F; [split; [reflexivity|]; intros [|k]; discriminate|].
  inversion F as [|? ? L F']; subst. cbn [in_a_row]. unfold response_bytes. cbn [copy_write pbytes perr].
  set (h1 := if (Header_Version h =? 0)%N then set_Header_Version (wr_version w) h else h).
  assert (T : Header_Type h1 = Header_Type h) by (unfold h1; destruct (_ =? _)%N; reflexivity).
  assert (X : Header_Transaction h1 = Header_Transaction h) by (unfold h1; destruct (_ =? _)%N; reflexivity).
  assert (V : Header_Version h1 = if (Header_Version h =? 0)%N then wr_version w else Header_Version h)
    by (unfold h1; destruct (_ =? _)%N; reflexivity).
  set (h2 := set_Header_Length _ h1). destruct (IH h2 F') as [IL IK]. split; [cbn [app length]; now rewrite IL|].
  intros [|k] w' E; cbn [nth_error app] in *.
  - injection E as <-. eexists. split; [reflexivity|]. cbn [firstn first_version].
    replace (if (Header_Version h =? 0)%N then if (wr_version w =? 0)%N then 0%N else wr_version w else Header_Version h)
      with (Header_Version h1).
    2: { rewrite V. destruct (Header_Version h =? 0)%N; [|reflexivity]. destruct (N.eqb_spec (wr_version w) 0); congruence. }
    rewrite <- T, <- X. apply frame_eq. subst h2. unfold set_Header_Length. rewrite uwrap_len by exact L. reflexivity.
  - destruct (IK k w' E) as (f & E1 & E2). exists f. split; [exact E1|].
    change (Header_Type h2) with (Header_Type h1) in E2. change (Header_Transaction h2) with (Header_Transaction h1) in E2.
    change (Header_Version h2) with (Header_Version h1) in E2. rewrite T, X, V in E2.
    replace (first_version (Header_Version h) (firstn (S (S k)) (w :: ws)))
      with (first_version (if (Header_Version h =? 0)%N then wr_version w else Header_Version h) (firstn (S k) ws)); [exact E2|].
    change (firstn (S (S k)) (w :: ws)) with (w :: firstn (S k) ws). destruct ws as [|w2 ws2]; [destruct k; discriminate|].
    cbn [firstn first_version]. destruct (Header_Version h =? 0)%N eqn:Z; [reflexivity|]. now rewrite Z.
Qed.
Print Assumptions C99_in_a_row.

(** So a header without version that has been used for a reply answers later
    requests of other versions with the first one's. *)
Theorem C99_version_kept : forall h w ws k w', Forall (fun w => (lenN (wr_payload w) <= 65527)%N) (w :: ws) ->
  Header_Version h = 0%N -> wr_version w <> 0%N -> nth_error (w :: ws) k = Some w' ->
  exists f, nth_error (in_a_row h (w :: ws)) k = Some f /\
    is_frame f (wr_version w) (Header_Type h) (Header_Transaction h) (wr_payload w').
Proof.
  intros h w ws k w' F Z NZ E. destruct (proj2 (C99_in_a_row (w :: ws) h F) k w' E) as (f & E1 & E2).
  exists f. split; [exact E1|]. rewrite Z in E2. cbn [firstn first_version] in E2. rewrite N.eqb_refl in E2.
  destruct (firstn k ws) in E2; cbn [first_version] in E2; apply N.eqb_neq in NZ; rewrite NZ in E2; exact E2.
Qed.
Print Assumptions C99_version_kept.

(** What every access preserves: type and transaction of the header; its version
    is the given one, or one of the requests' if that is zero; its length is
    that of one of the replies once one has been set; buffered and sent messages
    are made of these. *)
Definition version_ok (h : Header) (ws : list writer) (v : N) : Prop :=
  if (Header_Version h =? 0)%N then exists j, j < length ws /\ v = wr_version (nth j ws no_writer) else v = Header_Version h.
Definition made (h : Header) (ws : list writer) (i : nat) (f : bytes) : Prop :=
  i < length ws /\ exists v j, version_ok h ws v /\ j < length ws /\
    f = enc_Header (MkHeader v (Header_Type h) (sizeN (nth j ws no_writer)) (Header_Transaction h)) ++ wr_payload (nth i ws no_writer).

Record kept (h : Header) (ws : list writer) (s : shared) : Prop := {
  k_len : length (sh_stages s) = length ws;
  k_type : Header_Type (sh_header s) = Header_Type h;
  k_tran : Header_Transaction (sh_header s) = Header_Transaction h;
  k_zero : Header_Version h <> 0%N -> Header_Version (sh_header s) = Header_Version h /\ (forall i, nth i (sh_stages s) Sent <> Unset);
  k_version : (exists i, i < length ws /\ (nth i (sh_stages s) Sent = Versioned \/ nth i (sh_stages s) Sent = Sized)) ->
              version_ok h ws (Header_Version (sh_header s));
  k_any : Header_Version (sh_header s) <> 0%N -> version_ok h ws (Header_Version (sh_header s));
  k_length : (exists i, i < length ws /\ nth i (sh_stages s) Sent = Sized) ->
             exists j, j < length ws /\ Header_Length (sh_header s) = sizeN (nth j ws no_writer);
  k_filled : forall i f, i < length ws -> nth i (sh_stages s) Sent = Filled f -> made h ws i f;
  k_sent : forall i f, In (i, f) (sh_out s) -> made h ws i f }.

Lemma set_nth_length {A} i (x : A) l : length (set_nth i x l) = length l.
Proof. revert i. induction l as [|y l IH]; intros [|i]; cbn; auto. Qed.

Lemma nth_set_nth {A} i j (x d : A) l : i < length l -> nth j (set_nth i x l) d = if j =? i then x else nth j l d.
Proof.
  revert i j. induction l as [|y l IH]; intros [|i] [|j] H; cbn in *; try lia; auto. apply IH. lia.
Qed.

Lemma nth_starts (ws : list writer) : forall i, nth i (map (fun _ => AtStart) ws) Sent = AtStart \/ nth i (map (fun _ => AtStart) ws) Sent = Sent.
Proof. induction ws as [|w ws IH]; intros [|i]; cbn; auto. Qed.

Lemma kept_share h ws : kept h ws (share h ws).
Proof.
  constructor; unfold share; cbn [sh_header sh_stages sh_out]; auto.
  - apply map_length.
  - intros Z. split; [reflexivity|]. intro i. destruct (nth_starts ws i) as [->| ->]; discriminate.
  - intros (i & _ & E). destruct (nth_starts ws i) as [W|W]; rewrite W in E; destruct E; discriminate.
  - intros Z. unfold version_ok. apply N.eqb_neq in Z. now rewrite Z.
  - intros (i & _ & E). destruct (nth_starts ws i) as [W|W]; rewrite W in E; discriminate.
  - intros i f _ E. destruct (nth_starts ws i) as [W|W]; rewrite W in E; discriminate.
  - intros i f [].
Qed.

Lemma kept_turn h ws i s : kept h ws s -> kept h ws (turn ws i s).
Proof.
  intros K. unfold turn. destruct (nth i (sh_stages s) Sent) as [| | | |f|] eqn:E.
  6: exact K.
  all: assert (Hi : i < length (sh_stages s)) by (destruct (Nat.lt_ge_cases i (length (sh_stages s))); [assumption|rewrite nth_overflow in E by assumption; discriminate]).
  all: assert (Hw : i < length ws) by (rewrite <- (k_len _ _ _ K); exact Hi).
  - (* test *)
    set (st := if (Header_Version (sh_header s) =? 0)%N then Unset else Versioned).
    constructor; cbn [sh_header sh_stages sh_out]; try apply K.
    + rewrite set_nth_length. apply K.
    + intro Z. destruct (k_zero _ _ _ K Z) as [A B]. split; [exact A|]. intro j. rewrite nth_set_nth by exact Hi.
      destruct (j =? i); [|apply B]. subst st. rewrite A. apply N.eqb_neq in Z. rewrite Z. discriminate.
    + intros (j & Hj & C). rewrite nth_set_nth in C by exact Hi. destruct (j =? i) eqn:J.
      * subst st. destruct (N.eqb_spec (Header_Version (sh_header s)) 0) as [Z|Z]; [destruct C; discriminate|]. now apply (k_any _ _ _ K).
      * apply (k_version _ _ _ K). exists j. auto.
    + intros (j & Hj & C). rewrite nth_set_nth in C by exact Hi. destruct (j =? i) eqn:J.
      * subst st. destruct (_ =? 0)%N; discriminate.
      * apply (k_length _ _ _ K). exists j. auto.
    + intros j f Hj C. rewrite nth_set_nth in C by exact Hi. destruct (j =? i); [subst st; destruct (_ =? 0)%N; discriminate|].
      eapply (k_filled _ _ _ K); eauto.
  - (* assignment *)
    assert (Z : Header_Version h = 0%N).
    { destruct (N.eq_dec (Header_Version h) 0) as [Z|Z]; [exact Z|]. destruct (k_zero _ _ _ K Z) as [_ B]. now apply B in E. }
    assert (W : version_ok h ws (wr_version (nth i ws no_writer))).
    { unfold version_ok. rewrite Z. cbn. exists i. auto. }
    constructor; cbn [sh_header sh_stages sh_out set_Header_Version Header_Type Header_Transaction Header_Version Header_Length]; try apply K.
    + rewrite set_nth_length. apply K.
    + intro Y. contradiction.
    + auto.
    + auto.
    + intros (j & Hj & C). rewrite nth_set_nth in C by exact Hi. destruct (j =? i) eqn:J; [discriminate|].
      apply (k_length _ _ _ K). exists j. auto.
    + intros j f Hj C. rewrite nth_set_nth in C by exact Hi. destruct (j =? i); [discriminate|].
      eapply (k_filled _ _ _ K); eauto.
  - (* length *)
    assert (V : version_ok h ws (Header_Version (sh_header s))) by (apply (k_version _ _ _ K); exists i; auto).
    constructor; cbn [sh_header sh_stages sh_out set_Header_Length Header_Type Header_Transaction Header_Version Header_Length]; try apply K.
    + rewrite set_nth_length. apply K.
    + intro Z. destruct (k_zero _ _ _ K Z) as [A B]. split; [exact A|]. intro j. rewrite nth_set_nth by exact Hi.
      destruct (j =? i); [discriminate|apply B].
    + auto.
    + intros _. exists i. auto.
    + intros j f Hj C. rewrite nth_set_nth in C by exact Hi. destruct (j =? i); [discriminate|].
      eapply (k_filled _ _ _ K); eauto.
  - (* copy *)
    assert (V : version_ok h ws (Header_Version (sh_header s))) by (apply (k_version _ _ _ K); exists i; auto).
    destruct (k_length _ _ _ K) as (j0 & J0 & EL); [exists i; auto|].
    constructor; cbn [sh_header sh_stages sh_out]; try apply K.
    + rewrite set_nth_length. apply K.
    + intro Z. destruct (k_zero _ _ _ K Z) as [A B]. split; [exact A|]. intro j. rewrite nth_set_nth by exact Hi.
      destruct (j =? i); [discriminate|apply B].
    + auto.
    + intros (j & Hj & C). exists j0. auto.
    + intros j f Hj C. rewrite nth_set_nth in C by exact Hi. destruct (Nat.eqb_spec j i) as [->|D]; [|eapply (k_filled _ _ _ K); eauto].
      injection C as <-. split; [exact Hw|]. exists (Header_Version (sh_header s)), j0. split; [exact V|]. split; [exact J0|].
      rewrite <- EL, <- (k_type _ _ _ K), <- (k_tran _ _ _ K). now destruct (sh_header s).
  - (* sending *)
    pose proof (k_filled _ _ _ K i f Hw E) as M.
    constructor; cbn [sh_header sh_stages sh_out]; try apply K.
    + rewrite set_nth_length. apply K.
    + intro Z. destruct (k_zero _ _ _ K Z) as [A B]. split; [exact A|]. intro j. rewrite nth_set_nth by exact Hi.
      destruct (j =? i); [discriminate|apply B].
    + intros (j & Hj & C). rewrite nth_set_nth in C by exact Hi. destruct (j =? i); [destruct C; discriminate|].
      apply (k_version _ _ _ K). exists j. auto.
    + intros (j & Hj & C). rewrite nth_set_nth in C by exact Hi. destruct (j =? i); [discriminate|].
      apply (k_length _ _ _ K). exists j. auto.
    + intros j g Hj C. rewrite nth_set_nth in C by exact Hi. destruct (j =? i); [discriminate|]. eapply (k_filled _ _ _ K); eauto.
    + intros j g H. apply in_app_or in H. destruct H as [H|[H|[]]]; [eapply (k_sent _ _ _ K); eauto|]. injection H as <- <-. exact M.
Qed.

Lemma kept_turns h ws l : forall s, kept h ws s -> kept h ws (turns ws l s).
Proof. unfold turns. induction l as [|i l IH]; intros s K; [exact K|]. cbn [fold_left]. apply IH, kept_turn, K. Qed.

(** Used by several handlers at a time, every message has the right type,
    transaction and payload, but version and length only are those of some of
    the replies. *)
Theorem C99_at_a_time : forall h ws l i f, In (i, f) (sh_out (turns ws l (share h ws))) ->
  i < length ws /\ exists v j, version_ok h ws v /\ j < length ws /\
    f = enc_Header (MkHeader v (Header_Type h) (sizeN (nth j ws no_writer)) (Header_Transaction h)) ++ wr_payload (nth i ws no_writer).
Proof. intros h ws l i f H. eapply (k_sent _ _ _ (kept_turns h ws l _ (kept_share h ws))); eauto. Qed.
Print Assumptions C99_at_a_time.

(** That is enough if the payloads are equally long, and the version is given or
    the same for all. *)
Theorem C99_equal_sizes : forall h ws l i f n v,
  (forall w, In w ws -> lenN (wr_payload w) = n) -> (n <= 65527)%N ->
  (if (Header_Version h =? 0)%N then forall w, In w ws -> wr_version w = v else v = Header_Version h) ->
  In (i, f) (sh_out (turns ws l (share h ws))) ->
  is_frame f v (Header_Type h) (Header_Transaction h) (wr_payload (nth i ws no_writer)).
Proof.
  intros h ws l i f n v L N V H. destruct (C99_at_a_time h ws l i f H) as (Hi & v' & j & HV & Hj & ->).
  assert (E : v' = v).
  { unfold version_ok in HV. destruct (Header_Version h =? 0)%N; [|congruence]. destruct HV as (k & Hk & ->). apply V, nth_In, Hk. }
  subst v'. apply frame_eq. unfold sizeN. rewrite (L _ (nth_In ws no_writer Hj)), <- (L _ (nth_In ws no_writer Hi)).
  rewrite uwrap_len; [reflexivity|]. rewrite (L _ (nth_In ws no_writer Hi)). exact N.
Qed.
Print Assumptions C99_equal_sizes.

(** Two replies of different sizes: one can go out with the length of the other. *)
Theorem C99_misframed : forall h w1 w2, Header_Version h <> 0%N ->
  exists l f, In (0, f) (sh_out (turns [w1; w2] l (share h [w1; w2]))) /\
    f = enc_Header (MkHeader (Header_Version h) (Header_Type h) (sizeN w2) (Header_Transaction h)) ++ wr_payload w1.
Proof.
  intros h w1 w2 Z. exists [0; 0; 1; 1; 0; 0]. eexists. split; [|reflexivity].
  assert (Z' : (Header_Version h =? 0)%N = false) by (now apply N.eqb_neq).
  unfold turns. cbn [fold_left].
  assert (E1 : turn [w1; w2] 0 (share h [w1; w2]) = MkShared h [Versioned; AtStart] []).
  { unfold turn, share. cbn [nth map sh_stages sh_header sh_out set_nth]. now rewrite Z'. }
  rewrite E1. set (h1 := set_Header_Length (sizeN w1) h).
  assert (E2 : turn [w1; w2] 0 (MkShared h [Versioned; AtStart] []) = MkShared h1 [Sized; AtStart] []) by reflexivity.
  rewrite E2.
  assert (E3 : turn [w1; w2] 1 (MkShared h1 [Sized; AtStart] []) = MkShared h1 [Sized; Versioned] []).
  { unfold turn. cbn [nth sh_stages sh_header sh_out set_nth]. change (Header_Version h1) with (Header_Version h). now rewrite Z'. }
  rewrite E3. set (h2 := set_Header_Length (sizeN w2) h1).
  assert (E4 : turn [w1; w2] 1 (MkShared h1 [Sized; Versioned] []) = MkShared h2 [Sized; Sized] []) by reflexivity.
  rewrite E4. unfold turn. cbn [nth sh_stages sh_header sh_out set_nth app]. left. reflexivity.
Qed.
Print Assumptions C99_misframed.

(** Then the peer takes the wrong number of bytes for the message. *)
Theorem C99_shared_refuted : exists h ws l i f, In (i, f) (sh_out (turns ws l (share h ws))) /\
  declared f <> lenN f /\ (forall w, In w ws -> (lenN (wr_payload w) <= 65527)%N).
Proof.
  set (h := MkHeader 4 3 0 7). set (w1 := MkWriter 4 [xaa; xbb; xcc]). set (w2 := MkWriter 4 []).
  destruct (C99_misframed h w1 w2) as (l & f & H & ->); [discriminate|].
  exists h, [w1; w2], l, 0. eexists. split; [exact H|]. split; [vm_compute; discriminate|].
  intros w [<-|[<-|[]]]; vm_compute; discriminate.
Qed.
Print Assumptions C99_shared_refuted.

Example C99_in_a_row_ex :
  in_a_row (MkHeader 0 3 0 7) [MkWriter 4 [xaa]; MkWriter 1 []] =
  [[x04; x03; x00; x09; x00; x00; x00; x07; xaa]; [x04; x03; x00; x08; x00; x00; x00; x07]].
Proof. reflexivity. Qed.

(** Both find no version, both set it; then both set the length. *)
Example C99_at_a_time_ex :
  let ws := [MkWriter 4 [xaa; xbb]; MkWriter 1 []] in
  sh_out (turns ws [0; 1; 0; 1; 0; 1; 0; 1; 0; 1] (share (MkHeader 0 3 0 7) ws)) =
  [(0, [x01; x03; x00; x08; x00; x00; x00; x07; xaa; xbb]); (1, [x01; x03; x00; x08; x00; x00; x00; x07])].
Proof. vm_compute. reflexivity. Qed.
