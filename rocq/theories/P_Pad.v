(** C113: goroutines that read and write messages at the same time do not
    influence each other, although all readers store padding in the same
    unprotected variables. *)
From Verif Require Import FixedModel WireSpec FixedSpec PadModel PadSpec.

Definition clean_op (o : wop) : Prop := match o with WShared _ => False | _ => True end.
Definition clean (t : routine) : Prop := match t with Writing ops _ => Forall clean_op ops | _ => True end.

(** The goroutine alone. *)
Definition solo (t : routine) : routine := snd (rmove (fun _ => []) t).

Lemma solo_eq p t : clean t -> snd (rmove p t) = solo t.
Proof.
  unfold solo. destruct t as [[|[k|k] ops] inp kept|k i b ops inp kept|e l kept|[|[b|k|k] ops] out]; cbn [rmove]; intro C;
    try reflexivity.
  - destruct (_ <? _); reflexivity.
  - destruct (_ <? _); reflexivity.
  - destruct (nth_error b i); reflexivity.
  - cbn [clean] in C. inversion C as [|? ? H]. destruct H.
Qed.

Lemma solo_clean t : clean t -> clean (solo t).
Proof.
  unfold solo. destruct t as [[|[k|k] ops] inp kept|k i b ops inp kept|e l kept|[|[b|k|k] ops] out]; cbn [rmove clean]; intro C;
    try exact I; try assumption.
  - destruct (_ <? _); exact I.
  - destruct (_ <? _); exact I.
  - destruct (nth_error b i); exact I.
  - inversion C; assumption.
  - inversion C; assumption.
  - inversion C; assumption.
Qed.

Fixpoint goes (n : nat) (t : routine) : routine := match n with O => t | S n' => goes n' (solo t) end.

Lemma goes_add a b t : goes (a + b) t = goes b (goes a t).
Proof. revert t. induction a; intro t; cbn; auto. Qed.

Lemma alone i sch : forall w, clean (wthreads w i) -> wthreads (wrun sch w) i = goes (turns i sch) (wthreads w i).
Proof.
  induction sch as [|j sch IH]; intros w C; [reflexivity|].
  unfold wrun in *. cbn [fold_left]. unfold turns in *. cbn [count_occ].
  assert (M : wthreads (wmove w j) i = if Nat.eq_dec j i then solo (wthreads w i) else wthreads w i).
  { unfold wmove. destruct (rmove (wpads w) (wthreads w j)) as [p t] eqn:E. cbn [wthreads].
    destruct (Nat.eq_dec j i) as [->|N].
    - rewrite Nat.eqb_refl. rewrite <- (solo_eq (wpads w)) by exact C. rewrite E. reflexivity.
    - destruct (Nat.eqb_spec i j); [congruence|reflexivity]. }
  rewrite IH.
  - rewrite M. destruct (Nat.eq_dec j i); reflexivity.
  - rewrite M. destruct (Nat.eq_dec j i); [apply solo_clean|]; exact C.
Qed.

Lemma stores k b ops inp kept : forall n i, i + n = length b ->
  goes (n + 1) (Storing k i b ops inp kept) = Reading ops inp kept.
Proof.
  induction n as [|n IH]; intros i L; cbn [Nat.add goes]; unfold solo at 1; cbn [rmove].
  - rewrite (proj2 (nth_error_None b i)) by lia. reflexivity.
  - destruct (nth_error b i) eqn:E; [cbn [snd]; apply IH; lia|]. apply nth_error_None in E. lia.
Qed.

Definition over (t : routine) : Prop :=
  match t with Reading [] _ _ | Stopped _ _ _ | Writing [] _ => True | _ => False end.
Lemma over_goes n t : over t -> goes n t = t.
Proof.
  intro O. induction n as [|n IH]; [reflexivity|]. cbn [goes].
  replace (solo t) with t; [exact IH|]. destruct t as [[|]| | |[|]]; try contradiction; reflexivity.
Qed.

Lemma assigned_nil {S} (fs : list (fld S)) s : assigned fs [] s = s.
Proof. induction fs as [|[]]; cbn; auto. Qed.

Lemma reads_alone {S} (fs : list (fld S)) : forall n inp kept old,
  enough (map rop_of fs) <= n ->
  exists kept', let r := seqr (map fld_step fs) old inp in
  val r = assigned fs kept' old /\
  match fail r with
  | None => goes n (Reading (map rop_of fs) inp kept) = Reading [] (rest r) (kept ++ kept')
  | Some e => goes n (Reading (map rop_of fs) inp kept) = Stopped e (rest r) (kept ++ kept')
  end.
Proof.
  induction fs as [|f fs IH]; intros n inp kept old E.
  { exists []. cbn. split; [reflexivity|]. rewrite app_nil_r. apply over_goes. exact I. }
  unfold enough in E. cbn [map] in E. change (list_sum (?a :: ?l)) with (a + list_sum l) in E.
  fold (enough (map rop_of fs)) in E.
  destruct f as [k set|k]; cbn [rop_of] in E; cbn [map rop_of fld_step seqr].
  - destruct n as [|n]; [lia|]. cbn [goes]. unfold solo at 1 2. cbn [rmove].
    destruct (length inp <? k) eqn:L.
    + assert (F : fu k set old inp = Res old (length inp) (Some (match inp with [] => EOF | _ => UnexpectedEOF end)) [])
        by (unfold fu, take_full; rewrite L; reflexivity).
      rewrite F. exists []. cbn [fail val snd rest assigned]. split; [reflexivity|].
      rewrite app_nil_r. apply over_goes. exact I.
    + assert (F : fu k set old inp = Res (set (be_dec (firstn k inp)) old) k None (skipn k inp))
        by (unfold fu, take_full; rewrite L; reflexivity).
      rewrite F. cbn [fail val cnt rest snd].
      destruct (IH n (skipn k inp) (kept ++ [firstn k inp]) (set (be_dec (firstn k inp)) old) ltac:(lia)) as (kept' & V & G).
      cbv zeta in V, G. exists (firstn k inp :: kept'). cbn [assigned]. split; [exact V|].
      rewrite <- app_assoc in G. exact G.
  - destruct n as [|n]; [lia|]. cbn [goes]. unfold solo at 1 2. cbn [rmove].
    destruct (length inp <? k) eqn:L.
    + assert (F : @fpad S k old inp = Res old (length inp) (Some (match inp with [] => EOF | _ => UnexpectedEOF end)) [])
        by (unfold fpad, take_full; rewrite L; reflexivity).
      rewrite F. exists []. cbn [fail val snd rest assigned]. split.
      * symmetry. apply assigned_nil.
      * rewrite app_nil_r. apply over_goes. exact I.
    + assert (F : @fpad S k old inp = Res old k None (skipn k inp))
        by (unfold fpad, take_full; rewrite L; reflexivity).
      rewrite F. cbn [fail val cnt rest snd]. apply Nat.ltb_ge in L.
      replace n with ((k + 1) + (n - (k + 1))) by lia. rewrite goes_add.
      rewrite (stores k _ _ _ _ k 0) by (cbn; rewrite firstn_length; lia).
      destruct (IH (n - (k + 1)) (skipn k inp) kept old ltac:(lia)) as (kept' & V & G).
      cbv zeta in V, G. exists kept'. cbn [assigned]. split; [exact V|exact G].
Qed.

Lemma dec_fields k old inp : shares_padding k = true -> dec k old inp = seqr (map fld_step (fields_of k)) old inp.
Proof. destruct k; intro H; try discriminate H; reflexivity. Qed.

(** C113: whoever else reads or writes, and in whatever order the goroutines
    store bytes in the shared variables, a goroutine that reads a message gets
    the value, the error and the unread bytes it gets alone. *)
Theorem C113_reader : forall k inp (old : msg k) w sch i, shares_padding k = true ->
  wthreads w i = Reading (map rop_of (fields_of k)) inp [] ->
  enough (map rop_of (fields_of k)) <= turns i sch ->
  read_as (fields_of k) old (dec k old inp) (wthreads (wrun sch w) i).
Proof.
  intros k inp old w sch i K W E. rewrite alone by (rewrite W; exact I). rewrite W, dec_fields by exact K.
  destruct (reads_alone (fields_of k) (turns i sch) inp [] old E) as (kept & V & G). cbv zeta in *. cbn [app] in G.
  destruct (fail (seqr (map fld_step (fields_of k)) old inp)) as [e|] eqn:F; rewrite G; cbn [read_as]; auto.
Qed.
Print Assumptions C113_reader.

Lemma writes_alone ops : Forall clean_op ops -> forall n out, length ops <= n ->
  goes n (Writing ops out) = Writing [] (out ++ concat (map own_bytes ops)).
Proof.
  induction 1 as [|o ops C _ IH]; intros n out L.
  - cbn [map concat]. rewrite app_nil_r. apply over_goes. exact I.
  - destruct n as [|n]; [cbn in L; lia|]. cbn [goes]. unfold solo. cbn [length] in L.
    destruct o; [| |destruct C]; cbn [rmove snd map concat own_bytes]; rewrite IH by lia; rewrite <- app_assoc; reflexivity.
Qed.

Lemma writes_clean k m : Forall clean_op (writes_of k m).
Proof. destruct k; repeat constructor. Qed.

Lemma writes_enc k m : shares_padding k = true -> concat (map own_bytes (writes_of k m)) = enc k m.
Proof. destruct k; intro H; try discriminate H; reflexivity. Qed.

(** C113: a goroutine that writes a message sends its encoding, padding being
    zero whatever padding others have received or are receiving. *)
Theorem C113_writer : forall k (m : msg k) w sch i, shares_padding k = true ->
  wthreads w i = Writing (writes_of k m) [] -> length (writes_of k m) <= turns i sch ->
  wthreads (wrun sch w) i = Writing [] (enc k m).
Proof.
  intros k m w sch i K W E. rewrite alone by (rewrite W; apply writes_clean).
  rewrite W, writes_alone by (apply writes_clean || exact E). rewrite writes_enc by exact K. reflexivity.
Qed.
Print Assumptions C113_writer.

(** Two role requests are read, with padding 0xaa and 0xbb, and a third message
    is written, turn and turn about. *)
Definition busy : world :=
  World (fun k => zeros k) (fun i => match i with
    | 0 => Reading (map rop_of (fields_of KRoleRequest)) [x00; x00; x00; x02; xaa; xaa; xaa; xaa; x00; x00; x00; x00; x00; x00; x00; x07] []
    | 1 => Reading (map rop_of (fields_of KRoleRequest)) [x00; x00; x00; x03; xbb; xbb; xbb; xbb; x00; x00; x00; x00; x00; x00; x00; x09] []
    | _ => Writing (writes_of KRoleRequest (MkRoleRequest 1 5)) []
    end).
(** The first two bytes of padding are stored by goroutine 0 last, the others
    by goroutine 1. *)
Definition tangle : list nat := [0; 0; 1; 1; 1; 1; 0; 0; 0; 0; 1; 1; 1; 1; 0; 0; 2; 2; 2].

Example C113_ex :
  enough (map rop_of (fields_of KRoleRequest)) <= turns 0 tangle
  /\ enough (map rop_of (fields_of KRoleRequest)) <= turns 1 tangle
  /\ wthreads (wrun tangle busy) 0 = Reading [] [] [[x00; x00; x00; x02]; [x00; x00; x00; x00; x00; x00; x00; x07]]
  /\ wthreads (wrun tangle busy) 1 = Reading [] [] [[x00; x00; x00; x03]; [x00; x00; x00; x00; x00; x00; x00; x09]]
  /\ wthreads (wrun tangle busy) 2 = Writing [] [x00; x00; x00; x01; x00; x00; x00; x00; x00; x00; x00; x00; x00; x00; x00; x05].
Proof. vm_compute. repeat split; lia. Qed.

(** C113: the variables are not protected: when both readers are through,
    defaultPad4 holds neither the one padding nor the other. *)
Theorem C113_padding_intact_refuted : exists w sch a b,
  (exists inp, wthreads w 0 = Reading (map rop_of (fields_of KRoleRequest)) inp [] /\ firstn 4 (skipn 4 inp) = a)
  /\ (exists inp, wthreads w 1 = Reading (map rop_of (fields_of KRoleRequest)) inp [] /\ firstn 4 (skipn 4 inp) = b)
  /\ enough (map rop_of (fields_of KRoleRequest)) <= turns 0 sch
  /\ enough (map rop_of (fields_of KRoleRequest)) <= turns 1 sch
  /\ wpads (wrun sch w) 4 <> a /\ wpads (wrun sch w) 4 <> b.
Proof.
  exists busy, tangle, [xaa; xaa; xaa; xaa], [xbb; xbb; xbb; xbb].
  split; [eexists; split; reflexivity|]. split; [eexists; split; reflexivity|].
  split; [vm_compute; lia|]. split; [vm_compute; lia|]. split; vm_compute; discriminate.
Qed.
Print Assumptions C113_padding_intact_refuted.

(** A writer that sent the shared variable would send what others received. *)
Example C113_shared_leaks_ex :
  wthreads (wrun tangle (World (wpads busy)
    (fun i => if i =? 2 then Writing [WVal [x01]; WShared 4] [] else wthreads busy i))) 2
  <> Writing [] [x01; x00; x00; x00; x00].
Proof. vm_compute. discriminate. Qed.

(** C113: the messages meant are those that OpenFlow 1.3 gives padding and numbers
    only, but for the table modification. *)
Theorem C113_kinds : forall k (m : msg k), shares_padding k = true <->
  k <> KTableMod /\ existsb (fun oi => match snd oi with Zero _ => true | _ => false end) (layout k m) = true
  /\ forallb (fun oi => match snd oi with Zero _ | Num _ _ => true | _ => false end) (layout k m) = true.
Proof. intros k m. destruct k; cbn; (split; [intro H; try discriminate H; repeat split; discriminate|intros (A & B & C); try reflexivity; try discriminate; congruence]). Qed.
Print Assumptions C113_kinds.

Example C113_kinds_ex : shares_padding KRoleRequest = true /\ shares_padding KPort = false /\ shares_padding KHeader = false.
Proof. repeat split. Qed.
