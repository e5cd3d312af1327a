(** How the decoders use the length an element declares. *)
From Verif Require Export ListFacts StepFacts LowSpec.
Ltac Zify.zify_post_hook ::= Z.div_mod_to_equations.

Lemma rs_loop {A S T} (zero : A) (rd : step A) fuel (s : S) (t : T) inp :
  readfunc_loop fuel zero rd (fun _ s => s) s inp
  = let r := readfunc_loop fuel zero rd (fun _ t => t) t inp in Res s (cnt r) (fail r) (rest r).
Proof.
  revert inp. induction fuel as [|fuel IH]; intro inp; [reflexivity|]. cbn [readfunc_loop].
  destruct (fail (rd zero inp)); [reflexivity|]. rewrite IH. reflexivity.
Qed.

Lemma rs_eq {A S T} (zero : A) (rd : step A) (s : S) (t : T) inp :
  readslice zero rd s inp = let r := readslice zero rd t inp in Res s (cnt r) (fail r) (rest r).
Proof. unfold readslice, readfunc. apply rs_loop. Qed.

Lemma zn_nat n : Z.to_nat (Z.of_N n) = N.to_nat n.
Proof. lia. Qed.

(** Decoders that report EOF only when nothing is left, and decoders that leave
    nothing when they succeed. *)
Definition spent {S} (f : step S) : Prop := forall s inp, fail (f s inp) = Some EOF -> rest (f s inp) = [].
Definition drains {S} (f : step S) : Prop := forall s inp, fail (f s inp) = None -> rest (f s inp) = [].

Lemma spent_take {S} k (u : bytes -> S -> S) : spent (take_full k u).
Proof. intros s inp. unfold take_full. destruct (Nat.ltb_spec (length inp) k); [reflexivity|discriminate]. Qed.

Lemma spent_sub {S A} get set (rd : step A) : spent rd -> spent (@sub S A get set rd).
Proof. intros H s inp E. apply (H (get s) inp), E. Qed.

Lemma spent_seqr {S} (fs : list (step S)) : Forall spent fs -> spent (seqr fs).
Proof.
  induction 1 as [|f fs F FS IH]; intros s inp; [discriminate|]. cbn [seqr].
  destruct (fail (f s inp)) eqn:E.
  - intro X. apply F. congruence.
  - cbn [fail rest]. apply IH.
Qed.

Lemma scan_rest {A} mk (rd : step A) fuel : forall acc inp, rest (scan_loop fuel mk rd acc inp) = [].
Proof.
  induction fuel as [|fuel IH]; intros acc inp; cbn [scan_loop]; [reflexivity|].
  destruct (length inp <? 2); [reflexivity|]. destruct (mk _) as [| |a]; try reflexivity.
  destruct (fail (rd a inp)); [reflexivity|]. cbn [rest]. apply IH.
Qed.

Lemma scan_not_eof {A} mk (rd : step A) fuel : forall acc inp, fail (scan_loop fuel mk rd acc inp) <> Some EOF.
Proof.
  induction fuel as [|fuel IH]; intros acc inp; cbn [scan_loop]; [discriminate|].
  destruct (length inp <? 2); [discriminate|]. destruct (mk _) as [| |a]; try discriminate.
  destruct (fail (rd a inp)) as [[]|]; try discriminate. cbn [fail]. apply IH.
Qed.

Lemma drains_scan {A} mk (rd : step A) : drains (scan mk rd).
Proof. intros s inp _. apply scan_rest. Qed.
Lemma drains_sub {S A} get set (rd : step A) : drains rd -> drains (@sub S A get set rd).
Proof. intros H s inp E. apply (H (get s) inp), E. Qed.
Lemma drains_pre {S} g (f : step S) : drains f -> drains (pre g f).
Proof. intros H s inp E. apply (H (g s) inp), E. Qed.
Lemma drains_lost {S} (f : step S) : drains f -> drains (lost f).
Proof. intros H s inp E. apply (H s inp), E. Qed.
Lemma drains_readall {S} (set : bytes -> S -> S) : drains (readall set).
Proof. intros s inp _. reflexivity. Qed.
Lemma drains_andthen {S} (a : step S) b : (forall n h, drains (b n h)) -> drains (andthen a b).
Proof.
  intros H s inp. unfold andthen. destruct (fail (a s inp)) eqn:E; [congruence|]. cbn [fail rest]. apply H.
Qed.

Lemma drains_readslice {A S} (zero : A) (rd : step A) : spent rd -> drains (@readslice A S zero rd).
Proof.
  intros H s inp. unfold readslice, readfunc. generalize (Datatypes.S (length inp)). intro fuel.
  revert s inp. induction fuel as [|fuel IH]; intros s inp; cbn [readfunc_loop]; [discriminate|].
  destruct (fail (rd zero inp)) as [e|] eqn:E; cbn [fail rest]; [|apply IH].
  intro X. apply H. destruct e; try discriminate X. exact E.
Qed.

Lemma drains_Actions : drains dec_Actions.
Proof. apply drains_pre, drains_scan. Qed.

Ltac spent_all :=
  repeat (apply Forall_cons; [repeat apply spent_sub; apply spent_take|]); apply Forall_nil.

Lemma spent_BucketCounter : spent dec_BucketCounter.
Proof. apply spent_seqr. spent_all. Qed.
Lemma spent_MeterBandStats : spent dec_MeterBandStats.
Proof. apply spent_seqr. spent_all. Qed.
Lemma spent_front {S} (front : step (N * S)) lim g :
  spent front -> (forall s i, fail (g s i) <> Some EOF) ->
  spent (with_local 0%N (andthen front (fun _ h => limited (lim h) g))).
Proof.
  intros Hf Hg s inp. unfold with_local. cbn [fail rest]. unfold andthen.
  destruct (fail (front (0%N, s) inp)) as [e|] eqn:E.
  - intro X. apply Hf. congruence.
  - cbn [fail rest]. unfold limited. cbn [fail rest]. intro X. destruct (Hg _ _ X).
Qed.

Lemma spent_Bucket : spent dec_Bucket.
Proof.
  apply (spent_front _ (fun h => Z.of_N (sub16 (fst h) 16))).
  - apply spent_seqr. spent_all.
  - intros s i. apply (scan_not_eof make_action dec_Action).
Qed.

(** A front that ends with the length and a part limited by it. *)
Definition governed {S} (dec : step S) (F off : nat) (old : S) (h : bytes) : Prop :=
  exists r : bytes -> res S, (forall x, fail (r x) = None -> rest (r x) = [])
  /\ forall n tl, (n < 65536)%N ->
  dec old (declare off n h ++ tl)
  = let j := N.to_nat (sub16 n (N.of_nat F)) in let q := r (firstn j tl) in
    Res (val q) (F + cnt q) (fail q) (rest q ++ skipn j tl).

Lemma governed_by {S} (front : step (N * S)) lim (g : step (N * S)) s F off old h :
  (forall n tl, (n < 65536)%N -> front (0%N, old) (declare off n h ++ tl) = Res (n, s) F None tl) ->
  (forall n, (n < 65536)%N -> lim n = Z.of_N (sub16 n (N.of_nat F))) ->
  (forall n x, g (n, s) x = let q := g (0%N, s) x in Res (n, snd (val q)) (cnt q) (fail q) (rest q)) ->
  drains g -> governed (with_local 0%N (andthen front (fun _ h => limited (lim (fst h)) g))) F off old h.
Proof.
  intros Hf Hl Hg D. exists (fun x => let q := g (0%N, s) x in Res (snd (val q)) (cnt q) (fail q) (rest q)).
  split; [intros x Hx; apply D, Hx|]. intros n tl Hn. cbv zeta.
  eapply (with_local_eq _ _ _ _ (n, _)). eapply andthen_both; [apply Hf, Hn|]. cbn [fst].
  rewrite Hl by exact Hn. unfold limited.
  rewrite Hg. cbn [val cnt fail rest]. rewrite zn_nat. reflexivity.
Qed.

Lemma governed_ignoring {S} (front : step (N * S)) lim (g : step (N * S)) s F off old h :
  (forall n tl, (n < 65536)%N -> front (0%N, old) (declare off n h ++ tl) = Res (n, s) F None tl) ->
  (forall n, (n < 65536)%N -> lim n = Z.of_N (sub16 n (N.of_nat F))) ->
  (forall n x, g (n, s) x = let q := g (0%N, s) x in Res (n, snd (val q)) (cnt q) (fail q) (rest q)) ->
  drains g -> governed (with_local 0%N (andthen_ignoring front (fun _ h => limited (lim (fst h)) g))) F off old h.
Proof.
  intros Hf Hl Hg D. exists (fun x => let q := g (0%N, s) x in Res (snd (val q)) (cnt q) (fail q) (rest q)).
  split; [intros x Hx; apply D, Hx|]. intros n tl Hn. cbv zeta.
  eapply (with_local_eq _ _ _ _ (n, _)). unfold andthen_ignoring. rewrite (Hf n tl Hn). cbn [fst val cnt fail rest].
  rewrite Hl by exact Hn. unfold limited.
  rewrite Hg. cbn [val cnt fail rest]. rewrite zn_nat. reflexivity.
Qed.

Lemma declared n : (n < 65536)%N -> be_dec [byte_of_N (n / 256); byte_of_N n] = n.
Proof. intro H. rewrite <- be_enc_2. apply be_dec_enc_fits. exact H. Qed.

Ltac open_front h H :=
  repeat (destruct h as [|? h]; [discriminate H|apply eq_add_S in H]);
  destruct h; [clear H|discriminate H].
Ltac front_reads :=
  intros n tl Hn; unfold declare; cbn [firstn skipn app Nat.add]; rewrite be_enc_2; cbn [app];
  match goal with |- ?l = _ => let l' := eval cbv -[be_dec byte_of_N N.div] in l in transitivity l'; [vm_cast_no_check (eq_refl l')|] end;
  rewrite (declared n Hn); reflexivity.

Lemma rs_alike {A S} (zero : A) (rd : step A) (s : S) (n : N) inp :
  readslice zero rd (n, s) inp
  = let q := readslice zero rd (0%N, s) inp in Res (n, snd (val q)) (cnt q) (fail q) (rest q).
Proof. rewrite (rs_eq zero rd (n, s) tt), (rs_eq zero rd (0%N, s) tt). reflexivity. Qed.

Lemma sub_alike {S} (rd : step S) (s : S) (n : N) inp :
  sub snd (fun x (s : N * S) => (fst s, x)) rd (n, s) inp
  = let q := sub snd (fun x (s : N * S) => (fst s, x)) rd (0%N, s) inp in Res (n, snd (val q)) (cnt q) (fail q) (rest q).
Proof. reflexivity. Qed.

Lemma governed_as {S} (dec dec' : step S) F off old h :
  dec old = dec' old -> governed dec' F off old h -> governed dec F off old h.
Proof. intros E (r & G). exists r. unfold step in *. rewrite E. exact G. Qed.

Lemma by_set_field x : dec_Action (ASetField x) = dec_set_field (ASetField x).
Proof. reflexivity. Qed.
Lemma by_apply l : dec_Instruction (IApplyActions l) = dec_instruction_actions (IApplyActions l).
Proof. reflexivity. Qed.
Lemma by_write l : dec_Instruction (IWriteActions l) = dec_instruction_actions (IWriteActions l).
Proof. reflexivity. Qed.

Ltac drained :=
  repeat first [apply drains_pre | apply drains_sub | apply drains_lost]; 
  first [apply drains_Actions | apply drains_readall | apply drains_scan
        | apply drains_readslice; first [apply spent_BucketCounter | apply spent_Bucket | apply spent_MeterBandStats]
        | apply drains_andthen; intros; apply drains_readall].

Lemma governed_all k old h : length h = fixed_part k -> receives k old ->
  governed (wdec k) (fixed_part k) (length_at k) old h.
Proof.
  intros H R. destruct k; cbn [fixed_part length_at wdec receives wmsg] in *.
  - open_front h H. unfold dec_Bucket.
    eapply (governed_by _ (fun n => Z.of_N (sub16 n 16))); [front_reads|reflexivity|intros n x; reflexivity|drained].
  - open_front h H. unfold dec_GroupStats.
    eapply (governed_by _ (fun n => Z.of_N (sub16 n 40))); [front_reads|reflexivity|intros n x; apply rs_alike|drained].
  - open_front h H. unfold dec_GroupDescStats.
    eapply (governed_ignoring _ (fun n => Z.of_N (sub16 n 8))); [front_reads|reflexivity|intros n x; apply rs_alike|drained].
  - open_front h H. unfold dec_MeterConfig.
    eapply (governed_by _ (fun n => Z.of_N (sub16 n 8))); [front_reads|reflexivity|intros n x; reflexivity|drained].
  - open_front h H. unfold dec_MeterStats.
    eapply (governed_ignoring _ (fun n => Z.of_N (sub16 n 40))); [front_reads|reflexivity|intros n x; apply rs_alike|drained].
  - open_front h H. unfold dec_PacketQueue.
    eapply (governed_by _ (fun n => Z.of_N (sub16 n 16))); [front_reads|reflexivity|intros n x; reflexivity|drained].
  - destruct R as (e & d & ->). open_front h H. unfold dec_QueueProp.
    eapply (governed_by _ (fun n => Z.of_N (sub16 n 16))); [front_reads|reflexivity|intros n x; reflexivity|drained].
  - destruct R as (x & ->). open_front h H. apply (governed_as _ _ _ _ _ _ (by_set_field x)). unfold dec_set_field.
    eapply (governed_by _ (fun n => Z.of_N (uwrap 2 (n + 65532)))); [front_reads| |intros n y; apply sub_alike|drained].
    intros n Hn. unfold sub16. do 2 f_equal. lia.
  - open_front h H. destruct R as (l & [-> | ->]);
      [apply (governed_as _ _ _ _ _ _ (by_apply l))|apply (governed_as _ _ _ _ _ _ (by_write l))];
      unfold dec_instruction_actions.
    + eapply (governed_by _ (fun n => Z.of_N (uwrap 2 (n + 65528)))); [front_reads| |intros n y; apply sub_alike|drained].
      intros n Hn. unfold sub16. do 2 f_equal. lia.
    + eapply (governed_by _ (fun n => Z.of_N (uwrap 2 (n + 65528)))); [front_reads| |intros n y; apply sub_alike|drained].
      intros n Hn. unfold sub16. do 2 f_equal. lia.
Qed.
