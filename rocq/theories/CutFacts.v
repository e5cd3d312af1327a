(** How decoders fail on truncated fixed-size messages. *)
From Coq Require Import ZifyBool ZifyNat ZifyN.
From Verif Require Export RelayFacts CutSpec.
Ltac Zify.zify_post_hook ::= Z.div_mod_to_equations.

(** Position [n] is the boundary of two of the fields of widths [ws]. *)
Fixpoint boundary (ws : list nat) (n : nat) : bool :=
  (n =? 0) || match ws with [] => false | w :: ws' => (w <=? n) && boundary ws' (n - w) end.

Definition cut_error (ws : list nat) (n : nat) : err := if boundary ws n then EOF else UnexpectedEOF.

Fixpoint total (ws : list nat) : nat := match ws with [] => 0 | w :: ws' => w + total ws' end.

(** How [f] fails on too short an input. *)
Definition cutsi {St} (P : St -> Prop) (ws : list nat) (f : step St) : Prop :=
  forall s inp, P s -> length inp < total ws -> fail (f s inp) = Some (cut_error ws (length inp)).

Lemma cuts_take {St} (P : St -> Prop) k (upd : bytes -> St -> St) : cutsi P [k] (take_full k upd).
Proof.
  intros s inp _ L. cbn [total] in L. unfold take_full.
  destruct (Nat.ltb_spec (length inp) k) as [H|H]; [|lia]. cbn [fail].
  unfold cut_error. cbn [boundary]. destruct inp as [|b inp]; [reflexivity|]. cbn [length] in *.
  replace (S (length inp) =? 0) with false by reflexivity.
  replace (k <=? S (length inp)) with false by (symmetry; apply Nat.leb_gt; lia). reflexivity.
Qed.

Lemma cuts_sub {St A} (P : A -> Prop) ws (get : St -> A) (set : A -> St -> St) f :
  cutsi P ws f -> cutsi (fun s => P (get s)) ws (sub get set f).
Proof. intros H s inp HP L. unfold sub. cbn [fail]. apply H; assumption. Qed.

Lemma cuts_fslice {St} (get : St -> bytes) (set : bytes -> St -> St) k :
  cutsi (fun s => length (get s) = k) [k] (fslice get set).
Proof. intros s inp H L. unfold fslice, fbytes. rewrite H. apply (cuts_take (fun _ => True)); auto. Qed.

Lemma cuts_nil {St} (P : St -> Prop) (f : step St) : cutsi P [] f.
Proof. intros s inp _ L. cbn in L. lia. Qed.

Lemma cuts_cons {St} (P Q : St -> Prop) w ws (f : step St) fs g :
  anyi P f w g -> cutsi P [w] f -> (forall b s, P s -> Q (g b s)) -> cutsi Q ws (seqr fs) ->
  cutsi P (w :: ws) (seqr (f :: fs)).
Proof.
  intros HA Hf HQ Hs s inp HP L. cbn [total] in L. cbn [seqr].
  destruct (Nat.ltb_spec (length inp) w) as [H|H].
  - rewrite (Hf s inp HP) by (cbn [total]; lia). rewrite (Hf s inp HP) by (cbn [total]; lia).
    f_equal. unfold cut_error. cbn [boundary].
    replace (w <=? length inp) with false by (symmetry; apply Nat.leb_gt; lia). reflexivity.
  - rewrite (HA s inp HP H). cbn [fail val rest].
    rewrite (Hs _ _ (HQ inp s HP)) by (rewrite skipn_length; lia).
    f_equal. unfold cut_error. rewrite skipn_length. cbn [boundary].
    replace (w <=? length inp) with true by (symmetry; apply Nat.leb_le; lia). cbn [andb].
    destruct (length inp =? 0) eqn:Z; [|reflexivity]. cbn [orb].
    apply Nat.eqb_eq in Z. rewrite Z. cbn [Nat.sub]. replace (0 - w) with 0 by lia.
    destruct ws; reflexivity.
Qed.

Lemma cuts_finally {St} (P : St -> Prop) ws (g0 : St -> St) f : cutsi P ws f -> cutsi P ws (finally g0 f).
Proof. intros H s inp HP L. unfold finally. cbn [fail]. auto. Qed.

Lemma cuts_pre {St} (P Q : St -> Prop) ws (g0 : St -> St) f :
  (forall s, P s -> Q (g0 s)) -> cutsi Q ws f -> cutsi P ws (pre g0 f).
Proof. intros HQ H s inp HP L. unfold pre. auto. Qed.

Lemma cuts_with_local {L St} ws (l : L) (f : step (L * St)) :
  cutsi (fun _ => True) ws f -> cutsi (fun _ => True) ws (with_local l f).
Proof. intros H s inp HP Hl. unfold with_local. cbn [fail]. auto. Qed.

Lemma total_app a b : total (a ++ b) = total a + total b.
Proof. induction a as [|w a IH]; cbn [total app]; [reflexivity|]. rewrite IH. lia. Qed.

Lemma boundary_0 ws : boundary ws 0 = true.
Proof. destruct ws; reflexivity. Qed.

Lemma boundary_app_lt : forall a b n, n < total a -> boundary (a ++ b) n = boundary a n.
Proof.
  induction a as [|w a IH]; intros b n H; cbn [total] in H; [lia|]. cbn [app boundary].
  destruct (n =? 0); [reflexivity|]. cbn [orb]. destruct (Nat.leb_spec w n) as [L|L]; [|reflexivity].
  cbn [andb]. apply IH. lia.
Qed.

Lemma boundary_app_ge : forall a b n, total a <= n -> boundary (a ++ b) n = boundary b (n - total a).
Proof.
  induction a as [|w a IH]; intros b n H; cbn [total] in *; [cbn [app]; f_equal; lia|].
  cbn [app boundary]. replace (w <=? n) with true by (symmetry; apply Nat.leb_le; lia). cbn [andb].
  rewrite IH by lia. replace (n - w - total a) with (n - (w + total a)) by lia.
  destruct (Nat.eqb_spec n 0) as [E|E]; [|reflexivity]. cbn [orb].
  replace (n - (w + total a)) with 0 by lia. symmetry. apply boundary_0.
Qed.

(** A member that is itself a structure. *)
Lemma cuts_app {St} (P Q : St -> Prop) vs ws (f : step St) fs g :
  anyi P f (total vs) g -> cutsi P vs f -> (forall b s, P s -> Q (g b s)) -> cutsi Q ws (seqr fs) ->
  cutsi P (vs ++ ws) (seqr (f :: fs)).
Proof.
  intros HA Hf HQ Hs s inp HP L. rewrite total_app in L. cbn [seqr].
  destruct (Nat.ltb_spec (length inp) (total vs)) as [H|H].
  - rewrite !(Hf s inp HP) by exact H. f_equal. unfold cut_error. rewrite boundary_app_lt by exact H. reflexivity.
  - rewrite (HA s inp HP H). cbn [fail val rest].
    rewrite (Hs _ _ (HQ inp s HP)) by (rewrite skipn_length; lia).
    f_equal. unfold cut_error. rewrite skipn_length, boundary_app_ge by exact H. reflexivity.
Qed.

(** A member read at once. *)
Lemma cuts_step {St} w ws (f : step St) fs g :
  any f w g -> cutsi (fun _ => True) [w] f -> cutsi (fun _ => True) ws (seqr fs) ->
  cutsi (fun _ => True) (w :: ws) (seqr (f :: fs)).
Proof. intros A B C. exact (cuts_cons _ (fun _ => True) w ws f fs g A B (fun _ _ _ => Logic.I) C). Qed.

Lemma offsets_boundary : forall ws off n, off <= n < off + total ws ->
  In n (offsets off ws) <-> boundary ws (n - off) = true.
Proof.
  induction ws as [|w ws IH]; intros off n H; cbn [total] in H; [lia|]. cbn [offsets boundary In].
  destruct (Nat.eqb_spec (n - off) 0) as [E|E]; cbn [orb].
  - split; [reflexivity|]. intros _. left. lia.
  - destruct (Nat.leb_spec w (n - off)) as [L|L]; cbn [andb].
    + replace (n - off - w) with (n - (off + w)) by lia. rewrite <- (IH (off + w) n) by lia.
      split; [intros [X|X]; [lia|exact X]|auto].
    + split; [|discriminate]. intros [X|X]; [lia|]. exfalso.
      assert (G : forall us o m, In m (offsets o us) -> o <= m).
      { induction us as [|u us IHu]; intros o m; cbn [offsets In]; [tauto|]. intros [Y|Y]; [lia|].
        apply IHu in Y. lia. }
      apply G in X. lia.
Qed.

Lemma cuts_Port : cutsi (fun _ => True) port_members dec_Port.
Proof.
  unfold dec_Port, port_members. apply cuts_with_local.
  pose (P := fun s : bytes * Port => length (Port_HWAddr (snd s)) = 6).
  apply (cuts_pre _ P); [intros s _; reflexivity|]. apply cuts_finally.
  eapply (cuts_cons P P);
    [refine (any_impl (fun s => True) P _ _ _ _ (any_sub (fun _ => True) _ _ _ _ _ _)); [auto|apply any_fu]
    |intros s inp _; apply (cuts_sub (fun _ => True) [4] _ _ _ (cuts_take _ 4 _)); exact I
    |intros b s HP; exact HP|].
  eapply (cuts_cons P P); [apply any_fpad|apply cuts_take|intros b s HP; exact HP|].
  eapply (cuts_cons P (fun _ => True));
    [exact (any_sub _ _ _ _ _ _ (any_fslice Port_HWAddr set_Port_HWAddr 6))
    |exact (cuts_sub _ _ _ _ _ (cuts_fslice Port_HWAddr set_Port_HWAddr 6))|auto|].
  eapply (cuts_cons (fun _ => True) (fun _ => True)); [apply any_fpad|apply cuts_take|auto|].
  eapply (cuts_cons (fun _ => True) (fun _ => True)); [apply any_take|apply cuts_take|auto|].
  do 8 (eapply (cuts_cons (fun _ => True) (fun _ => True));
    [apply (any_sub (fun _ => True)), any_fu|apply (cuts_sub (fun _ => True)), cuts_take|auto|]).
  apply cuts_nil.
Qed.

Lemma cuts_andthen {St} (P : St -> Prop) ws (f : step St) b : cutsi P ws f -> cutsi P ws (andthen f b).
Proof. intros H s inp HP L. unfold andthen. rewrite (H s inp HP L). apply H; assumption. Qed.

Ltac cut_elem :=
  first [ apply cuts_take | apply (cuts_sub (fun _ => True)), cuts_take ].

Ltac cut_any :=
  first [ any_elem | apply (any_sub (fun _ => True)); any_elem ].

Ltac cut_seq :=
  repeat first [ apply cuts_nil | eapply cuts_step; [ cut_any | cut_elem | ] ].

Lemma cuts_all k : cutsi (fun _ => True) (members k) (dec k).
Proof.
  destruct k; cbn [members dec];
    try (match goal with |- cutsi _ _ ?d => unfold d end; cut_seq; fail).
  - apply cuts_Port.
  - unfold dec_PortStatus. cbn [app]. eapply cuts_step; [apply any_fu|apply cuts_take|].
    eapply cuts_step; [apply any_fpad|apply cuts_take|].
    apply (cuts_app (fun _ => True) (fun _ => True) port_members [] _ _ (fun b s => set_PortStatus_Port (port_of b) s)).
    + exact (any_sub (fun _ => True) PortStatus_Port set_PortStatus_Port _ _ _ any_Port).
    + exact (cuts_sub (fun _ => True) _ PortStatus_Port set_PortStatus_Port _ cuts_Port).
    + auto.
    + apply cuts_nil.
  - unfold dec_Description. apply cuts_with_local, cuts_andthen. cut_seq.
Qed.
