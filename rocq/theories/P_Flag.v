(** C121: what the named bits of the bitmaps mean to an OpenFlow 1.3 peer. *)
From Verif Require Import FlagSpec RelayFacts.

(** [union] asks for flags of its own type. *)
Definition typed (b : bitmap) (f : flag) : Prop := In f (map fst (block b)).

Lemma land_pow x k : negb (N.land x (N.shiftl 1 k) =? 0)%N = N.testbit x k.
Proof.
  rewrite N.shiftl_1_l. destruct (N.testbit x k) eqn:E.
  - destruct (N.eqb_spec (N.land x (2 ^ k)) 0) as [Z|]; [exfalso|reflexivity].
    assert (T : N.testbit (N.land x (2 ^ k)) k = true)
      by (rewrite N.land_spec, E, N.pow2_bits_true; reflexivity).
    rewrite Z, N.bits_0 in T. discriminate.
  - replace (N.land x (2 ^ k)) with 0%N; [reflexivity|]. symmetry. apply N.bits_inj_0. intro n.
    rewrite N.land_spec, N.pow2_bits_eqb.
    destruct (N.eqb_spec k n) as [->|]; [rewrite E; reflexivity|apply andb_false_r].
Qed.

(** The bit each constant stands for. *)
Definition bit_of (f : flag) : N :=
  match f with
  | CapabilityIPReasm => 4%N
  | CapabilityQueueStats => 5%N
  | PortConfigNoSTP => 1%N
  | PortConfigNoRcvSTP => 3%N
  | PortConfigNoFlood => 4%N
  | f => match of13 f with Some (_, k) => k | None => 0%N end
  end.

Lemma value_bit b f : typed b f -> value b f = N.shiftl 1 (bit_of f).
Proof. unfold typed. destruct b; cbn; intuition (subst; reflexivity). Qed.

Lemma home b k f : of13 f = Some (b, k) -> typed b f.
Proof. unfold typed. destruct f; cbn; intro E; inversion E; subst; cbn; tauto. Qed.

Lemma right_bit b k f : of13 f = Some (b, k) -> ~ misnamed f -> bit_of f = k.
Proof.
  intros E N. destruct f; cbn in E; inversion E; subst; try reflexivity; exfalso; apply N;
    [left|right]; reflexivity.
Qed.

Lemma one_bit b k f g : of13 f = Some (b, k) -> of13 g = Some (b, k) -> f = g.
Proof. destruct f; cbn; intro E; inversion E; subst; destruct g; cbn; intro G; inversion G; reflexivity. Qed.

Lemma has_bit b x f : typed b f -> has b x f = N.testbit x (bit_of f).
Proof. intro T. unfold has. rewrite (value_bit b f T). apply land_pow. Qed.

Lemma said b P w f k : says b P w -> of13 f = Some (b, k) -> N.testbit w k = P f.
Proof.
  intros S E. destruct (P f) eqn:Q.
  - apply S. exists f. split; assumption.
  - destruct (N.testbit w k) eqn:T; [|reflexivity]. apply S in T. destruct T as (g & G & Q').
    rewrite (one_bit b k f g E G) in Q. congruence.
Qed.

Lemma unsaid b P w k : says b P w -> (forall f, of13 f <> Some (b, k)) -> N.testbit w k = false.
Proof.
  intros S U. destruct (N.testbit w k) eqn:T; [|reflexivity]. apply S in T.
  destruct T as (g & G & _). destruct (U g G).
Qed.

Lemma union_bit b l k : (forall f, In f l -> typed b f) ->
  N.testbit (union b l) k = existsb (fun f => N.eqb (bit_of f) k) l.
Proof.
  induction l as [|f l IH]; intro T; [apply N.bits_0|]. cbn [union existsb].
  rewrite N.lor_spec, IH by (intros; apply T; right; assumption).
  rewrite (value_bit b f) by (apply T; left; reflexivity).
  rewrite N.shiftl_1_l, N.pow2_bits_eqb. reflexivity.
Qed.

Lemma bit_inj b f g : typed b f -> typed b g -> bit_of f = bit_of g -> f = g.
Proof.
  unfold typed. destruct b; cbn; intuition (subst; first [reflexivity | exfalso; discriminate]).
Qed.

Lemma union_in b l f : (forall g, In g l -> typed b g) -> typed b f ->
  N.testbit (union b l) (bit_of f) = true <-> In f l.
Proof.
  intros T F. rewrite (union_bit b l _ T), existsb_exists. split.
  - intros (g & I & E). apply N.eqb_eq in E. rewrite (bit_inj b f g F (T g I) (eq_sym E)). exact I.
  - intro I. exists f. split; [exact I|apply N.eqb_refl].
Qed.

(** There is such a word for every set. *)
Fixpoint word_of (b : bitmap) (P : flag -> bool) (l : list flag) : N :=
  match l with
  | [] => 0%N
  | f :: l' =>
      match of13 f with
      | Some (c, k) => if P f then N.lor (N.shiftl 1 k) (word_of b P l') else word_of b P l'
      | None => word_of b P l'
      end
  end.

Lemma word_says b P : exists w, says b P w.
Proof.
  exists (word_of b P (map fst (block b))). intro k.
  assert (T : forall f, In f (map fst (block b)) -> typed b f) by (unfold typed; tauto).
  assert (A : forall f, of13 f = Some (b, k) -> In f (map fst (block b))) by (intro; apply home).
  assert (B : forall f c j, In f (map fst (block b)) -> of13 f = Some (c, j) -> c = b).
  { clear. intros f c j. destruct b; cbn; intuition (subst; cbn in *; congruence). }
  transitivity (exists f, In f (map fst (block b)) /\ of13 f = Some (b, k) /\ P f = true).
  2:{ split; [intros (f & _ & X); exists f; exact X|intros (f & E & Q); exists f; auto]. }
  clear T A. induction (map fst (block b)) as [|f l IH]; cbn [word_of].
  - rewrite N.bits_0. split; [discriminate|intros (f & [] & _)].
  - assert (B' : forall g c j, In g l -> of13 g = Some (c, j) -> c = b)
      by (intros g c j I; apply B; right; exact I).
    specialize (IH B'). destruct (of13 f) as [[c j]|] eqn:E.
    + pose proof (B f c j (or_introl eq_refl) E) as ->. destruct (P f) eqn:Q.
      * rewrite N.lor_spec, N.shiftl_1_l, N.pow2_bits_eqb, orb_true_iff, IH, N.eqb_eq. split.
        -- intros [->|(g & I & X)]; [exists f|exists g]; cbn; tauto.
        -- intros (g & [<-|I] & X & Y); [left; congruence|right; exists g; tauto].
      * rewrite IH. split; intros (g & I & X & Y); exists g; cbn in *; [tauto|].
        destruct I as [<-|I]; [congruence|tauto].
    + rewrite IH. split; intros (g & I & X & Y); exists g; cbn in *; [tauto|].
      destruct I as [<-|I]; [congruence|tauto].
Qed.

(** C121: testing a bitmap of an OpenFlow 1.3 peer with a constant tells what the peer
    said, for every constant of the protocol but two. *)
Theorem C121_read : forall b P f k, of13 f = Some (b, k) -> ~ misnamed f ->
  (exists w, says b P w) /\ forall w, says b P w -> has b w f = P f.
Proof.
  intros b P f k E N. split; [apply word_says|]. intros w S.
  rewrite (has_bit b w f (home b k f E)), (right_bit b k f E N). exact (said b P w f k S E).
Qed.
Print Assumptions C121_read.

Example C121_read_ex :
  says BPortState (fun f => flag_beq f PortStateLive) 4
  /\ has BPortState 4 PortStateLive = true /\ has BPortState 4 PortStateLinkDown = false.
Proof.
  split; [|split; reflexivity]. intro k. split.
  - intro H. exists PortStateLive. split; [|reflexivity]. cbn.
    destruct (N.eq_dec k 2) as [->|Ne]; [reflexivity|].
    change 4%N with (2 ^ 2)%N in H. rewrite N.pow2_bits_false in H by congruence. discriminate.
  - intros (f & E & P). destruct f; cbn in P; try discriminate. inversion E; subst. reflexivity.
Qed.

(** C121: the other two. No OpenFlow 1.3 switch seems to reassemble fragments, and one
    that does seems to have queue statistics. *)
Theorem C121_read_wrong : forall P w, says BCapability P w ->
  has BCapability w CapabilityIPReasm = false
  /\ has BCapability w CapabilityQueueStats = P CapabilityIPReasm.
Proof.
  intros P w S. split; rewrite has_bit by (unfold typed; cbn; tauto).
  - apply (unsaid BCapability P w 4 S). intro f. destruct f; discriminate.
  - exact (said BCapability P w CapabilityIPReasm 5 S eq_refl).
Qed.
Print Assumptions C121_read_wrong.

Example C121_read_wrong_ex :
  has BCapability 32 CapabilityQueueStats = true /\ has BCapability 32 CapabilityIPReasm = false
  /\ has BCapability 64 CapabilityQueueStats = false.
Proof. repeat split. Qed.

(** C121: through the wire. Whatever features reply arrives, the program of the
    controller is told the abilities of the switch but for those two. *)
Theorem C121_reply : forall old inp P, 24 <= length inp ->
  says BCapability P (be_dec (firstn 4 (skipn 16 inp))) ->
  exists m, dec_SwitchFeatures old inp = Res m 24 None (skipn 24 inp)
  /\ (forall f k, of13 f = Some (BCapability, k) -> ~ misnamed f ->
        has BCapability (SwitchFeatures_Capabilities m) f = P f)
  /\ has BCapability (SwitchFeatures_Capabilities m) CapabilityIPReasm = false
  /\ has BCapability (SwitchFeatures_Capabilities m) CapabilityQueueStats = P CapabilityIPReasm.
Proof.
  intros old inp P L S.
  eassert (E : any dec_SwitchFeatures _ _) by (unfold dec_SwitchFeatures; any_seq).
  pose proof (E old inp Logic.I) as Q. specialize (Q L). clear E. cbn [Nat.mul Nat.add] in Q.
  eexists; split; [exact Q|]. clear Q.
  match goal with |- (forall f k, _ -> _ -> has _ ?x f = _) /\ _ => assert (X : x = be_dec (firstn 4 (skipn 16 inp))) end.
  { destruct old; cbn -[be_dec skipn firstn]. rewrite !skipn_skipn_add. reflexivity. }
  rewrite X. split; [intros f k E N; exact (proj2 (C121_read _ P f k E N) _ S)|].
  exact (C121_read_wrong P _ S).
Qed.
Print Assumptions C121_reply.

(** A switch that has port and queue statistics. *)
Example C121_reply_ex :
  match dec_SwitchFeatures zero_SwitchFeatures
          [x00; x00; x00; x00; x00; x00; x00; x01; x00; x00; x01; x00; xfe; x00; x00; x00;
           x00; x00; x00; x44; x00; x00; x00; x00] with
  | Res m 24 None [] =>
      has BCapability (SwitchFeatures_Capabilities m) CapabilityPortStats
      && negb (has BCapability (SwitchFeatures_Capabilities m) CapabilityQueueStats)
  | _ => false
  end = true.
Proof. vm_compute. reflexivity. Qed.

(** C121: what an OpenFlow 1.3 peer takes from a word composed of the constants. *)
Theorem C121_write : forall b l f k, (forall g, In g l -> In g (map fst (block b))) ->
  of13 f = Some (b, k) -> ~ misnamed f ->
  (hears b (union b l) f <-> In f l).
Proof.
  intros b l f k T E N. unfold hears. rewrite <- (union_in b l f T (home b k f E)).
  rewrite (right_bit b k f E N). split; [|intro H; exists k; split; assumption].
  intros (j & J & H). assert (j = k) as -> by congruence. exact H.
Qed.
Print Assumptions C121_write.

Example C121_write_ex :
  union BFlowFlag [FlowFlagSendFlowRem; FlowFlagNoPktCounts] = 9%N
  /\ hears BFlowFlag 9 FlowFlagNoPktCounts /\ ~ hears BFlowFlag 9 FlowFlagCheckOverlap.
Proof.
  split; [reflexivity|]. split; [exists 3%N; split; reflexivity|].
  intros (k & E & T). inversion E; subst. discriminate.
Qed.

(** C121: a switch built on the library that announces queue statistics is taken for
    one that reassembles fragments, its reassembly shows as a bit without meaning, and
    it cannot announce queue statistics. *)
Theorem C121_write_wrong : forall l, (forall g, In g l -> In g (map fst (block BCapability))) ->
  (hears BCapability (union BCapability l) CapabilityIPReasm <-> In CapabilityQueueStats l)
  /\ ~ hears BCapability (union BCapability l) CapabilityQueueStats
  /\ (N.testbit (union BCapability l) 4 = true <-> In CapabilityIPReasm l)
  /\ (forall f, of13 f <> Some (BCapability, 4%N)).
Proof.
  intros l T. split; [|split; [|split]].
  - rewrite <- (union_in BCapability l CapabilityQueueStats T) by (unfold typed; cbn; tauto).
    unfold hears. split; [intros (k & E & H); inversion E; subst; exact H|].
    intro H. exists 5%N. split; [reflexivity|exact H].
  - intros (k & E & H). inversion E; subst. rewrite (union_bit BCapability l 6 T) in H.
    apply existsb_exists in H. destruct H as (g & I & B). apply T in I. cbn in I.
    intuition (subst; discriminate).
  - apply (union_in BCapability l CapabilityIPReasm T). unfold typed; cbn; tauto.
  - intro f. destruct f; discriminate.
Qed.
Print Assumptions C121_write_wrong.

Example C121_write_wrong_ex :
  union BCapability [CapabilityFlowStats; CapabilityQueueStats] = 33%N
  /\ hears BCapability 33 CapabilityIPReasm.
Proof. split; [reflexivity|]. exists 5%N. split; reflexivity. Qed.

(** C121: two programs that both use the library agree about every constant, so that
    a test of one against the other shows nothing. *)
Theorem C121_own : forall b l f, (forall g, In g l -> In g (map fst (block b))) ->
  In f (map fst (block b)) -> (has b (union b l) f = true <-> In f l).
Proof. intros b l f T F. rewrite (has_bit b _ f F). exact (union_in b l f T F). Qed.
Print Assumptions C121_own.

Example C121_own_ex :
  has BCapability (union BCapability [CapabilityQueueStats; CapabilityIPReasm]) CapabilityIPReasm = true
  /\ has BCapability (union BCapability [CapabilityQueueStats]) CapabilityIPReasm = false.
Proof. split; reflexivity. Qed.

(** C121: the three port settings of OpenFlow 1.0 say nothing to a 1.3 peer and are
    never found in what it sends. *)
Theorem C121_leftovers : forall f,
  In f [PortConfigNoSTP; PortConfigNoRcvSTP; PortConfigNoFlood] ->
  (forall g l, (forall h, In h l -> In h (map fst (block BPortConfig))) ->
     (hears BPortConfig (union BPortConfig (f :: l)) g <-> hears BPortConfig (union BPortConfig l) g))
  /\ forall P w, says BPortConfig P w -> has BPortConfig w f = false.
Proof.
  intros f F. assert (T : typed BPortConfig f) by (unfold typed; cbn in *; intuition).
  assert (U : forall g, of13 g <> Some (BPortConfig, bit_of f)).
  { intro g. cbn in F. intuition (subst f; destruct g; discriminate). }
  split.
  - intros g l L. unfold hears.
    split; intros (k & E & H); exists k; (split; [exact E|]).
    + rewrite union_bit in H by (intros h [<-|I]; [exact T|exact (L h I)]).
      rewrite (union_bit _ _ _ L). cbn [existsb] in H.
      destruct (N.eqb_spec (bit_of f) k) as [<-|]; [destruct (U g E)|exact H].
    + rewrite union_bit by (intros h [<-|I]; [exact T|exact (L h I)]).
      rewrite (union_bit _ _ _ L) in H. cbn [existsb]. rewrite H. apply orb_true_r.
  - intros P w S. rewrite (has_bit _ w f T). exact (unsaid _ P w _ S U).
Qed.
Print Assumptions C121_leftovers.

Example C121_leftovers_ex :
  union BPortConfig [PortConfigNoFlood; PortConfigNoFwd] = 48%N
  /\ hears BPortConfig 48 PortConfigNoFwd.
Proof. split; [reflexivity|]. exists 5%N. split; reflexivity. Qed.

(** C121: the constants do not all have the bit of OpenFlow 1.3. *)
Theorem C121_bits_refuted : exists b P w f k,
  of13 f = Some (b, k) /\ says b P w /\ has b w f <> P f
  /\ value b f <> N.shiftl 1 k.
Proof.
  destruct (word_says BCapability (fun f => flag_beq f CapabilityIPReasm)) as (w & S).
  exists BCapability, (fun f => flag_beq f CapabilityIPReasm), w, CapabilityIPReasm, 5%N.
  split; [reflexivity|]. split; [exact S|]. rewrite (proj1 (C121_read_wrong _ w S)).
  split; discriminate.
Qed.
Print Assumptions C121_bits_refuted.
