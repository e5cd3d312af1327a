(** Lemmas about the connection model. *)
From Coq Require Import ZifyBool ZifyNat ZifyN.
From Verif Require Export RequestFacts ConnSpec.
From Verif Require Export ConnModel.

Lemma bufsize_pos : 0 < bufsize.
Proof. unfold bufsize. lia. Qed.
Global Opaque bufsize.

Lemma prefix_refl {A} (a : list A) : prefix a a.
Proof. exists []. rewrite app_nil_r. reflexivity. Qed.

Lemma prefix_app {A} (a b c : list A) : prefix a b -> prefix a (b ++ c).
Proof. intros [d ->]. exists (d ++ c). rewrite app_assoc. reflexivity. Qed.

Lemma prefix_firstn {A} (a p : list A) k : prefix (a ++ firstn k p) (a ++ p).
Proof. exists (skipn k p). rewrite <- app_assoc, firstn_skipn. reflexivity. Qed.

(** ** The buffered writer *)
Lemma tr_write_spec t p : let '(n, e, t') := tr_write t p in
  match e with
  | None => n = length p /\ wire t' = wire t ++ p
  | Some _ => n <= length p /\ wire t' = wire t ++ firstn n p
  end.
Proof.
  unfold tr_write.
  destruct (match deadline t with Some d => (d <=? clock t)%Z | None => false end).
  { split; [lia|]. rewrite app_nil_r. reflexivity. }
  destruct (plan t) as [|[[k e]|] l]; cbn [wire].
  - auto.
  - split; [rewrite firstn_length; lia|]. f_equal. rewrite firstn_length.
    destruct (Nat.le_gt_cases k (length p)).
    + rewrite Nat.min_l by lia. reflexivity.
    + rewrite Nat.min_r by lia. rewrite !firstn_all2; auto; lia.
  - auto.
Qed.

Lemma bw_flush_fail b x : berr b = Some x -> bw_flush b = (Some x, b).
Proof. intro H. unfold bw_flush. rewrite H. reflexivity. Qed.

Lemma bw_flush_spec b : berr b = None -> let '(e, b') := bw_flush b in
  berr b' = e /\ length (bbuf b') <= length (bbuf b) /\
  match e with
  | None => bbuf b' = [] /\ wire (btr b') = wire (btr b) ++ bbuf b
  | Some _ => prefix (wire (btr b')) (wire (btr b) ++ bbuf b) /\ prefix (wire (btr b)) (wire (btr b'))
  end.
Proof.
  intro H. unfold bw_flush. rewrite H. destruct (bbuf b) as [|x l] eqn:Hb.
  { rewrite H, Hb, app_nil_r. auto. }
  rewrite <- Hb. pose proof (tr_write_spec (btr b) (bbuf b)) as Ht.
  destruct (tr_write (btr b) (bbuf b)) as [[n e] t]. destruct e as [e|]; cbn [berr bbuf btr].
  - destruct Ht as [Hn Hw]. rewrite Hw, skipn_length. split; [reflexivity|]. split; [lia|].
    split; [apply prefix_firstn|]. exists (firstn n (bbuf b)). reflexivity.
  - destruct Ht as [Hn Hw]. split; [reflexivity|]. split; [cbn; lia|]. auto.
Qed.

Lemma bw_iter_spec p b : bw_more p b = true -> length (bbuf b) <= bufsize ->
  let '(p', b') := bw_iter p b in
  length (bbuf b') <= bufsize /\
  match berr b' with
  | None => bbuf b' = [] /\ wire (btr b') ++ p' = wire (btr b) ++ bbuf b ++ p
            /\ (bbuf b = [] -> p' = [])
  | Some _ => prefix (wire (btr b')) (wire (btr b) ++ bbuf b ++ p) /\ prefix (wire (btr b)) (wire (btr b'))
  end.
Proof.
  intros Hm Hl. unfold bw_more in Hm. destruct (berr b) as [x|] eqn:He; [rewrite andb_false_r in Hm; discriminate|].
  rewrite andb_true_r in Hm. unfold available in Hm. unfold bw_iter.
  destruct (bbuf b) as [|x l] eqn:Hb.
  - pose proof (tr_write_spec (btr b) p) as Ht.
    destruct (tr_write (btr b) p) as [[n e] t]. cbn [berr bbuf btr]. split; [cbn; lia|].
    destruct e as [e|]; destruct Ht as [Hn Hw]; rewrite Hw.
    + cbn [app]. split; [apply prefix_firstn|]. eexists. reflexivity.
    + rewrite Hn, skipn_all. rewrite app_nil_r. auto.
  - rewrite <- Hb. set (n := available b).
    pose proof (bw_flush_spec (MkBw (bbuf b ++ firstn n p) None (btr b)) eq_refl) as Hf.
    rewrite He. destruct (bw_flush (MkBw (bbuf b ++ firstn n p) None (btr b))) as [e b'].
    cbn [snd bbuf btr berr] in *. destruct Hf as (H1 & H2 & H3).
    split. { rewrite app_length, firstn_length in H2. unfold n, available in H2. rewrite Hb in *. lia. }
    rewrite H1. destruct e as [e|].
    + destruct H3 as [H3 H4]. split; [|exact H4].
      destruct H3 as [c Hc]. exists (c ++ skipn n p).
      rewrite (app_assoc _ c), <- Hc. rewrite <- !app_assoc, firstn_skipn. reflexivity.
    + destruct H3 as [H3 H4]. split; [exact H3|]. split; [|intro X; rewrite X in Hb; discriminate].
      rewrite H4, <- !app_assoc, firstn_skipn. reflexivity.
Qed.

Lemma bw_more_false p b : bw_more p b = false -> berr b = None -> length (bbuf b) + length p <= bufsize \/ length p <= 0.
Proof. unfold bw_more, available. intros H He. rewrite He, andb_true_r in H. lia. Qed.

(** The whole write: failing, everything so far is a prefix; else all is kept. *)
Lemma bw_write_fail p b x : berr b = Some x -> bw_write p b = (Some x, b).
Proof.
  intro H. unfold bw_write. cbn [bw_loop]. unfold bw_more, bw_end. rewrite H, andb_false_r. reflexivity.
Qed.


Lemma bw_more_err p b x : berr b = Some x -> bw_more p b = false.
Proof. intro H. unfold bw_more. rewrite H. apply andb_false_r. Qed.

Lemma bw_end_err p b x : berr b = Some x -> bw_end p b = (Some x, b).
Proof. intro H. unfold bw_end. rewrite H. reflexivity. Qed.

Definition wrote (p : bytes) (b : bwriter) (y : option err * bwriter) : Prop :=
  let '(e, b') := y in
  berr b' = e /\ length (bbuf b') <= bufsize /\ prefix (wire (btr b)) (wire (btr b')) /\
  match e with
  | None => wire (btr b') ++ bbuf b' = wire (btr b) ++ bbuf b ++ p
  | Some _ => prefix (wire (btr b')) (wire (btr b) ++ bbuf b ++ p)
  end.

Lemma wrote_end p b : berr b = None -> bw_more p b = false -> length (bbuf b) <= bufsize ->
  wrote p b (bw_end p b).
Proof.
  intros He Hm Hl. unfold bw_end. rewrite He. cbn. split; [reflexivity|]. split.
  { rewrite app_length. destruct (bw_more_false p b Hm He); lia. }
  split; [apply prefix_refl|reflexivity].
Qed.

Lemma wrote_iter p b p' b' : berr b = None -> bw_more p b = true -> length (bbuf b) <= bufsize ->
  bw_iter p b = (p', b') -> forall y, (berr b' = None -> wrote p' b' y) ->
  (forall x, berr b' = Some x -> y = (Some x, b')) -> wrote p b y.
Proof.
  intros He Hm Hl Hi y Hy1 Hy2. pose proof (bw_iter_spec p b Hm Hl) as Hs. rewrite Hi in Hs.
  destruct Hs as [S1 S2]. destruct (berr b') as [x|] eqn:Hb'.
  - rewrite (Hy2 x eq_refl). cbn. destruct S2 as [S2 S3]. auto.
  - specialize (Hy1 eq_refl). destruct y as [e c]. cbn in *. destruct S2 as (S2 & S3 & S4).
    rewrite S2 in *. cbn [app] in *. destruct Hy1 as (Y1 & Y2 & Y3 & Y4).
    split; [exact Y1|]. split; [exact Y2|].
    assert (Hpre : prefix (wire (btr b)) (wire (btr b'))).
    { pose proof (bw_iter_spec p b Hm Hl) as Hs. clear -Hi He Hm Hl Hb'.
      unfold bw_iter in Hi. destruct (bbuf b) eqn:Hbb.
      - pose proof (tr_write_spec (btr b) p) as Ht. destruct (tr_write (btr b) p) as [[n e] t].
        injection Hi as <- <-. cbn [btr]. destruct e; destruct Ht as [_ ->]; eexists; reflexivity.
      - rewrite <- Hbb in Hi. pose proof (bw_flush_spec (MkBw (bbuf b ++ firstn (available b) p) (berr b) (btr b)) He) as Hf.
        destruct (bw_flush _) as [e2 b2]. injection Hi as <- <-. cbn [snd bbuf btr] in *.
        destruct Hf as (F1 & F2 & F3). destruct e2.
        + apply F3.
        + destruct F3 as [_ F3]. rewrite F3. eexists. reflexivity. }
    split.
    { destruct Hpre as [c1 E1]. destruct Y3 as [c2 E2]. exists (c1 ++ c2). rewrite E2, E1, app_assoc. reflexivity. }
    rewrite <- S3. exact Y4.
Qed.

Lemma bw_loop_spec n p b : berr b = None -> length (bbuf b) <= bufsize ->
  wrote p b (bw_loop (3 + n) p b).
Proof.
  intros He Hl. cbn [plus bw_loop].
  destruct (bw_more p b) eqn:Hm; [|apply wrote_end; auto].
  destruct (bw_iter p b) as [p1 b1] eqn:Hi.
  apply (wrote_iter p b p1 b1 He Hm Hl Hi).
  - intro He1. pose proof (bw_iter_spec p b Hm Hl) as Hs. rewrite Hi, He1 in Hs.
    destruct Hs as (L1 & N1 & _ & _).
    destruct (bw_more p1 b1) eqn:Hm1; [|apply wrote_end; auto].
    destruct (bw_iter p1 b1) as [p2 b2] eqn:Hi1.
    apply (wrote_iter p1 b1 p2 b2 He1 Hm1 L1 Hi1).
    + intro He2. pose proof (bw_iter_spec p1 b1 Hm1 L1) as Hs. rewrite Hi1, He2 in Hs.
      destruct Hs as (L2 & N2 & _ & Z2). rewrite (Z2 N1) in *.
      assert (Hm2 : bw_more [] b2 = false) by (unfold bw_more; cbn; reflexivity).
      rewrite Hm2. apply wrote_end; auto.
    + intros x Hx. rewrite (bw_more_err _ _ _ Hx). apply bw_end_err. exact Hx.
  - intros x Hx. rewrite (bw_more_err _ _ _ Hx). apply bw_end_err. exact Hx.
Qed.

(** The fuel of [bw_write] is never the reason for its result. *)
Lemma bw_loop_fuel n p b : length (bbuf b) <= bufsize -> bw_loop (3 + n) p b = bw_loop 3 p b.
Proof.
  intros Hl. cbn [plus bw_loop].
  destruct (bw_more p b) eqn:Hm; [|reflexivity].
  destruct (bw_iter p b) as [p1 b1] eqn:Hi.
  destruct (bw_more p1 b1) eqn:Hm1; [|reflexivity].
  destruct (bw_iter p1 b1) as [p2 b2] eqn:Hi1.
  assert (Hm2 : bw_more p2 b2 = false); [|rewrite Hm2; reflexivity].
  assert (He1 : berr b1 = None).
  { unfold bw_more in Hm1. destruct (berr b1); [rewrite andb_false_r in Hm1; discriminate|reflexivity]. }
  pose proof (bw_iter_spec p b Hm Hl) as Hs. rewrite Hi, He1 in Hs. destruct Hs as (L1 & N1 & _ & _).
  pose proof (bw_iter_spec p1 b1 Hm1 L1) as Hs. rewrite Hi1 in Hs. destruct Hs as (L2 & S2).
  destruct (berr b2) eqn:He2; [eapply bw_more_err; exact He2|].
  destruct S2 as (_ & _ & Z2). rewrite (Z2 N1). reflexivity.
Qed.

Lemma bw_write_spec p b : berr b = None -> length (bbuf b) <= bufsize -> wrote p b (bw_write p b).
Proof. apply (bw_loop_spec 0). Qed.

(** ** Shared connections *)
Definition locked (p : pc) : bool := match p with Writing _ _ | InFlush _ => true | _ => false end.
Definition pend (p : pc) : bytes := match p with Writing x _ => x | _ => [] end.
Definition current (p : pc) : option op :=
  match p with Writing _ o | InFlush o | Arming o _ => Some o | Idle => None end.
Definition pending (s : sys) : bytes :=
  match owner s with Some i => pend (at_ (threads s i)) | None => [] end.
Definition sbw (s : sys) : bwriter := cbw (scon s).
Definition all (s : sys) : bytes := concat (map snd (log s)).

Definition inv_lock (s : sys) : Prop := forall i, locked (at_ (threads s i)) = true <-> owner s = Some i.
Definition inv_wire (s : sys) : Prop :=
  length (bbuf (sbw s)) <= bufsize /\
  match berr (sbw s) with
  | None => wire (btr (sbw s)) ++ bbuf (sbw s) ++ pending s = all s
  | Some _ => prefix (wire (btr (sbw s))) (all s)
  end.
Definition inv_order (prog : nat -> list op) (s : sys) : Prop :=
  forall i, exists done, prog i = done ++ todo (threads s i) /\ own i (log s) = flat_map message done.
Definition inv_log (s : sys) : Prop :=
  (forall i o e m, In (i, o, e) (results s) -> In m (message o) -> In (i, m) (log s)) /\
  (forall i o m, current (at_ (threads s i)) = Some o -> In m (message o) -> In (i, m) (log s)).
Definition inv_arm (s : sys) : Prop := forall i o e, at_ (threads s i) = Arming o e -> flushing o = false.
Definition Inv prog s := inv_lock s /\ inv_wire s /\ inv_order prog s /\ inv_log s /\ inv_arm s.

Lemma own_snoc i l j p : own i (l ++ [(j, p)]) = own i l ++ (if j =? i then [p] else []).
Proof.
  unfold own. rewrite filter_app, map_app. cbn [filter fst]. destruct (j =? i); reflexivity.
Qed.

Lemma upd_same {A} (f : nat -> A) i a : upd f i a i = a.
Proof. unfold upd. rewrite Nat.eqb_refl. reflexivity. Qed.
Lemma upd_other {A} (f : nat -> A) i a j : j <> i -> upd f i a j = f j.
Proof. intro H. unfold upd. apply Nat.eqb_neq in H. rewrite H. reflexivity. Qed.

Lemma lock_acquire s i f : inv_lock s -> owner s = None -> locked (at_ (f i)) = true ->
  (forall j, j <> i -> f j = threads s j) ->
  forall j, locked (at_ (f j)) = true <-> Some i = Some j.
Proof.
  intros H Ho Hl Hf j. destruct (Nat.eq_dec j i) as [->|Hj]; [split; auto|].
  rewrite (Hf j Hj). specialize (H j). rewrite Ho in H. split.
  - intro X. apply H in X. discriminate.
  - intro X. injection X as X. congruence.
Qed.

Lemma lock_release s i f : inv_lock s -> owner s = Some i -> locked (at_ (f i)) = false ->
  (forall j, j <> i -> f j = threads s j) ->
  forall j, locked (at_ (f j)) = true <-> None = Some j.
Proof.
  intros H Ho Hl Hf j. split; [|discriminate]. intro X. destruct (Nat.eq_dec j i) as [->|Hj]; [congruence|].
  rewrite (Hf j Hj) in X. apply H in X. congruence.
Qed.

Lemma lock_same s i f : inv_lock s -> locked (at_ (f i)) = locked (at_ (threads s i)) ->
  (forall j, j <> i -> f j = threads s j) ->
  forall j, locked (at_ (f j)) = true <-> owner s = Some j.
Proof.
  intros H Hl Hf j. destruct (Nat.eq_dec j i) as [->|Hj].
  - rewrite Hl. apply H.
  - rewrite (Hf j Hj). apply H.
Qed.


(** The effect of a step, case by case. *)
Definition finished (i : nat) (o : op) (e : option err) (s : sys) (q : pc) (rs : list (nat * op * option err)) : Prop :=
  (q = Idle /\ rs = results s ++ [(i, o, e)]) \/ (q = Arming o e /\ rs = results s /\ flushing o = false).

Inductive effect (i : nat) (s : sys) : sys -> Prop :=
| Ef_fail r l e q rs : at_ (threads s i) = Idle -> todo (threads s i) = OSend r :: l -> outgoing r = inr e ->
    finished i (OSend r) (Some e) s q rs ->
    effect i s (MkSys (scon s) (owner s) (upd (threads s) i (MkThread l q)) (log s) rs)
| Ef_begin o l p : at_ (threads s i) = Idle -> todo (threads s i) = o :: l -> message o = [p] -> owner s = None ->
    effect i s (MkSys (scon s) (Some i) (upd (threads s) i (MkThread l (Writing p o))) (log s ++ [(i, p)]) (results s))
| Ef_flush l : at_ (threads s i) = Idle -> todo (threads s i) = OFlush :: l -> owner s = None ->
    effect i s (MkSys (scon s) (Some i) (upd (threads s) i (MkThread l (InFlush OFlush))) (log s) (results s))
| Ef_iter p o p' b' : at_ (threads s i) = Writing p o -> bw_more p (sbw s) = true -> bw_iter p (sbw s) = (p', b') ->
    effect i s (MkSys (MkConn b' (wtimeout (scon s))) (owner s)
                  (upd (threads s) i (MkThread (todo (threads s i)) (Writing p' o))) (log s) (results s))
| Ef_reply p o b' : at_ (threads s i) = Writing p o -> bw_more p (sbw s) = false ->
    bw_end p (sbw s) = (None, b') -> flushing o = true ->
    effect i s (MkSys (MkConn b' (wtimeout (scon s))) (owner s)
                  (upd (threads s) i (MkThread (todo (threads s i)) (InFlush o))) (log s) (results s))
| Ef_end p o e b' q rs : at_ (threads s i) = Writing p o -> bw_more p (sbw s) = false ->
    bw_end p (sbw s) = (e, b') -> (flushing o = false \/ e <> None) -> finished i o e s q rs ->
    effect i s (MkSys (MkConn b' (wtimeout (scon s))) None
                  (upd (threads s) i (MkThread (todo (threads s i)) q)) (log s) rs)
| Ef_flushed o e b' : at_ (threads s i) = InFlush o -> bw_flush (sbw s) = (e, b') ->
    effect i s (MkSys (MkConn b' (wtimeout (scon s))) None
                  (upd (threads s) i (MkThread (todo (threads s i)) Idle)) (log s) (results s ++ [(i, o, e)]))
| Ef_arm o e : at_ (threads s i) = Arming o e ->
    effect i s (MkSys (MkConn (arm (sbw s) (wtimeout (scon s))) (wtimeout (scon s))) (owner s)
                  (upd (threads s) i (MkThread (todo (threads s i)) Idle)) (log s) (results s ++ [(i, o, e)])).

(** Threads compared point by point. *)
Definition same (s s' : sys) : Prop :=
  scon s = scon s' /\ owner s = owner s' /\ (forall j, threads s j = threads s' j)
  /\ log s = log s' /\ results s = results s'.

Lemma upd_twice {A} (f : nat -> A) i a c j : upd (upd f i a) i c j = upd f i c j.
Proof. unfold upd. destruct (j =? i); reflexivity. Qed.

Ltac same_tac := split; [cbn; try congruence; reflexivity|split; [cbn; try congruence; reflexivity|split;
  [intro; cbn [threads goto logged set_owner with_bw set_con return_];
   rewrite ?upd_same, ?upd_twice; cbn [todo]; reflexivity|split; reflexivity]]].

Lemma step_effect i s s' : step_of i s = Some s' -> exists s2, effect i s s2 /\ same s' s2.
Proof.
  intro Hs. unfold step_of in Hs.
  destruct (at_ (threads s i)) as [|p o|o|o e] eqn:Hat.
  - destruct (todo (threads s i)) as [|o l] eqn:Ht; [discriminate|]. destruct o as [r| |x].
    + destruct (outgoing r) as [p|e] eqn:Hr.
      * destruct (owner s) eqn:Ho; [discriminate|]. injection Hs as <-.
        eexists. split; [eapply (Ef_begin i s (OSend r)); eauto; cbn; rewrite Hr; reflexivity|]. same_tac.
      * injection Hs as <-. unfold end_send. cbn [scon goto]. destruct (wtimeout (scon s) =? 0)%Z.
        -- eexists. split; [eapply (Ef_fail i s r l e Idle); eauto; left; split; reflexivity|]. same_tac.
        -- eexists. split; [eapply (Ef_fail i s r l e (Arming (OSend r) (Some e))); eauto; right; split; [reflexivity|split; [reflexivity|assumption || reflexivity]]|]. same_tac.
    + destruct (owner s) eqn:Ho; [discriminate|]. injection Hs as <-.
      eexists. split; [eapply (Ef_flush i s); eauto|]. same_tac.
    + destruct (owner s) eqn:Ho; [discriminate|]. injection Hs as <-.
      eexists. split; [eapply (Ef_begin i s (OReply x)); eauto; reflexivity|]. same_tac.
  - destruct (bw_more p (cbw (scon s))) eqn:Hm.
    + destruct (bw_iter p (cbw (scon s))) as [p' b'] eqn:Hi. injection Hs as <-.
      eexists. split; [eapply (Ef_iter i s p o p' b'); eauto|]. same_tac.
    + destruct (bw_end p (cbw (scon s))) as [e b'] eqn:He.
      assert (Hes : forall r, o = r -> flushing r = false ->
               exists s2, effect i s s2 /\ same (end_send i r e (set_owner None (with_bw b' s))) s2).
      { intros r -> Hf. unfold end_send. cbn [scon set_owner with_bw set_con wtimeout].
        destruct (wtimeout (scon s) =? 0)%Z.
        - eexists. split; [eapply (Ef_end i s p r e b' Idle); eauto; left; split; reflexivity|]. same_tac.
        - eexists. split; [eapply (Ef_end i s p r e b' (Arming r e)); eauto; right; split; [reflexivity|split; [reflexivity|assumption || reflexivity]]|]. same_tac. }
      assert (Hre : forall o', o = o' -> flushing o' = true ->
               match e with None => Some (goto i (MkThread (todo (threads s i)) (InFlush o')) (with_bw b' s))
                          | Some _ => Some (return_ i o' e (set_owner None (with_bw b' s))) end = Some s' ->
               exists s2, effect i s s2 /\ same s' s2).
      { intros o' -> Hf Hs'. destruct e as [e|]; injection Hs' as <-.
        - eexists. split.
          + refine (Ef_end i s p o' (Some e) b' Idle (results s ++ [(i, o', Some e)]) Hat Hm He _ _).
            * right. discriminate.
            * left. split; reflexivity.
          + same_tac.
        - eexists. split; [exact (Ef_reply i s p o' b' Hat Hm He Hf)|]. same_tac. }
      destruct o as [r| |x]; [injection Hs as <-; apply Hes; auto|apply (Hre OFlush); auto|apply (Hre (OReply x)); auto].
  - destruct (bw_flush (cbw (scon s))) as [e b'] eqn:Hf. injection Hs as <-.
    eexists. split; [eapply (Ef_flushed i s o e b'); eauto|]. same_tac.
  - injection Hs as <-. eexists. split; [eapply (Ef_arm i s o e); eauto|]. same_tac.
Qed.

Lemma inv_same prog s s' : same s s' -> Inv prog s' -> Inv prog s.
Proof.
  intros (E1 & E2 & E3 & E4 & E5) (HL & HW & HO & HG & HA). unfold Inv. split; [|split; [|split; [|split]]].
  - intro i. rewrite E3, E2. apply HL.
  - unfold inv_wire, sbw, pending, all in *. rewrite E1, E2, E4. destruct (owner s'); [rewrite E3|]; exact HW.
  - intro i. rewrite E3, E4. apply HO.
  - destruct HG as [G1 G2]. split; intros i; [rewrite E4, E5; apply G1|rewrite E4, E3; apply G2].
  - intro i. rewrite E3. apply HA.
Qed.

Lemma finished_unlocked i o e s q rs : finished i o e s q rs -> locked q = false /\ pend q = [].
Proof. intros [[-> _]|(-> & _ & _)]; auto. Qed.

Lemma effect_lock i s s' : inv_lock s -> effect i s s' -> inv_lock s'.
Proof.
  intros HL He. pose proof (HL i) as Hi.
  destruct He as [r l e q rs Ha Ht Hr Hq|o l p Ha Ht Hp Ho|l Ha Ht Ho|p o p' b' Ha Hm Hb|p o b' Ha Hm Hb Hf|p o e b' q rs Ha Hm Hb Hf Hq|o e b' Ha Hb|o e Ha];
    intro j; cbn [owner threads]; rewrite Ha in Hi; cbn [locked] in Hi.
  - apply finished_unlocked in Hq. apply (lock_same s i _ HL); [rewrite upd_same, Ha; apply Hq|intros; apply upd_other; assumption].
  - apply (lock_acquire s i _ HL Ho); [rewrite upd_same; reflexivity|intros; apply upd_other; assumption].
  - apply (lock_acquire s i _ HL Ho); [rewrite upd_same; reflexivity|intros; apply upd_other; assumption].
  - apply (lock_same s i _ HL); [rewrite upd_same, Ha; reflexivity|intros; apply upd_other; assumption].
  - apply (lock_same s i _ HL); [rewrite upd_same, Ha; reflexivity|intros; apply upd_other; assumption].
  - apply finished_unlocked in Hq. apply (lock_release s i _ HL); [apply Hi; reflexivity|rewrite upd_same; apply Hq|intros; apply upd_other; assumption].
  - apply (lock_release s i _ HL); [apply Hi; reflexivity|rewrite upd_same; reflexivity|intros; apply upd_other; assumption].
  - apply (lock_same s i _ HL); [rewrite upd_same, Ha; reflexivity|intros; apply upd_other; assumption].
Qed.

Lemma pending_other s i th : inv_lock s -> locked (at_ (threads s i)) = false -> pend (at_ th) = [] ->
  forall c l rs, pending (MkSys c (owner s) (upd (threads s) i th) l rs) = pending s.
Proof.
  intros HL Hl Hp c l rs. unfold pending. cbn [owner threads]. destruct (owner s) as [j|] eqn:Ho; [|reflexivity].
  destruct (Nat.eq_dec j i) as [->|Hj]; [|rewrite upd_other by assumption; reflexivity].
  apply HL in Ho. congruence.
Qed.

Lemma all_snoc s c o t i p rs : all (MkSys c o t (log s ++ [(i, p)]) rs) = all s ++ p.
Proof. unfold all. cbn [log]. rewrite map_app, concat_app. cbn. rewrite app_nil_r. reflexivity. Qed.

Lemma pending_own s i : inv_lock s -> locked (at_ (threads s i)) = true -> pending s = pend (at_ (threads s i)).
Proof. intros HL Hl. unfold pending. apply HL in Hl. rewrite Hl. reflexivity. Qed.

Lemma effect_wire i s s' : inv_lock s -> inv_wire s -> effect i s s' -> inv_wire s'.
Proof.
  intros HL [W1 W2] He. pose proof (HL i) as Hi.
  destruct He as [r l e q rs Ha Ht Hr Hq|o l p Ha Ht Hp Ho|l Ha Ht Ho|p o p' b' Ha Hm Hb|p o b' Ha Hm Hb Hf|p o e b' q rs Ha Hm Hb Hf Hq|o e b' Ha Hb|o e Ha];
    unfold inv_wire; unfold sbw at 1 2 3 4 5; cbn [scon cbw]; rewrite Ha in Hi; cbn [locked] in Hi.
  - apply finished_unlocked in Hq. rewrite pending_other; [split; assumption|assumption|rewrite Ha; reflexivity|apply Hq].
  - fold (sbw s). rewrite all_snoc. split; [exact W1|].
    unfold pending. cbn [owner threads]. rewrite upd_same. cbn [at_ pend].
    unfold pending in W2. rewrite Ho in W2. destruct (berr (sbw s)); [apply prefix_app; exact W2|].
    rewrite app_nil_r in W2. rewrite <- W2, <- app_assoc. reflexivity.
  - fold (sbw s). split; [exact W1|]. unfold all in *. cbn [log].
    unfold pending in *. cbn [owner threads]. rewrite upd_same. cbn [at_ pend]. rewrite Ho in W2. exact W2.
  - destruct Hi as [Hi _]. specialize (Hi eq_refl).
    pose proof (bw_iter_spec p (sbw s) Hm W1) as Hs. rewrite Hb in Hs. destruct Hs as [S1 S2].
    split; [exact S1|]. unfold all in *. cbn [log].
    assert (E : pending s = p). { unfold pending. rewrite Hi, Ha. reflexivity. }
    assert (Hn : berr (sbw s) = None).
    { unfold bw_more in Hm. destruct (berr (sbw s)); [rewrite andb_false_r in Hm; discriminate|reflexivity]. }
    rewrite Hn, E in W2. unfold pending. cbn [owner threads]. rewrite Hi, upd_same. cbn [at_ pend].
    destruct (berr b'); [rewrite <- W2; apply S2|]. destruct S2 as (S2 & S3 & _). rewrite S2. cbn [app].
    rewrite S3. exact W2.
  - destruct Hi as [Hi _]. specialize (Hi eq_refl).
    assert (E : pending s = p). { unfold pending. rewrite Hi, Ha. reflexivity. }
    unfold bw_end in Hb. destruct (berr (sbw s)) eqn:Hn; [discriminate|]. injection Hb as <-.
    rewrite E in W2. cbn [bbuf berr btr]. split.
    { rewrite app_length. destruct (bw_more_false _ _ Hm Hn); lia. }
    unfold pending. cbn [owner threads]. rewrite Hi, upd_same. cbn [at_ pend]. unfold all in *. cbn [log].
    rewrite app_nil_r. exact W2.
  - destruct Hi as [Hi _]. specialize (Hi eq_refl).
    assert (E : pending s = p). { unfold pending. rewrite Hi, Ha. reflexivity. }
    rewrite E in W2. unfold pending. cbn [owner]. unfold all in *. cbn [log].
    unfold bw_end in Hb. destruct (berr (sbw s)) eqn:Hn; injection Hb as <- <-; cbn [bbuf berr btr].
    + rewrite Hn. split; assumption.
    + split; [|rewrite app_nil_r; exact W2].
      rewrite app_length. destruct (bw_more_false _ _ Hm Hn); lia.
  - destruct Hi as [Hi _]. specialize (Hi eq_refl).
    assert (E : pending s = []). { unfold pending. rewrite Hi, Ha. reflexivity. }
    rewrite E in W2. unfold pending. cbn [owner]. unfold all in *. cbn [log].
    destruct (berr (sbw s)) as [x|] eqn:Hn.
    + rewrite (bw_flush_fail _ _ Hn) in Hb. injection Hb as <- <-. rewrite Hn. split; assumption.
    + pose proof (bw_flush_spec (sbw s) Hn) as Hs. rewrite Hb in Hs. destruct Hs as (S1 & S2 & S3).
      split; [lia|]. rewrite S1. rewrite app_nil_r in W2. destruct e; [rewrite <- W2; apply S3|].
      destruct S3 as [S3 S4]. rewrite S3, app_nil_r, S4. exact W2.
  - rewrite pending_other; [split; assumption|assumption|rewrite Ha; reflexivity|reflexivity].
Qed.

Lemma effect_order prog i s s' : inv_order prog s -> effect i s s' -> inv_order prog s'.
Proof.
  intros HO He j. destruct (HO j) as (dn & D1 & D2).
  destruct He as [r l e q rs Ha Ht Hr Hq|o l p Ha Ht Hp Ho|l Ha Ht Ho|p o p' b' Ha Hm Hb|p o b' Ha Hm Hb Hf|p o e b' q rs Ha Hm Hb Hf Hq|o e b' Ha Hb|o e Ha];
    cbn [threads log]; (destruct (Nat.eq_dec j i) as [->|Hj];
      [rewrite upd_same; cbn [todo]|rewrite upd_other by assumption]); try (exists dn; auto; fail).
  - exists (dn ++ [OSend r]). rewrite Ht in D1. rewrite <- app_assoc. split; [exact D1|].
    rewrite flat_map_app. cbn. rewrite Hr, D2, app_nil_r. reflexivity.
  - exists (dn ++ [o]). rewrite Ht in D1. rewrite <- app_assoc. split; [exact D1|].
    rewrite own_snoc, Nat.eqb_refl, flat_map_app. cbn. rewrite Hp, D2, app_nil_r. reflexivity.
  - exists dn. split; [exact D1|]. rewrite own_snoc. assert ((i =? j) = false) as -> by (apply Nat.eqb_neq; congruence).
    rewrite app_nil_r. exact D2.
  - exists (dn ++ [OFlush]). rewrite Ht in D1. rewrite <- app_assoc. split; [exact D1|].
    rewrite flat_map_app. cbn. rewrite app_nil_r. exact D2.
Qed.

Lemma effect_log i s s' : inv_log s -> effect i s s' -> inv_log s'.
Proof.
  intros [G1 G2] He.
  assert (K : forall o q, current (at_ (threads s i)) = Some o -> (current q = None \/ current q = Some o) ->
     forall f, f = upd (threads s) i (MkThread (todo (threads s i)) q) ->
     forall j o' m, current (at_ (f j)) = Some o' -> In m (message o') -> In (j, m) (log s)).
  { intros o q H1 H2 f -> j o' m. destruct (Nat.eq_dec j i) as [->|Hj].
    - rewrite upd_same. cbn [at_]. destruct H2 as [H2|H2]; rewrite H2; [discriminate|].
      intros E. injection E as <-. apply G2. exact H1.
    - rewrite upd_other by assumption. apply G2. }
  assert (R : forall o e, (forall m, In m (message o) -> In (i, m) (log s)) ->
     forall j o' e' m, In (j, o', e') (results s ++ [(i, o, e)]) -> In m (message o') -> In (j, m) (log s)).
  { intros o e H j o' e' m Hin Hm. apply in_app_iff in Hin. destruct Hin as [Hin|[Hin|[]]].
    - eapply G1; eassumption.
    - injection Hin as <- <- <-. auto. }
  destruct He as [r l e q rs Ha Ht Hr Hq|o l p Ha Ht Hp Ho|l Ha Ht Ho|p o p' b' Ha Hm Hb|p o b' Ha Hm Hb Hf|p o e b' q rs Ha Hm Hb Hf Hq|o e b' Ha Hb|o e Ha];
    split; cbn [threads log results].
  - destruct Hq as [[-> ->]|(-> & -> & _)]; [|exact G1]. apply R. cbn. rewrite Hr. intros m [].
  - intros j o m. destruct (Nat.eq_dec j i) as [->|Hj]; [|rewrite upd_other by assumption; apply G2].
    rewrite upd_same. cbn [at_]. destruct Hq as [[-> ->]|(-> & -> & _)]; [discriminate|].
    intro E. injection E as <-. cbn. rewrite Hr. intros [].
  - intros j o' e' m H1 H2. apply in_app_iff. left. eapply G1; eassumption.
  - intros j o' m. destruct (Nat.eq_dec j i) as [->|Hj].
    + rewrite upd_same. cbn [at_ current]. intro E. injection E as <-. rewrite Hp. intros [<-|[]].
      apply in_app_iff. right. left. reflexivity.
    + rewrite upd_other by assumption. intros H1 H2. apply in_app_iff. left. eapply G2; eassumption.
  - exact G1.
  - intros j o' m. destruct (Nat.eq_dec j i) as [->|Hj]; [|rewrite upd_other by assumption; apply G2].
    rewrite upd_same. cbn [at_ current]. intro E. injection E as <-. intros [].
  - exact G1.
  - eapply (K o); [rewrite Ha; reflexivity| |reflexivity]. right. reflexivity.
  - exact G1.
  - eapply (K o); [rewrite Ha; reflexivity| |reflexivity]. right. reflexivity.
  - destruct Hq as [[-> ->]|(-> & -> & _)]; [|exact G1]. apply R. intros m. apply G2. rewrite Ha. reflexivity.
  - eapply (K o); [rewrite Ha; reflexivity| |reflexivity]. destruct Hq as [[-> ->]|(-> & -> & _)]; auto.
  - apply R. intros m. apply G2. rewrite Ha. reflexivity.
  - eapply (K o); [rewrite Ha; reflexivity| |reflexivity]. left. reflexivity.
  - apply R. intros m. apply G2. rewrite Ha. reflexivity.
  - eapply (K o); [rewrite Ha; reflexivity| |reflexivity]. left. reflexivity.
Qed.

Lemma effect_arm i s s' : inv_arm s -> effect i s s' -> inv_arm s'.
Proof.
  intros HA He j o0 e0.
  destruct He as [r l e q rs Ha Ht Hr Hq|o l p Ha Ht Hp Ho|l Ha Ht Ho|p o p' b' Ha Hm Hb|p o b' Ha Hm Hb Hf|p o e b' q rs Ha Hm Hb Hf Hq|o e b' Ha Hb|o e Ha];
    cbn [threads]; (destruct (Nat.eq_dec j i) as [->|Hj];
      [rewrite upd_same; cbn [at_]|rewrite upd_other by assumption; apply HA]); try discriminate.
  - destruct Hq as [[-> _]|(-> & _ & Hq)]; [discriminate|]. intro E. injection E as <- <-. exact Hq.
  - destruct Hq as [[-> _]|(-> & _ & Hq)]; [discriminate|]. intro E. injection E as <- <-. exact Hq.
Qed.

Lemma inv_effect prog i s s' : Inv prog s -> effect i s s' -> Inv prog s'.
Proof.
  intros (HL & HW & HO & HG & HA) He. split; [|split; [|split; [|split]]].
  - eapply effect_lock; eassumption.
  - eapply effect_wire; eassumption.
  - eapply effect_order; eassumption.
  - eapply effect_log; eassumption.
  - eapply effect_arm; eassumption.
Qed.

Lemma inv_act prog a s : Inv prog s -> Inv prog (act a s).
Proof.
  intro H. destruct a as [i|d]; cbn [act].
  - destruct (step_of i s) as [s'|] eqn:Hs; [|exact H].
    destruct (step_effect i s s' Hs) as (s2 & He & Hsm). eapply inv_same; [exact Hsm|]. eapply inv_effect; eassumption.
  - exact H.
Qed.

Lemma inv_run prog sch : forall s, Inv prog s -> Inv prog (run sch s).
Proof. induction sch as [|a sch IH]; intros s H; [exact H|]. cbn. apply IH, inv_act, H. Qed.

Lemma inv_start tmo t prog : wire t = [] -> Inv prog (start tmo t prog).
Proof.
  intro H. split; [|split; [|split; [|split]]].
  - intro i. cbn. split; discriminate.
  - split; [cbn; lia|]. cbn. rewrite H. reflexivity.
  - intro i. exists []. auto.
  - split; [intros i o e m []|]. intros i o m. cbn. discriminate.
  - intros i o e. cbn. discriminate.
Qed.

(** ** C13 - C15 *)
Lemma shared_order tmo t prog sch : wire t = [] ->
  let s := run sch (start tmo t prog) in
  exists order, prefix (on_wire (scon s)) (concat (map snd order))
    /\ forall i, exists done, prog i = done ++ todo (threads s i) /\ own i order = flat_map message done.
Proof.
  intros Ht s. destruct (inv_run prog sch _ (inv_start tmo t prog Ht)) as (HL & HW & HO & HG & _). fold s in HL, HW, HO, HG.
  exists (log s). split; [|exact HO]. destruct HW as [_ HW]. unfold on_wire. change (cbw (scon s)) with (sbw s). change (concat (map snd (log s))) with (all s).
  destruct (berr (sbw s)); [exact HW|]. rewrite <- HW. eexists. reflexivity.
Qed.

Lemma flush_complete tmo t prog sch i s' o : wire t = [] ->
  let s := run sch (start tmo t prog) in
  step_of i s = Some s' -> results s' = results s ++ [(i, o, None)] -> flushing o = true ->
  exists order, on_wire (scon s') = concat (map snd order) /\ unsent (scon s') = []
    /\ (forall j o' e m, In (j, o', e) (results s') -> In m (message o') -> In (j, m) order)
    /\ forall j, exists done, prog j = done ++ todo (threads s' j) /\ own j order = flat_map message done.
Proof.
  intros Ht s Hs Hr Hf.
  pose proof (inv_run prog sch _ (inv_start tmo t prog Ht)) as HI. fold s in HI.
  destruct (step_effect i s s' Hs) as (s2 & He & Hsm).
  pose proof (inv_effect prog i s s2 HI He) as HI2.
  assert (HI' : Inv prog s') by (eapply inv_same; eassumption).
  destruct HI' as (_ & _ & HO & HG & _). exists (log s').
  assert (Hw : on_wire (scon s') = concat (map snd (log s')) /\ unsent (scon s') = []).
  { destruct HI as (HL & [W1 W2] & _ & _ & HA). pose proof (HL i) as Hi. destruct Hsm as (E1 & _ & _ & E4 & E5).
    rewrite E1, E4. rewrite E5 in Hr. unfold on_wire, unsent. clear HI2 HO HG E1 E4 E5.
    destruct He as [r l e q rs Ha Ht' Hr' Hq|o2 l p Ha Ht' Hp Ho|l Ha Ht' Ho|p o2 p' b' Ha Hm Hb|p o2 b' Ha Hm Hb Hf'|p o2 e b' q rs Ha Hm Hb Hf' Hq|o2 e b' Ha Hb|o2 e Ha]; cbn [results scon cbw log] in *.
    - exfalso. destruct Hq as [[_ ->]|(_ & -> & _)].
      + apply app_inj_tail in Hr. destruct Hr as [_ Hr]. discriminate.
      + rewrite <- app_nil_r in Hr at 1. apply app_inv_head in Hr. discriminate.
    - exfalso. rewrite <- app_nil_r in Hr at 1. apply app_inv_head in Hr. discriminate.
    - exfalso. rewrite <- app_nil_r in Hr at 1. apply app_inv_head in Hr. discriminate.
    - exfalso. rewrite <- app_nil_r in Hr at 1. apply app_inv_head in Hr. discriminate.
    - exfalso. rewrite <- app_nil_r in Hr at 1. apply app_inv_head in Hr. discriminate.
    - exfalso. destruct Hq as [[_ ->]|(_ & -> & _)].
      + apply app_inj_tail in Hr. destruct Hr as [_ Hr]. injection Hr as -> ->.
        destruct Hf' as [Hf'|Hf']; congruence.
      + rewrite <- app_nil_r in Hr at 1. apply app_inv_head in Hr. discriminate.
    - apply app_inj_tail in Hr. destruct Hr as [_ Hr]. injection Hr as -> ->.
      rewrite Ha in Hi. destruct Hi as [Hi _]. specialize (Hi eq_refl).
      unfold pending in W2. rewrite Hi, Ha in W2. cbn [pend] in W2. rewrite app_nil_r in W2.
      destruct (berr (sbw s)) as [x|] eqn:Hn.
      + rewrite (bw_flush_fail _ _ Hn) in Hb. discriminate.
      + pose proof (bw_flush_spec (sbw s) Hn) as Hsp. rewrite Hb in Hsp. destruct Hsp as (_ & _ & S3 & S4).
        split; [rewrite S4; exact W2|exact S3].
    - apply app_inj_tail in Hr. destruct Hr as [_ Hr]. injection Hr as -> ->.
      apply HA in Ha. congruence. }
  destruct Hw as [Hw Hu]. split; [exact Hw|]. split; [exact Hu|]. split; [apply HG|exact HO].
Qed.

(** *** Failures are sticky *)
Lemma effect_failed i s s' x : effect i s s' -> berr (sbw s) = Some x ->
  berr (sbw s') = Some x /\ wire (btr (sbw s')) = wire (btr (sbw s)) /\ unsent (scon s') = unsent (scon s).
Proof.
  intros He Hx. unfold unsent.
  destruct He as [r l e q rs Ha Ht Hr Hq|o l p Ha Ht Hp Ho|l Ha Ht Ho|p o p' b' Ha Hm Hb|p o b' Ha Hm Hb Hf|p o e b' q rs Ha Hm Hb Hf Hq|o e b' Ha Hb|o e Ha];
    unfold sbw in *; cbn [scon cbw] in *; auto.
  - rewrite (bw_more_err _ _ _ Hx) in Hm. discriminate.
  - rewrite (bw_end_err _ _ _ Hx) in Hb. discriminate.
  - rewrite (bw_end_err _ _ _ Hx) in Hb. injection Hb as <- <-. auto.
  - rewrite (bw_flush_fail _ _ Hx) in Hb. injection Hb as <- <-. auto.
Qed.

Definition inv_fail (s : sys) : Prop :=
  (forall i o e, In (i, o, Some e) (results s) -> touching o -> berr (sbw s) <> None) /\
  (forall i o e, at_ (threads s i) = Arming o (Some e) -> touching o -> berr (sbw s) <> None).

Lemma effect_fail i s s' : inv_fail s -> effect i s s' -> inv_fail s'.
Proof.
  intros [F1 F2] He.
  assert (M : berr (sbw s) <> None -> berr (sbw s') <> None).
  { intro H. destruct (berr (sbw s)) as [x|] eqn:Hx; [|congruence].
    destruct (effect_failed i s s' x He Hx) as [-> _]. discriminate. }
  assert (R : forall o e, (forall x, e = Some x -> touching o -> berr (sbw s') <> None) ->
     forall j o' e', In (j, o', Some e') (results s ++ [(i, o, e)]) -> touching o' -> berr (sbw s') <> None).
  { intros o e H j o' e' Hin Ht. apply in_app_iff in Hin. destruct Hin as [Hin|[Hin|[]]].
    - apply M. eapply F1; eassumption.
    - injection Hin as <- <- ->. eauto. }
  assert (P : forall j o' e', at_ (threads s j) = Arming o' (Some e') -> touching o' -> berr (sbw s') <> None).
  { intros j o' e' H1 H2. apply M. eapply F2; eassumption. }
  assert (G1 : forall j o e, In (j, o, Some e) (results s) -> touching o -> berr (sbw s') <> None).
  { intros j o e H1 H2. apply M. eapply F1; eassumption. }
  clear F1 F2.
  destruct He as [r l e q rs Ha Ht Hr Hq|o l p Ha Ht Hp Ho|l Ha Ht Ho|p o p' b' Ha Hm Hb|p o b' Ha Hm Hb Hf|p o e b' q rs Ha Hm Hb Hf Hq|o e b' Ha Hb|o e Ha];
    split; cbn [threads results]; try exact G1;
    try (intros j o' e'; destruct (Nat.eq_dec j i) as [->|Hj];
         [rewrite upd_same; cbn [at_]; try discriminate|rewrite upd_other by assumption; apply P]).
  - assert (Hnt : ~ touching (OSend r)).
    { intros [X|X]; [discriminate|]. cbn in X. rewrite Hr in X. congruence. }
    destruct Hq as [[-> ->]|(-> & -> & _)]; [|exact G1]. apply R. intros x _ X. contradiction.
  - assert (Hnt : ~ touching (OSend r)).
    { intros [X|X]; [discriminate|]. cbn in X. rewrite Hr in X. congruence. }
    destruct Hq as [[-> ->]|(-> & -> & _)]; [discriminate|]. intro E. injection E as <- <-. intro X. contradiction.
  - assert (He : forall x, e = Some x -> berr b' <> None).
    { intros x ->. unfold bw_end in Hb. destruct (berr (sbw s)) eqn:E; [|discriminate]. injection Hb as -> <-. congruence. }
    destruct Hq as [[-> ->]|(-> & -> & _)]; [|exact G1]. apply R. intros x Hx _. exact (He x Hx).
  - assert (He : forall x, e = Some x -> berr b' <> None).
    { intros x ->. unfold bw_end in Hb. destruct (berr (sbw s)) eqn:E; [|discriminate]. injection Hb as -> <-. congruence. }
    destruct Hq as [[-> ->]|(-> & -> & _)]; [discriminate|]. intro E. injection E as <- ->. intros _. exact (He e' eq_refl).
  - apply R. intros x -> _. unfold sbw. cbn [scon cbw]. destruct (berr (sbw s)) as [y|] eqn:Hn.
    + rewrite (bw_flush_fail _ _ Hn) in Hb. injection Hb as <- <-. congruence.
    + pose proof (bw_flush_spec (sbw s) Hn) as Hs. rewrite Hb in Hs. destruct Hs as [-> _]. discriminate.
  - apply R. intros x -> Ht. eapply P; eassumption.
Qed.

Lemma inv_fail_same s s' : same s s' -> inv_fail s' -> inv_fail s.
Proof.
  intros (E1 & E2 & E3 & E4 & E5) [F1 F2]. unfold inv_fail, sbw. rewrite E1, E5. split; [exact F1|].
  intros i. rewrite E3. apply F2.
Qed.

Lemma inv_fail_run sch : forall s, inv_fail s -> inv_fail (run sch s).
Proof.
  induction sch as [|a sch IH]; intros s H; [exact H|]. cbn. apply IH. destruct a as [i|d]; cbn [act]; [|exact H].
  destruct (step_of i s) as [s'|] eqn:Hs; [|exact H].
  destruct (step_effect i s s' Hs) as (s2 & He & Hsm). eapply inv_fail_same; [exact Hsm|]. eapply effect_fail; eassumption.
Qed.

Definition stuck_after (s0 s : sys) (x : err) : Prop :=
  failure (scon s) = Some x /\ on_wire (scon s) = on_wire (scon s0)
  /\ (forall i o, at_ (threads s i) = Arming o None -> at_ (threads s0 i) = Arming o None)
  /\ exists new, results s = results s0 ++ new
     /\ forall i o, In (i, o, None) new -> at_ (threads s0 i) = Arming o None.

Lemma stuck_step s0 x i s s' : stuck_after s0 s x -> step_of i s = Some s' -> stuck_after s0 s' x.
Proof.
  intros (F & W & T & new & R & N) Hs. destruct (step_effect i s s' Hs) as (s2 & He & (E1 & _ & E3 & _ & E5)).
  unfold stuck_after, failure, on_wire in *. destruct (effect_failed i s s2 x He F) as (F' & W' & _). unfold sbw in F', W'.
  split; [rewrite E1; exact F'|]. split; [rewrite E1, W'; exact W|].
  assert (Q : (forall o, at_ (threads s2 i) = Arming o None -> False)
              /\ (results s2 = results s \/ exists o e, results s2 = results s ++ [(i, o, e)]
                  /\ (e = None -> at_ (threads s0 i) = Arming o None))).
  { clear E1 E3 E5 F' W'. 
    destruct He as [r l e q rs Ha Ht Hr Hq|o l p Ha Ht Hp Ho|l Ha Ht Ho|p o p' b' Ha Hm Hb|p o b' Ha Hm Hb Hf|p o e b' q rs Ha Hm Hb Hf Hq|o e b' Ha Hb|o e Ha];
      cbn [threads results]; rewrite upd_same; cbn [at_].
    - destruct Hq as [[-> ->]|(-> & -> & _)]; (split; [discriminate|]); [right|left; reflexivity].
      eexists. eexists. split; [reflexivity|]. discriminate.
    - split; [discriminate|auto].
    - split; [discriminate|auto].
    - split; [discriminate|auto].
    - split; [discriminate|auto].
    - change (cbw (scon s)) with (sbw s) in F. rewrite (bw_end_err _ _ _ F) in Hb. injection Hb as <- <-.
      destruct Hq as [[-> ->]|(-> & -> & _)]; (split; [discriminate|]); [right|left; reflexivity].
      eexists. eexists. split; [reflexivity|]. discriminate.
    - change (cbw (scon s)) with (sbw s) in F. rewrite (bw_flush_fail _ _ F) in Hb. injection Hb as <- <-.
      split; [discriminate|]. right. eexists. eexists. split; [reflexivity|]. discriminate.
    - split; [discriminate|]. right. eexists. eexists. split; [reflexivity|]. intros ->. apply T. exact Ha. }
  destruct Q as [Q1 Q2]. split.
  - intros j o Hj. rewrite E3 in Hj. destruct (Nat.eq_dec j i) as [->|Hji]; [exfalso; eapply Q1; exact Hj|].
    apply T. assert (Eo : threads s2 j = threads s j); [|rewrite <- Eo; exact Hj].
    clear -He Hji. destruct He; cbn [threads]; apply upd_other; assumption.
  - rewrite E5. destruct Q2 as [Q2|(o & e & Q2 & Q3)]; rewrite Q2, R.
    + exists new. auto.
    + exists (new ++ [(i, o, e)]). rewrite <- app_assoc. split; [reflexivity|].
      intros j o' Hin. apply in_app_iff in Hin. destruct Hin as [Hin|[Hin|[]]]; [auto|].
      injection Hin as <- <- ->. auto.
Qed.

Lemma stuck_run s0 x sch : forall s, stuck_after s0 s x -> stuck_after s0 (run sch s) x.
Proof.
  induction sch as [|a sch IH]; intros s H; [exact H|]. cbn. apply IH. destruct a as [i|d]; cbn [act].
  - destruct (step_of i s) as [s'|] eqn:Hs; [|exact H]. eapply stuck_step; eassumption.
  - exact H.
Qed.

Lemma sticky tmo t prog sch i o e : let s := run sch (start tmo t prog) in
  In (i, o, Some e) (results s) -> touching o ->
  forall sch', let s' := run sch' s in
  on_wire (scon s') = on_wire (scon s) /\ exists new, results s' = results s ++ new
    /\ forall j o', In (j, o', None) new -> at_ (threads s j) = Arming o' None.
Proof.
  intros s Hin Ht sch' s'.
  assert (HF : inv_fail s). { apply inv_fail_run. split; [intros ? ? ? []|discriminate]. }
  destruct HF as [F1 _]. specialize (F1 i o e Hin Ht).
  destruct (berr (sbw s)) as [x|] eqn:Hx; [|congruence].
  assert (H0 : stuck_after s s x).
  { split; [exact Hx|]. split; [reflexivity|]. split; [auto|]. exists []. rewrite app_nil_r. split; [reflexivity|]. intros ? ? []. }
  destruct (stuck_run s x sch' s H0) as (_ & W & _ & N). split; assumption.
Qed.

(** *** The lock never gets lost *)
Lemma shared_progress tmo t prog sch i : wire t = [] ->
  let s := run sch (start tmo t prog) in busy s i -> exists j, step_of j s <> None.
Proof.
  intros Ht s Hb. destruct (inv_run prog sch _ (inv_start tmo t prog Ht)) as (HL & _). fold s in HL.
  destruct (owner s) as [j|] eqn:Ho.
  - exists j. pose proof (proj2 (HL j) Ho) as Hl. unfold step_of.
    destruct (at_ (threads s j)) as [|p o|o|o e] eqn:Ha; try discriminate.
    + destruct (bw_more p (cbw (scon s))); [destruct (bw_iter _ _); discriminate|].
      destruct (bw_end _ _) as [[e|] b']; destruct o; discriminate.
    + destruct (bw_flush _) as [e b']. discriminate.
  - exists i. unfold step_of. destruct Hb as [Hb|Hb].
    + destruct (at_ (threads s i)) as [|p o|o|o e] eqn:Ha.
      * rewrite Ho. destruct (todo (threads s i)) as [|[r| |x] l]; [congruence| | |]; try discriminate.
        destruct (outgoing r); discriminate.
      * assert (X : locked (at_ (threads s i)) = true) by (rewrite Ha; reflexivity). apply HL in X. congruence.
      * assert (X : locked (at_ (threads s i)) = true) by (rewrite Ha; reflexivity). apply HL in X. congruence.
      * discriminate.
    + destruct (at_ (threads s i)) as [|p o|o|o e] eqn:Ha; [congruence| | |].
      * assert (X : locked (at_ (threads s i)) = true) by (rewrite Ha; reflexivity). apply HL in X. congruence.
      * assert (X : locked (at_ (threads s i)) = true) by (rewrite Ha; reflexivity). apply HL in X. congruence.
      * discriminate.
Qed.
