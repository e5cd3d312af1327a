(** Decoding arbitrary bytes with the fixed-size decoders: every field comes
    from its place in the input, whatever the padding holds. *)
From Coq Require Import Compare_dec ZifyBool ZifyNat ZifyN.
From Verif Require Export FixedFacts RelaySpec.
Ltac Zify.zify_post_hook ::= Z.div_mod_to_equations.

(** [f] turns the next [w] bytes, whatever they are, into [g]. *)
Definition anyi {S} (P : S -> Prop) (f : step S) (w : nat) (g : bytes -> S -> S) : Prop :=
  forall s inp, P s -> w <= length inp -> f s inp = Res (g inp s) w None (skipn w inp).
Definition any {S} (f : step S) (w : nat) (g : bytes -> S -> S) : Prop := anyi (fun _ => True) f w g.

Lemma any_take {S} P k (upd : bytes -> S -> S) : anyi P (take_full k upd) k (fun b s => upd (firstn k b) s).
Proof.
  intros s inp _ H. unfold take_full. destruct (Nat.ltb_spec (length inp) k) as [L|L]; [lia|].
  reflexivity.
Qed.

Lemma any_fu {S} P k (set : N -> S -> S) : anyi P (fu k set) k (fun b s => set (be_dec (firstn k b)) s).
Proof. apply any_take. Qed.

Lemma any_fpad {S} (P : S -> Prop) k : anyi P (fpad k) k (fun _ s => s).
Proof. apply (any_take P k (fun _ s => s)). Qed.

Lemma chunks_firstn w k : forall l, chunks w k (firstn (w * k) l) = chunks w k l.
Proof.
  induction k as [|k IH]; intro l; [reflexivity|]. cbn [chunks]. f_equal.
  - rewrite firstn_firstn. f_equal. lia.
  - rewrite <- (IH (skipn w l)). f_equal. rewrite skipn_firstn_comm. f_equal. lia.
Qed.

Lemma any_fus {S} P w k (set : list N -> S -> S) :
  anyi P (fus w k set) (w * k) (fun b s => set (map be_dec (chunks w k b)) s).
Proof.
  intros s inp H L. unfold fus. rewrite (any_take P (w * k) _ s inp H L).
  rewrite chunks_firstn. reflexivity.
Qed.

Lemma any_fslice {S} (get : S -> bytes) (set : bytes -> S -> S) k :
  anyi (fun s => length (get s) = k) (fslice get set) k (fun b s => set (firstn k b) s).
Proof. intros s inp H L. unfold fslice, fbytes. rewrite H. apply (any_take (fun _ => True)); auto. Qed.

Lemma any_sub {S A} (P : A -> Prop) (get : S -> A) (set : A -> S -> S) rd w g :
  anyi P rd w g -> anyi (fun s => P (get s)) (sub get set rd) w (fun b s => set (g b (get s)) s).
Proof. intros H s inp HP L. unfold sub. rewrite !(H _ _ HP L). reflexivity. Qed.

Lemma any_nil {S} (P : S -> Prop) : anyi P (seqr []) 0 (fun _ s => s).
Proof. intros s inp _ _. reflexivity. Qed.

Lemma any_cons {S} (P Q : S -> Prop) (f : step S) fs w ws g h :
  anyi P f w g -> (forall b s, P s -> Q (g b s)) -> anyi Q (seqr fs) ws h ->
  anyi P (seqr (f :: fs)) (w + ws) (fun b s => h (skipn w b) (g b s)).
Proof.
  intros Hf HQ Hs s inp HP L. cbn [seqr]. rewrite !(Hf s inp HP) by lia. cbn [fail val rest cnt].
  rewrite !(Hs _ _ (HQ inp s HP)) by (rewrite skipn_length; lia). cbn [fail val rest cnt].
  rewrite skipn_skipn_add. reflexivity.
Qed.

Lemma any_step {S} (f : step S) fs w ws g h :
  any f w g -> any (seqr fs) ws h ->
  any (seqr (f :: fs)) (w + ws) (fun b s => h (skipn w b) (g b s)).
Proof. intros Hf Hs. apply (any_cons _ (fun _ => True)); auto. Qed.

Lemma any_impl {S} (P Q : S -> Prop) (f : step S) w g : (forall s, Q s -> P s) -> anyi P f w g -> anyi Q f w g.
Proof. intros HQ H s inp HP L. apply H; auto. Qed.

(** ** What stands in the input *)
(** The bytes of the input that a field occupies. *)
Definition piece (inp : bytes) (off w : nat) : bytes := firstn w (skipn off inp).

Lemma piece_length inp off w : off + w <= length inp -> length (piece inp off w) = w.
Proof. intro H. unfold piece. rewrite firstn_length, skipn_length. lia. Qed.

Lemma piece_fits inp off w : off + w <= length inp -> fits w (be_dec (piece inp off w)).
Proof. intro H. apply be_dec_fits, piece_length, H. Qed.

Lemma nth_error_skip {A} (l : list A) : forall n p, nth_error (skipn n l) p = nth_error l (n + p).
Proof. induction l as [|a l IH]; intros [|n] p; cbn; auto. destruct p; reflexivity. Qed.

Lemma nth_error_firstn_lt {A} : forall (l : list A) n p, p < n -> nth_error (firstn n l) p = nth_error l p.
Proof.
  induction l as [|a l IH]; intros [|n] p H; try lia; cbn; [reflexivity|].
  destruct p; cbn; [reflexivity|]. apply IH. lia.
Qed.

Lemma piece_at inp off w p : p < w -> nth_error (piece inp off w) p = nth_error inp (off + p).
Proof. intro H. unfold piece. rewrite nth_error_firstn_lt by exact H. apply nth_error_skip. Qed.

Lemma fixtext_full w s : length s = w -> fixtext w s = s.
Proof.
  intros <-. unfold fixtext. rewrite firstn_all, Nat.sub_diag. cbn. apply app_nil_r.
Qed.

Lemma carries_render inp off i : good i -> piece inp off (width i) = render i -> carries inp off i.
Proof. intros G E p H. rewrite <- (piece_at inp off (width i) p H), E. apply render_byte; assumption. Qed.

Lemma carries_num inp off w : off + w <= length inp -> carries inp off (Num w (be_dec (piece inp off w))).
Proof.
  intro H. apply carries_render; [exact I|]. cbn [width render].
  rewrite <- (piece_length inp off w H) at 2. symmetry. apply be_enc_dec.
Qed.

Lemma carries_text inp off w : off + w <= length inp -> carries inp off (Text w (piece inp off w)).
Proof.
  intro H. apply carries_render; [exact I|]. cbn [width render].
  symmetry. apply fixtext_full, piece_length, H.
Qed.

Lemma carries_raw inp off w : off + w <= length inp -> carries inp off (Raw w (piece inp off w)).
Proof. intro H. apply carries_render; [apply piece_length, H|reflexivity]. Qed.

Lemma shown_nil inp : shown inp [].
Proof. intros ? ? []. Qed.
Lemma shown_pad inp off w t : shown inp t -> shown inp ((off, Zero w) :: t).
Proof. intros H o i [E|Hi] Hp; [injection E as <- <-; discriminate Hp|]. apply H; assumption. Qed.
Lemma shown_num inp off w t : off + w <= length inp -> shown inp t ->
  shown inp ((off, Num w (be_dec (piece inp off w))) :: t).
Proof. intros L H o i [E|Hi] Hp; [injection E as <- <-; apply carries_num, L|]. apply H; assumption. Qed.
Lemma shown_text inp off w t : off + w <= length inp -> shown inp t ->
  shown inp ((off, Text w (piece inp off w)) :: t).
Proof. intros L H o i [E|Hi] Hp; [injection E as <- <-; apply carries_text, L|]. apply H; assumption. Qed.
Lemma shown_raw inp off w t : off + w <= length inp -> shown inp t ->
  shown inp ((off, Raw w (piece inp off w)) :: t).
Proof. intros L H o i [E|Hi] Hp; [injection E as <- <-; apply carries_raw, L|]. apply H; assumption. Qed.

Lemma skipn_skipn' {A} n m (l : list A) : skipn n (skipn m l) = skipn (m + n) l.
Proof. apply skipn_skipn_add. Qed.

Lemma piece_0 inp w : firstn w inp = piece inp 0 w.
Proof. reflexivity. Qed.

(** The message described by the bytes [inp], for one kind. *)
Definition reads (k : kind) : Prop := forall old inp, size k <= length inp ->
  exists m, dec k old inp = Res m (size k) None (skipn (size k) inp)
         /\ wf k m /\ normal k m = m /\ shown inp (layout k m).

Ltac any_elem := first [ apply any_fu | apply any_fpad | apply any_fus | apply any_take ].
Ltac any_seq := repeat first [ apply any_nil | eapply any_step; [ any_elem | ] ].

Arguments piece : simpl never.

Ltac tidy inp :=
  cbn [chunks map]; rewrite ?skipn_skipn'; cbn [Nat.add Nat.mul];
  repeat match goal with
  | |- context [firstn ?w (skipn ?o inp)] => change (firstn w (skipn o inp)) with (piece inp o w)
  | |- context [firstn ?w inp] => change (firstn w inp) with (piece inp 0 w)
  end.

Ltac show :=
  repeat first [ apply shown_nil | apply shown_pad
               | apply shown_num; [lia|] | apply shown_text; [lia|] | apply shown_raw; [lia|] ].

Ltac fitting := repeat (first [ exact I | apply Forall_nil | apply piece_fits; lia
                              | apply Forall_cons | reflexivity | split ]).

Ltac simple_reads d :=
  let old := fresh "old" in let inp := fresh "inp" in let L := fresh "L" in let E := fresh "E" in
  let Q := fresh "Q" in
  intros old inp L; cbn [size] in L; cbn [msg] in old;
  eassert (E : any d _ _) by (unfold d; any_seq);
  pose proof (E old inp Logic.I) as Q; specialize (Q L); clear E;
  cbn [size Nat.mul Nat.add] in *;
  eexists; split; [exact Q|]; clear Q; destruct old;
  tidy inp; split; [|split; [reflexivity|]].

Lemma reads_Header : reads KHeader.
Proof. simple_reads dec_Header; [repeat split; cbn; fitting|cbn; show]. Qed.
Lemma reads_SwitchFeatures : reads KSwitchFeatures.
Proof. simple_reads dec_SwitchFeatures; [repeat split; cbn; fitting|cbn; show]. Qed.
Lemma reads_SwitchConfig : reads KSwitchConfig.
Proof. simple_reads dec_SwitchConfig; [repeat split; cbn; fitting|cbn; show]. Qed.
Lemma reads_Experimenter : reads KExperimenter.
Proof. simple_reads dec_Experimenter; [repeat split; cbn; fitting|cbn; show]. Qed.
Lemma reads_RoleRequest : reads KRoleRequest.
Proof. simple_reads dec_RoleRequest; [repeat split; cbn; fitting|cbn; show]. Qed.
Lemma reads_AsyncConfig : reads KAsyncConfig.
Proof. simple_reads dec_AsyncConfig; [repeat split; cbn; fitting|cbn; show]. Qed.
Lemma reads_TableMod : reads KTableMod.
Proof. simple_reads dec_TableMod; [repeat split; cbn; fitting|cbn; show]. Qed.
Lemma reads_TableStats : reads KTableStats.
Proof. simple_reads dec_TableStats; [repeat split; cbn; fitting|cbn; show]. Qed.
Lemma reads_PortStatsRequest : reads KPortStatsRequest.
Proof. simple_reads dec_PortStatsRequest; [repeat split; cbn; fitting|cbn; show]. Qed.
Lemma reads_PortStats : reads KPortStats.
Proof. simple_reads dec_PortStats; [repeat split; cbn; fitting|cbn; show]. Qed.
Lemma reads_QueueStatsRequest : reads KQueueStatsRequest.
Proof. simple_reads dec_QueueStatsRequest; [repeat split; cbn; fitting|cbn; show]. Qed.
Lemma reads_QueueStats : reads KQueueStats.
Proof. simple_reads dec_QueueStats; [repeat split; cbn; fitting|cbn; show]. Qed.
Lemma reads_QueueGetConfigRequest : reads KQueueGetConfigRequest.
Proof. simple_reads dec_QueueGetConfigRequest; [repeat split; cbn; fitting|cbn; show]. Qed.
Lemma reads_GroupStatsRequest : reads KGroupStatsRequest.
Proof. simple_reads dec_GroupStatsRequest; [repeat split; cbn; fitting|cbn; show]. Qed.
Lemma reads_BucketCounter : reads KBucketCounter.
Proof. simple_reads dec_BucketCounter; [repeat split; cbn; fitting|cbn; show]. Qed.
Lemma reads_GroupFeatures : reads KGroupFeatures.
Proof. simple_reads dec_GroupFeatures; [repeat split; cbn; fitting|cbn; show]. Qed.
Lemma reads_MeterConfigRequest : reads KMeterConfigRequest.
Proof. simple_reads dec_MeterConfigRequest; [repeat split; cbn; fitting|cbn; show]. Qed.
Lemma reads_MeterFeatures : reads KMeterFeatures.
Proof. simple_reads dec_MeterFeatures; [repeat split; cbn; fitting|cbn; show]. Qed.
Lemma reads_MeterBandStats : reads KMeterBandStats.
Proof. simple_reads dec_MeterBandStats; [repeat split; cbn; fitting|cbn; show]. Qed.
Lemma reads_MeterStatsRequest : reads KMeterStatsRequest.
Proof. simple_reads dec_MeterStatsRequest; [repeat split; cbn; fitting|cbn; show]. Qed.
Lemma reads_AggregateStats : reads KAggregateStats.
Proof. simple_reads dec_AggregateStats; [repeat split; cbn; fitting|cbn; show]. Qed.
Lemma reads_MultipartReply : reads KMultipartReply.
Proof. simple_reads dec_MultipartReply; [repeat split; cbn; fitting|cbn; show]. Qed.
Lemma reads_ExperimenterMultipartHeader : reads KExperimenterMultipartHeader.
Proof. simple_reads dec_ExperimenterMultipartHeader; [repeat split; cbn; fitting|cbn; show]. Qed.

(** ** Port, PortStatus, Description *)
Lemma any_finally {S} (P : S -> Prop) (g0 : S -> S) f w g :
  anyi P f w g -> anyi P (finally g0 f) w (fun b s => g0 (g b s)).
Proof. intros H s inp HP L. unfold finally. rewrite !(H _ _ HP L). reflexivity. Qed.

Lemma any_pre {S} (P Q : S -> Prop) (g0 : S -> S) f w g :
  (forall s, P s -> Q (g0 s)) -> anyi Q f w g -> anyi P (pre g0 f) w (fun b s => g b (g0 s)).
Proof. intros HQ H s inp HP L. unfold pre. apply H; auto. Qed.

Lemma any_with_local {L S} (l : L) (f : step (L * S)) w g :
  any f w g -> any (with_local l f) w (fun b s => snd (g b (l, s))).
Proof. intros H s inp HP Hl. unfold with_local. rewrite !(H _ _ Logic.I Hl). reflexivity. Qed.

Lemma any_andthen_assign {S} (f : step S) w g g0 :
  any f w g -> any (andthen f (fun _ _ => assign g0)) w (fun b s => g0 (g b s)).
Proof.
  intros H s inp HP Hl. unfold andthen. rewrite !(H _ _ HP Hl). cbn. rewrite Nat.add_0_r. reflexivity.
Qed.

(** The port described by 64 bytes. *)
Definition port_of (b : bytes) : Port :=
  MkPort (be_dec (piece b 0 4)) (piece b 8 6) (piece b 16 16) (be_dec (piece b 32 4))
    (be_dec (piece b 36 4)) (be_dec (piece b 40 4)) (be_dec (piece b 44 4)) (be_dec (piece b 48 4))
    (be_dec (piece b 52 4)) (be_dec (piece b 56 4)) (be_dec (piece b 60 4)).

Lemma any_Port : any dec_Port 64 (fun b _ => port_of b).
Proof.
  pose (P := fun s : bytes * Port => length (Port_HWAddr (snd s)) = 6).
  eassert (E : any dec_Port _ _).
  { unfold dec_Port. apply any_with_local.
    apply (any_pre _ P); [intros s _; reflexivity|].
    apply any_finally.
    apply (any_cons P P);
      [refine (any_impl (fun s => True) P _ _ _ _ (any_sub (fun _ => True) _ _ _ _ _ _)); [auto|apply any_fu]
      |intros b s HP; exact HP|].
    apply (any_cons P P); [apply any_fpad|intros b s HP; exact HP|].
    apply (any_cons P (fun _ => True)); [exact (any_sub _ _ _ _ _ _ (any_fslice Port_HWAddr set_Port_HWAddr 6))|auto|].
    repeat first [ apply any_nil
                 | eapply any_step; [ first [ any_elem | apply (any_sub (fun _ => True)); any_elem ] | ] ]. }
  intros s inp _ L. etransitivity; [exact (E s inp Logic.I L)|]. clear E P.
  lazy beta iota zeta delta [fst snd
    set_Port_PortNo set_Port_HWAddr set_Port_Name set_Port_Config set_Port_State set_Port_Curr set_Port_Advertised set_Port_Supported set_Port_Peer set_Port_CurrSpeed set_Port_MaxSpeed Port_PortNo Port_HWAddr Port_Name Port_Config Port_State Port_Curr Port_Advertised Port_Supported Port_Peer Port_CurrSpeed Port_MaxSpeed].
  tidy inp. reflexivity.
Qed.

Lemma port_of_wf b : 64 <= length b -> wf_Port (port_of b).
Proof. intro L. repeat split; cbn [port_of Port_HWAddr]; try (apply piece_fits; lia). apply piece_length; lia. Qed.

Lemma wire_text_full w s : length s = w -> wire_text w s = s.
Proof. intro H. rewrite <- fixtext_wire. apply fixtext_full, H. Qed.

Lemma port_of_normal b : 64 <= length b -> normal_port (port_of b) = port_of b.
Proof. intro L. unfold normal_port. cbn [port_of Port_Name]. rewrite wire_text_full by (apply piece_length; lia). reflexivity. Qed.

Lemma reads_Port : reads KPort.
Proof.
  intros old inp L. cbn [size] in L. exists (port_of inp). split; [apply any_Port; [exact I|exact L]|].
  split; [apply port_of_wf, L|]. split; [apply port_of_normal, L|].
  cbn. show.
Qed.

Lemma piece_skip b n off w : piece (skipn n b) off w = piece b (n + off) w.
Proof. unfold piece. rewrite skipn_skipn'. reflexivity. Qed.

Lemma reads_PortStatus : reads KPortStatus.
Proof.
  intros old inp L. cbn [size] in L. cbn [msg] in old.
  eassert (E : any dec_PortStatus _ _).
  { unfold dec_PortStatus. eapply any_step; [apply any_fu|]. eapply any_step; [apply any_fpad|].
    eapply any_step; [exact (any_sub _ PortStatus_Port set_PortStatus_Port _ _ _ any_Port)|]. apply any_nil. }
  exists (MkPortStatus (be_dec (piece inp 0 1)) (port_of (skipn 8 inp))).
  split.
  { etransitivity; [exact (E old inp Logic.I L)|]. clear E. destruct old. rewrite ?skipn_skipn'. reflexivity. }
  clear E. assert (L2 : 64 <= length (skipn 8 inp)) by (rewrite skipn_length; lia).
  split; [split; [apply piece_fits; lia|apply port_of_wf, L2]|].
  split; [cbn [normal PortStatus_Reason PortStatus_Port]; rewrite port_of_normal by exact L2; reflexivity|].
  unfold port_of. rewrite !piece_skip. cbn. show.
Qed.

Lemma reads_Description : reads KDescription.
Proof.
  intros old inp L. change (size KDescription) with 1056 in *. cbn [msg] in old.
  exists (MkDescription (piece inp 0 256) (piece inp 256 256) (piece inp 512 256) (piece inp 768 32) (piece inp 800 256)).
  split; [|split; [exact I|split]].
  - eassert (E : any dec_Description _ _).
    { unfold dec_Description. apply any_with_local, any_andthen_assign.
      repeat first [ apply any_nil
                   | eapply any_step; [ apply (any_sub (fun _ => True)); any_elem | ] ]. }
    etransitivity; [exact (E old inp Logic.I L)|]. clear E.
    lazy beta iota zeta delta [fst snd set_Description_Manufacturer set_Description_Hardware
      set_Description_Software set_Description_SerialNum set_Description_Datapath
      Description_Manufacturer Description_Hardware Description_Software
      Description_SerialNum Description_Datapath].
    rewrite ?skipn_skipn'. reflexivity.
  - cbn [normal Description_Manufacturer Description_Hardware Description_Software
      Description_SerialNum Description_Datapath].
    rewrite !wire_text_full by (apply piece_length; lia). reflexivity.
  - cbn [layout Description_Manufacturer Description_Hardware Description_Software
      Description_SerialNum Description_Datapath]. show.
Qed.

Lemma reads_all k : reads k.
Proof.
  destruct k.
  - exact reads_Header.
  - exact reads_SwitchFeatures.
  - exact reads_SwitchConfig.
  - exact reads_Experimenter.
  - exact reads_RoleRequest.
  - exact reads_AsyncConfig.
  - exact reads_TableMod.
  - exact reads_TableStats.
  - exact reads_PortStatsRequest.
  - exact reads_PortStats.
  - exact reads_QueueStatsRequest.
  - exact reads_QueueStats.
  - exact reads_QueueGetConfigRequest.
  - exact reads_GroupStatsRequest.
  - exact reads_BucketCounter.
  - exact reads_GroupFeatures.
  - exact reads_MeterConfigRequest.
  - exact reads_MeterFeatures.
  - exact reads_MeterBandStats.
  - exact reads_MeterStatsRequest.
  - exact reads_AggregateStats.
  - exact reads_MultipartReply.
  - exact reads_ExperimenterMultipartHeader.
  - exact reads_Port.
  - exact reads_PortStatus.
  - exact reads_Description.
Qed.

(** ** Consequences *)
Lemma tiles_cover t : forall from size p, tiles from t size = true -> from <= p < size ->
  exists off i, In (off, i) t /\ off <= p < off + width i.
Proof.
  induction t as [|[off i] t IH]; intros from size p T H; cbn [tiles] in T.
  - apply Nat.eqb_eq in T. lia.
  - apply andb_prop in T. destruct T as [T1 T2]. apply Nat.eqb_eq in T1. subst off.
    destruct (Nat.ltb_spec p (from + width i)) as [L|L].
    + exists from, i. split; [left; reflexivity|lia].
    + destruct (IH _ _ p T2) as (o & j & I1 & I2); [lia|]. exists o, j. split; [right; exact I1|exact I2].
Qed.

Lemma to_N_inj x y : Byte.to_N x = Byte.to_N y -> x = y.
Proof. intro H. apply (f_equal Byte.of_N) in H. rewrite !Byte.of_to_N in H. congruence. Qed.

Lemma option_to_N_inj x y : option_map Byte.to_N x = option_map Byte.to_N y -> x = y.
Proof.
  destruct x, y; cbn; intro H; try discriminate H; [|reflexivity].
  injection H as H. apply to_N_inj in H. congruence.
Qed.

Lemma relay_all k old inp m n e r : size k <= length inp ->
  dec k old inp = Res m n e r ->
  length (enc k m) = size k
  /\ (forall p, meaningful (layout k m) p -> nth_error (enc k m) p = nth_error inp p)
  /\ (forall p, p < size k -> ~ meaningful (layout k m) p -> nth_error (enc k m) p = Some x00).
Proof.
  intros L D. destruct (reads_all k old inp L) as (m' & D' & W & _ & SH).
  rewrite D in D'. injection D' as -> _ _ _.
  destruct (layout_all k m' W) as (LN & T & C). split; [exact LN|]. split.
  - intros p (off & i & I1 & I2 & I3). apply option_to_N_inj.
    assert (Hp : p - off < width i) by lia.
    pose proof (C off i I1 _ Hp) as E1. pose proof (SH off i I1 I2 _ Hp) as E2.
    replace (off + (p - off)) with p in * by lia. congruence.
  - intros p Hp Hm. destruct (tiles_cover _ 0 (size k) p T) as (off & i & I1 & I2); [lia|].
    assert (PI : padding i = true).
    { destruct (padding i) eqn:E; [reflexivity|]. exfalso. apply Hm. exists off, i. auto. }
    destruct i; try discriminate PI. cbn [width] in I2.
    assert (Hw : p - off < w) by lia.
    pose proof (C off _ I1 (p - off) Hw) as E1. cbn [item_byte] in E1.
    replace (off + (p - off)) with p in E1 by lia.
    apply option_to_N_inj. rewrite E1. reflexivity.
Qed.

(** Offsets, widths and padding of a layout do not depend on the message. *)
Definition shape (oi : nat * item) : nat * nat * bool := (fst oi, width (snd oi), padding (snd oi)).

Lemma shape_all k (m m' : msg k) : map shape (layout k m) = map shape (layout k m').
Proof. destruct k; reflexivity. Qed.

Lemma meaningful_shape t t' p : map shape t = map shape t' -> meaningful t p -> meaningful t' p.
Proof.
  intros E (off & i & I1 & I2 & I3). apply (in_map shape) in I1. rewrite E in I1.
  apply in_map_iff in I1. destruct I1 as ([o j] & Q & I1). unfold shape in Q. cbn [fst snd] in Q.
  injection Q as -> Q1 Q2. exists off, j. rewrite Q1, Q2. auto.
Qed.

Lemma list_ext {A} : forall l l' : list A, (forall p, nth_error l p = nth_error l' p) -> l = l'.
Proof.
  induction l as [|a l IH]; intros [|b l'] H; [reflexivity|discriminate (H 0)|discriminate (H 0)|].
  f_equal; [injection (H 0); auto|]. apply IH. intro p. exact (H (S p)).
Qed.

Lemma padding_ignored_all k (o1 o2 any : msg k) i1 i2 :
  size k <= length i1 -> size k <= length i2 ->
  (forall p, meaningful (layout k any) p -> nth_error i1 p = nth_error i2 p) ->
  val (dec k o1 i1) = val (dec k o2 i2).
Proof.
  intros L1 L2 H.
  destruct (reads_all k o1 i1 L1) as (m1 & D1 & W1 & N1 & S1).
  destruct (reads_all k o2 i2 L2) as (m2 & D2 & W2 & N2 & S2).
  rewrite D1, D2. cbn [val].
  destruct (relay_all k o1 i1 m1 _ _ _ L1 D1) as (A1 & B1 & C1).
  destruct (relay_all k o2 i2 m2 _ _ _ L2 D2) as (A2 & B2 & C2).
  assert (E : enc k m1 = enc k m2).
  { apply list_ext. intro p. destruct (Nat.ltb_spec p (size k)) as [Lp|Lp].
    - destruct (layout_all k m1 W1) as (_ & T & _).
      destruct (tiles_cover _ 0 (size k) p T) as (off & i & I1 & I2); [lia|].
      destruct (nth_error (enc k m1) p) eqn:X1; cycle 1.
      { apply nth_error_None in X1. lia. }
      destruct (Exists_dec (fun oi => padding (snd oi) = false /\ fst oi <= p < fst oi + width (snd oi))
                  (layout k m1)) as [Y|Y].
      { intros [o j]. cbn [fst snd]. destruct (padding j), (le_lt_dec o p), (lt_dec p (o + width j));
          (left; split; [reflexivity|lia]) || (right; intros [? ?]; (discriminate || lia)). }
      + apply Exists_exists in Y. destruct Y as ([o j] & Y1 & Y2 & Y3). cbn [fst snd] in Y2, Y3.
        assert (M : meaningful (layout k m1) p) by (exists o, j; auto).
        rewrite <- X1, (B1 p M), (B2 p (meaningful_shape _ _ p (shape_all k m1 m2) M)).
        apply H, (meaningful_shape _ _ p (shape_all k m1 any) M).
      + assert (M : ~ meaningful (layout k m1) p).
        { intros (o & j & J1 & J2). apply Y. apply Exists_exists. exists (o, j). cbn. auto. }
        rewrite <- X1, (C1 p Lp M). symmetry. apply (C2 p Lp).
        intro M2. apply M, (meaningful_shape _ _ p (shape_all k m2 m1) M2).
    - rewrite (proj2 (nth_error_None _ _)) by lia. rewrite (proj2 (nth_error_None _ _)) by lia. reflexivity. }
  rewrite <- N1, <- N2. pose proof (roundtrip_all k m1 o1 [] W1) as R1.
  pose proof (roundtrip_all k m2 o1 [] W2) as R2. rewrite E, R2 in R1. injection R1. auto.
Qed.

Lemma relay_exact_all k old inp : size k <= length inp ->
  (forall p, p < size k -> ~ meaningful (layout k old) p -> nth_error inp p = Some x00) ->
  enc k (val (dec k old inp)) = firstn (size k) inp.
Proof.
  intros L Z. destruct (reads_all k old inp L) as (m & D & W & _ & SH).
  destruct (relay_all k old inp m _ _ _ L D) as (A & B & C). rewrite D. cbn [val].
  destruct (layout_all k m W) as (_ & T & _).
  apply list_ext. intro p. destruct (Nat.ltb_spec p (size k)) as [Lp|Lp]; cycle 1.
  { rewrite (proj2 (nth_error_None _ _)) by lia. rewrite (proj2 (nth_error_None _ _)); [reflexivity|].
    rewrite firstn_length. lia. }
  rewrite nth_error_firstn_lt by exact Lp.
  destruct (Exists_dec (fun oi => padding (snd oi) = false /\ fst oi <= p < fst oi + width (snd oi))
              (layout k m)) as [Y|Y].
  { intros [o j]. cbn [fst snd]. destruct (padding j), (le_lt_dec o p), (lt_dec p (o + width j));
      (left; split; [reflexivity|lia]) || (right; intros [? ?]; (discriminate || lia)). }
  - apply Exists_exists in Y. destruct Y as ([o j] & Y1 & Y2 & Y3). cbn [fst snd] in Y2, Y3.
    apply B. exists o, j. auto.
  - assert (M : ~ meaningful (layout k m) p).
    { intros (o & j & J1 & J2). apply Y. apply Exists_exists. exists (o, j). cbn. auto. }
    rewrite (C p Lp M). symmetry. apply Z; [exact Lp|].
    intro M2. apply M, (meaningful_shape _ _ p (shape_all k old m) M2).
Qed.
