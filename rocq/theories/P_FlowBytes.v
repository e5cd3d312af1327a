(** C127: what every byte string is read as, for the messages that set up, report and
    trigger flows. *)
From Verif Require Import InstructionFacts TruncFacts InstrListSpec P_InstrList FlowModel FlowBytesSpec.

(** Reports about an end of the bytes only. *)
Definition plain_end {S} (f : step S) : Prop := forall s x e, fail (f s x) = Some e -> e = EOF \/ e = UnexpectedEOF.
Lemma plain_take {S} k (upd : bytes -> S -> S) : plain_end (take_full k upd).
Proof. intros s x e. unfold take_full. destruct (length x <? k); cbn; [destruct x; intro H; injection H as <-; auto|discriminate]. Qed.
Lemma plain_seqr {S} (fs : list (step S)) : Forall plain_end fs -> plain_end (seqr fs).
Proof.
  induction 1 as [|f fs H _ IH]; intros s x e; [discriminate|]. cbn [seqr]. destruct (f s x) as [v n [e'|] r] eqn:E; cbn [fail val rest].
  - intro K. injection K as <-. apply (H s x). now rewrite E.
  - intro K. exact (IH _ _ _ K).
Qed.

(** What every value on the way keeps. *)
Definition keeps {S A} (p : S -> A) (f : step S) : Prop := forall s x, p (val (f s x)) = p s.
Lemma keeps_take {S A} (p : S -> A) k (upd : bytes -> S -> S) : (forall b s, p (upd b s) = p s) -> keeps p (take_full k upd).
Proof. intros H s x. unfold take_full. destruct (length x <? k); cbn; auto. Qed.
Lemma keeps_seqr {S A} (p : S -> A) (fs : list (step S)) : Forall (keeps p) fs -> keeps p (seqr fs).
Proof.
  induction 1 as [|f fs H _ IH]; intros s x; [reflexivity|]. cbn [seqr]. pose proof (H s x) as K. destruct (f s x) as [v n [e|] r]; cbn [fail val rest] in *; [exact K|].
  rewrite IH. exact K.
Qed.

Lemma num_at off w k b : num off w (skipn k b) = num (k + off) w b.
Proof.
  unfold num. f_equal. f_equal. revert b. induction k as [|k IH]; intro b; [reflexivity|]. destruct b; [now rewrite !skipn_nil|]. apply IH.
Qed.

(** A match at the beginning of any bytes. *)
Lemma match_any old b :
  (exists m c, match_says b m /\ dec_Match old b = Res m c None (skipn (match_bytes b) b))
  \/ ((fail (dec_Match old b) = Some EOF \/ fail (dec_Match old b) = Some UnexpectedEOF) /\ ~ exists m, match_says b m).
Proof.
  destruct (Nat.lt_ge_cases (length b) 4) as [L|L].
  { right. split; [apply match_short, L|]. intros (m & H & _). lia. }
  destruct (parse_total (region b)) as [(xs & P)|(xs & P)].
  - destruct (match_parsed old b xs L P) as (V & T & F1 & F2).
    rewrite skipn_length in F1. destruct (fail (dec_Match old b)) as [e|] eqn:E.
    + right. split; [apply F2; discriminate|]. intros (m & _ & H & _). unfold match_bytes in H.
      assert (X : Some e = None) by (apply F1; lia). discriminate X.
    + left. assert (Lm : match_bytes b <= length b) by (unfold match_bytes; destruct F1 as [F1 _]; specialize (F1 eq_refl); lia).
      exists (val (dec_Match old b)), (cnt (dec_Match old b)). split.
      { split; [exact L|]. split; [exact Lm|]. split; [exact T|]. now rewrite V. }
      rewrite (res_eta (dec_Match old b)) at 1. rewrite E. f_equal.
      clear V T F1 F2. destruct (len4 b L) as (b0 & b1 & b2 & b3 & tl & ->). pose proof (dec_Match_eq b0 b1 b2 b3 tl old) as Q. cbv zeta in Q.
      unfold match_bytes in *. rewrite region_eq in *. rewrite declared_eq, up8_pad in *. rewrite (xm_loop_parses xs _ P) in Q by lia.
      cbn [length] in Lm. rewrite Q. cbn [app rest]. set (n := N.to_nat (be_dec [b2; b3])) in *. clearbody n. rewrite firstn_length in *.
      assert (Sp : pad_len n <= length (skipn (n - 4) tl)) by (rewrite skipn_length; lia).
      unfold fpad. rewrite take_long by exact Sp. cbn [rest].
      change (4 + Nat.min (n - 4) (length tl) + pad_len n) with (S (S (S (S (Nat.min (n - 4) (length tl) + pad_len n))))). cbn [skipn].
      destruct (Nat.le_ge_cases (n - 4) (length tl)) as [K|K].
      * rewrite Nat.min_l by exact K. rewrite skipn_skipn_add. reflexivity.
      * rewrite Nat.min_r, (skipn_all2 tl) by lia. rewrite skipn_nil. symmetry. apply skipn_all2. lia.
  - right. split; [exact (proj2 (match_broken old b xs L P))|]. intros (m & _ & H & _ & Q).
    destruct (match_parsed old b _ L Q) as (_ & _ & F & _). destruct (match_broken old b xs L P) as [_ Br].
    rewrite skipn_length in F. unfold match_bytes in H. assert (X : fail (dec_Match old b) = None) by (apply F; lia). rewrite X in Br. destruct Br; discriminate.
Qed.

(** ** Flow modifications *)
Definition mod_head : list (step FlowMod) :=
  [fu 8 set_FlowMod_Cookie; fu 8 set_FlowMod_CookieMask; fu 1 set_FlowMod_Table; fu 1 set_FlowMod_Command; fu 2 set_FlowMod_IdleTimeout;
   fu 2 set_FlowMod_HardTimeout; fu 2 set_FlowMod_Priority; fu 4 set_FlowMod_Buffer; fu 4 set_FlowMod_OutPort; fu 4 set_FlowMod_OutGroup;
   fu 2 set_FlowMod_Flags; fpad 2].

(** The value after the head. *)
Definition headed (old : FlowMod) (inp : bytes) : FlowMod :=
  MkFlowMod (num 0 8 inp) (num 8 8 inp) (num 16 1 inp) (num 17 1 inp) (num 18 2 inp) (num 20 2 inp) (num 22 2 inp)
    (num 24 4 inp) (num 28 4 inp) (num 32 4 inp) (num 36 2 inp) (FlowMod_Match old) [].

Lemma mod_head_ok old inp : 40 <= length inp ->
  seqr mod_head (set_FlowMod_Instructions [] old) inp = Res (headed old inp) 40 None (skipn 40 inp).
Proof. intro L. do 40 (destruct inp as [|? inp]; [cbn [length] in L; lia|]). reflexivity. Qed.

Lemma head_short {S} ks (fs : list (step S)) : Forall2 (fun k f => exists upd, f = take_full k upd) ks fs ->
  forall s inp, length inp < list_sum ks -> fail (seqr fs s inp) <> None.
Proof.
  induction 1 as [|k f ks fs (upd & ->) _ IH]; intros s inp L; [cbn in L; lia|]. change (list_sum (k :: ks)) with (k + list_sum ks) in L.
  cbn [seqr]. unfold take_full at 1. destruct (Nat.ltb_spec (length inp) k) as [H|H]; [unfold take_full; destruct (Nat.ltb_spec (length inp) k); [|lia]; cbn; destruct inp; discriminate|].
  cbn [fail]. unfold take_full. destruct (Nat.ltb_spec (length inp) k); [lia|]. cbn [fail val rest]. apply IH. rewrite skipn_length. lia.
Qed.

(** The part of a flow modification behind its fixed head. *)
Definition mod_tail : step FlowMod :=
  seqr [sub FlowMod_Match set_FlowMod_Match dec_Match; sub FlowMod_Instructions set_FlowMod_Instructions dec_Instructions].

Lemma mod_eq old inp : dec_FlowMod old inp = andthen (seqr mod_head) (fun _ _ => mod_tail) (set_FlowMod_Instructions [] old) inp.
Proof. unfold dec_FlowMod, pre, mod_tail. apply (seqr_app_eq mod_head). Qed.

Lemma two_ok {S} (f g : step S) s inp v c r : f s inp = Res v c None r ->
  fail (seqr [f; g] s inp) = fail (g v r) /\ val (seqr [f; g] s inp) = val (g v r).
Proof. intro E. cbn [seqr]. rewrite E. cbn [fail val rest]. destruct (g v r) as [v' n' [e'|] r']; split; reflexivity. Qed.
Lemma two_err {S} (f g : step S) s inp v c e r : f s inp = Res v c (Some e) r ->
  fail (seqr [f; g] s inp) = Some e /\ val (seqr [f; g] s inp) = v.
Proof. intro E. cbn [seqr]. rewrite E. split; reflexivity. Qed.
Lemma sub_fail {S A} (get : S -> A) set f s inp : fail (sub get set f s inp) = fail (f (get s) inp).
Proof. reflexivity. Qed.
Lemma sub_val {S A} (get : S -> A) set f s inp : val (sub get set f s inp) = set (val (f (get s) inp)) s.
Proof. reflexivity. Qed.

Lemma mod_tail_ok s b m c r : dec_Match (FlowMod_Match s) b = Res m c None r ->
  let q := dec_Instructions (FlowMod_Instructions s) r in
  fail (mod_tail s b) = fail q /\ val (mod_tail s b) = set_FlowMod_Instructions (val q) (set_FlowMod_Match m s).
Proof.
  intro E. pose proof (sub_eq FlowMod_Match set_FlowMod_Match dec_Match s b _ _ _ _ E) as E'.
  destruct (two_ok _ (sub FlowMod_Instructions set_FlowMod_Instructions dec_Instructions) _ _ _ _ _ E') as [F V].
  cbv zeta. unfold mod_tail. rewrite F, V, sub_fail, sub_val. split; reflexivity.
Qed.
Lemma mod_tail_err s b e : fail (dec_Match (FlowMod_Match s) b) = Some e ->
  fail (mod_tail s b) = Some e /\ FlowMod_Instructions (val (mod_tail s b)) = FlowMod_Instructions s.
Proof.
  intro E. destruct (dec_Match (FlowMod_Match s) b) as [m n e' r] eqn:D. cbn [fail] in E. subst e'.
  pose proof (sub_eq FlowMod_Match set_FlowMod_Match dec_Match s b _ _ _ _ D) as E'.
  destruct (two_err _ (sub FlowMod_Instructions set_FlowMod_Instructions dec_Instructions) _ _ _ _ _ _ E') as [F V].
  unfold mod_tail. rewrite F, V. split; reflexivity.
Qed.

Lemma andthen_long {S} (a b : step S) s inp v n r : a s inp = Res v n None r ->
  fail (andthen a (fun _ _ => b) s inp) = fail (b v r) /\ val (andthen a (fun _ _ => b) s inp) = val (b v r).
Proof. intro E. rewrite (andthen_ok _ _ _ _ _ _ _ E). split; reflexivity. Qed.

Lemma mod_long old inp : 40 <= length inp ->
  fail (dec_FlowMod old inp) = fail (mod_tail (headed old inp) (skipn 40 inp))
  /\ val (dec_FlowMod old inp) = val (mod_tail (headed old inp) (skipn 40 inp)).
Proof.
  intro L. rewrite mod_eq. exact (andthen_long _ mod_tail _ _ _ _ _ (mod_head_ok old inp L)).
Qed.

Lemma mod_short old inp : length inp < 40 ->
  (fail (dec_FlowMod old inp) = Some EOF \/ fail (dec_FlowMod old inp) = Some UnexpectedEOF) /\ FlowMod_Instructions (val (dec_FlowMod old inp)) = [].
Proof.
  intro L. rewrite mod_eq. set (s0 := set_FlowMod_Instructions [] old).
  assert (F : fail (seqr mod_head s0 inp) <> None).
  { apply (head_short [8; 8; 1; 1; 2; 2; 2; 4; 4; 4; 2; 2]); [|exact L]. repeat (constructor; [eexists; reflexivity|]). constructor. }
  assert (P : plain_end (seqr mod_head)) by (apply plain_seqr; repeat (constructor; [apply plain_take|]); constructor).
  assert (K : keeps FlowMod_Instructions (seqr mod_head)) by (apply keeps_seqr; repeat (constructor; [apply keeps_take; reflexivity|]); constructor).
  specialize (P s0 inp). specialize (K s0 inp). destruct (seqr mod_head s0 inp) as [v n [e|] r] eqn:E; [|now elim F].
  rewrite (andthen_err _ _ _ _ _ _ _ _ E). cbn [fail val] in *. split; [destruct (P e eq_refl) as [-> | ->]; auto|exact K].
Qed.

Lemma mod_says_verdict old inp x v : flow_mod_says inp x v -> fail (dec_FlowMod old inp) = v.
Proof.
  intros (L & M & I & _). destruct (mod_long old inp L) as [-> _].
  destruct (match_any (FlowMod_Match (headed old inp)) (skipn 40 inp)) as [(m & c & _ & E)|[_ N]]; [|exfalso; eauto].
  destruct (mod_tail_ok _ _ _ _ _ E) as [-> _]. rewrite skipn_skipn_add. exact (C67_verdict _ _ _ v I).
Qed.

(** C127: every byte string is a complete flow modification in the sense of
    [flow_mod_says], read and reported as such, or it ends before its instructions. *)
Theorem C127_flow_mod : forall old inp, let r := dec_FlowMod old inp in
  flow_mod_says inp (val r) (fail r)
  \/ ((fail r = Some EOF \/ fail r = Some UnexpectedEOF) /\ FlowMod_Instructions (val r) = []
      /\ ~ exists x v, flow_mod_says inp x v).
Proof.
  intros old inp. cbv zeta. destruct (Nat.lt_ge_cases (length inp) 40) as [L|L].
  { right. destruct (mod_short old inp L) as [F I]. split; [exact F|]. split; [exact I|]. intros (x & w & H & _). lia. }
  destruct (mod_long old inp L) as [EF EV]. rewrite EF, EV. clear EF EV.
  destruct (match_any (FlowMod_Match (headed old inp)) (skipn 40 inp)) as [(m & c & M & E)|[F N]].
  - left. destruct (mod_tail_ok _ _ _ _ _ E) as [-> ->]. rewrite skipn_skipn_add.
    destruct (C67_classification (FlowMod_Instructions (headed old inp)) (skipn (40 + match_bytes (skipn 40 inp)) inp)) as (l & -> & I).
    split; [exact L|]. split; [exact M|]. split; [exact I|]. reflexivity.
  - right. destruct (fail (dec_Match (FlowMod_Match (headed old inp)) (skipn 40 inp))) as [e|] eqn:E; [|destruct F; discriminate].
    destruct (mod_tail_err _ _ _ E) as [-> ->]. split; [exact F|]. split; [reflexivity|]. intros (x & w & _ & M & _). eauto.
Qed.
Print Assumptions C127_flow_mod.

(** C127: so it is accepted exactly if it says something and there is nothing to report. *)
Theorem C127_flow_mod_report : forall old inp v, (v <> Some EOF /\ v <> Some UnexpectedEOF) ->
  (fail (dec_FlowMod old inp) = v <-> exists x, flow_mod_says inp x v).
Proof.
  intros old inp v [V1 V2]. split.
  - intros <-. destruct (C127_flow_mod old inp) as [H|[[H|H] _]]; [eauto|congruence|congruence].
  - intros (x & H). exact (mod_says_verdict old inp x v H).
Qed.
Print Assumptions C127_flow_mod_report.

(** A flow modification that wants to be read as one with a meter and an output, with
    an apply-actions instruction that announces ten more bytes than there are. *)
Example C127_flow_mod_ex :
  let inp := be_enc 8 7 ++ zeros 32 ++ [x00; x01; x00; x04; xff; xff; xff; xff]
    ++ [x00; x06; x00; x08; x00; x00; x00; x09] ++ [x00; x04; x00; x22; x00; x00; x00; x00]
    ++ [x00; x00; x00; x10; x00; x00; x00; x02; x00; x00; x00; x00; x00; x00; x00; x00] in
  let r := dec_FlowMod zero_FlowMod inp in
  fail r = None /\ FlowMod_Cookie (val r) = 7%N /\ FlowMod_Instructions (val r) = [IMeter 9; IApplyActions [AOutput 2 0]]
  /\ flow_mod_says inp (val r) None.
Proof.
  cbv zeta. set (inp := be_enc 8 7 ++ _). assert (F : fail (dec_FlowMod zero_FlowMod inp) = None) by (vm_compute; reflexivity).
  split; [exact F|]. split; [vm_compute; reflexivity|]. split; [vm_compute; reflexivity|].
  destruct (C127_flow_mod zero_FlowMod inp) as [H|[[H|H] _]]; [rewrite F in H; exact H|congruence|congruence].
Qed.

(** ** Flow-removed messages *)
Definition removed_head : list (step FlowRemoved) :=
  [fu 8 set_FlowRemoved_Cookie; fu 2 set_FlowRemoved_Priority; fu 1 set_FlowRemoved_Reason; fu 1 set_FlowRemoved_Table;
   fu 4 set_FlowRemoved_DurationSec; fu 4 set_FlowRemoved_DurationNSec; fu 2 set_FlowRemoved_IdleTimeout;
   fu 2 set_FlowRemoved_HardTimeout; fu 8 set_FlowRemoved_PacketCount; fu 8 set_FlowRemoved_ByteCount].
Definition removed_headed (old : FlowRemoved) (inp : bytes) : FlowRemoved :=
  MkFlowRemoved (num 0 8 inp) (num 8 2 inp) (num 10 1 inp) (num 11 1 inp) (num 12 4 inp) (num 16 4 inp) (num 20 2 inp) (num 22 2 inp)
    (num 24 8 inp) (num 32 8 inp) (FlowRemoved_Match old).
Lemma removed_head_ok old inp : 40 <= length inp ->
  seqr removed_head old inp = Res (removed_headed old inp) 40 None (skipn 40 inp).
Proof. intro L. do 40 (destruct inp as [|? inp]; [cbn [length] in L; lia|]). reflexivity. Qed.
Definition removed_tail : step FlowRemoved := seqr [sub FlowRemoved_Match set_FlowRemoved_Match dec_Match].
Lemma removed_eq old inp : dec_FlowRemoved old inp = andthen (seqr removed_head) (fun _ _ => removed_tail) old inp.
Proof. unfold dec_FlowRemoved, removed_tail. apply (seqr_app_eq removed_head). Qed.

Lemma one_eq {S} (f : step S) s inp : fail (seqr [f] s inp) = fail (f s inp) /\ val (seqr [f] s inp) = val (f s inp).
Proof. cbn [seqr]. destruct (f s inp) as [v n [e|] r]; split; reflexivity. Qed.

Lemma head_ends {S} ks (fs : list (step S)) s inp b :
  Forall2 (fun k f => exists upd, f = take_full k upd) ks fs -> length inp < list_sum ks ->
  let r := andthen (seqr fs) b s inp in fail r = Some EOF \/ fail r = Some UnexpectedEOF.
Proof.
  intros H L. pose proof (head_short ks fs H s inp L) as F.
  assert (P : plain_end (seqr fs)) by (apply plain_seqr; clear -H; induction H as [|k f ks fs (u & ->) _ IH]; constructor; auto using plain_take).
  specialize (P s inp). destruct (seqr fs s inp) as [v n [e|] r] eqn:E; [|now elim F]. cbv zeta. rewrite (andthen_err _ _ _ _ _ _ _ _ E).
  cbn [fail] in *. destruct (P e eq_refl) as [-> | ->]; auto.
Qed.
Ltac takes := repeat (constructor; [eexists; reflexivity|]); constructor.

(** C127: every byte string is a complete flow-removed message (whatever follows it),
    read as such without report, or ends before it is complete, which is reported. *)
Theorem C127_flow_removed : forall old inp, let r := dec_FlowRemoved old inp in
  (fail r = None /\ flow_removed_says inp (val r))
  \/ ((fail r = Some EOF \/ fail r = Some UnexpectedEOF) /\ ~ exists x, flow_removed_says inp x).
Proof.
  intros old inp. cbv zeta. rewrite removed_eq. destruct (Nat.lt_ge_cases (length inp) 40) as [L|L].
  { right. split; [|intros (x & H & _); lia]. apply (head_ends [8; 2; 1; 1; 4; 4; 2; 2; 8; 8]); [takes|exact L]. }
  destruct (andthen_long _ removed_tail _ _ _ _ _ (removed_head_ok old inp L)) as [-> ->].
  destruct (one_eq (sub FlowRemoved_Match set_FlowRemoved_Match dec_Match) (removed_headed old inp) (skipn 40 inp)) as [F V].
  unfold removed_tail. rewrite F, V, sub_fail, sub_val. clear F V.
  destruct (match_any (FlowRemoved_Match (removed_headed old inp)) (skipn 40 inp)) as [(m & c & M & ->)|[F N]].
  - left. split; [reflexivity|]. split; [exact L|]. split; [exact M|]. reflexivity.
  - right. split; [exact F|]. intros (x & _ & M & _). eauto.
Qed.
Print Assumptions C127_flow_removed.

Example C127_flow_removed_ex :
  let inp := be_enc 8 7 ++ zeros 32 ++ [x00; x01; x00; x04; xff; xff; xff; xff] ++ [xab] in
  fail (dec_FlowRemoved zero_FlowRemoved inp) = None /\ FlowRemoved_Cookie (val (dec_FlowRemoved zero_FlowRemoved inp)) = 7%N
  /\ fail (dec_FlowRemoved zero_FlowRemoved (firstn 47 inp)) = Some UnexpectedEOF.
Proof. vm_compute. repeat split. Qed.

(** ** Packet-in *)
Definition pin_head : list (step PacketIn) :=
  [fu 4 set_PacketIn_Buffer; fu 2 set_PacketIn_Length; fu 1 set_PacketIn_Reason; fu 1 set_PacketIn_Table; fu 8 set_PacketIn_Cookie].
Definition pin_headed (old : PacketIn) (inp : bytes) : PacketIn :=
  MkPacketIn (num 0 4 inp) (num 4 2 inp) (num 6 1 inp) (num 7 1 inp) (num 8 8 inp) (PacketIn_Match old) (PacketIn_Data old).
Lemma pin_head_ok old inp : 16 <= length inp -> seqr pin_head old inp = Res (pin_headed old inp) 16 None (skipn 16 inp).
Proof. intro L. do 16 (destruct inp as [|? inp]; [cbn [length] in L; lia|]). reflexivity. Qed.
Definition pin_mid : list (step PacketIn) := [sub PacketIn_Match set_PacketIn_Match dec_Match; fpad 2].

Lemma pin_mid_ok s b m c r : dec_Match (PacketIn_Match s) b = Res m c None r -> 2 <= length r ->
  exists n, seqr pin_mid s b = Res (set_PacketIn_Match m s) n None (skipn 2 r).
Proof.
  intros E L. pose proof (sub_eq PacketIn_Match set_PacketIn_Match dec_Match s b _ _ _ _ E) as E'.
  eexists. eapply seqr_ok; [exact E'|]. eapply (seqr_ok (fpad 2) []); [unfold fpad; apply take_long; exact L|]. reflexivity.
Qed.
Lemma pin_mid_err s b : (exists e, fail (dec_Match (PacketIn_Match s) b) = Some e /\ (e = EOF \/ e = UnexpectedEOF))
  \/ (exists m c r, dec_Match (PacketIn_Match s) b = Res m c None r /\ length r < 2) ->
  exists v n e r, seqr pin_mid s b = Res v n (Some e) r /\ (e = EOF \/ e = UnexpectedEOF).
Proof.
  intros [(e & E & P)|(m & c & r & E & L)].
  - destruct (dec_Match (PacketIn_Match s) b) as [m n e' r] eqn:D. cbn [fail] in E. subst e'.
    pose proof (sub_eq PacketIn_Match set_PacketIn_Match dec_Match s b _ _ _ _ D) as E'. do 4 eexists. split; [|exact P]. eapply seqr_err. exact E'.
  - pose proof (sub_eq PacketIn_Match set_PacketIn_Match dec_Match s b _ _ _ _ E) as E'.
    do 4 eexists. split; [eapply seqr_ok; [exact E'|]; eapply seqr_err; unfold fpad; apply take_short; exact L|]. destruct r; auto.
Qed.

Lemma pin_eq old inp : dec_PacketIn old inp = andthen (andthen (seqr pin_head) (fun _ _ => seqr pin_mid)) (fun _ _ => readall set_PacketIn_Data) old inp.
Proof.
  unfold dec_PacketIn. change (_ :: _) with (pin_head ++ pin_mid) at 1. unfold andthen at 1 2. rewrite (seqr_app_eq pin_head pin_mid). reflexivity.
Qed.

(** C127: every byte string is a complete packet-in, read as such without report, or
    ends before its packet begins, which is reported. *)
Theorem C127_packet_in : forall old inp, let r := dec_PacketIn old inp in
  (fail r = None /\ packet_in_says inp (val r))
  \/ ((fail r = Some EOF \/ fail r = Some UnexpectedEOF) /\ ~ exists x, packet_in_says inp x).
Proof.
  intros old inp. cbv zeta. rewrite pin_eq. destruct (Nat.lt_ge_cases (length inp) 16) as [L|L].
  { right. split; [|intros (x & H & _); lia].
    pose proof (head_ends [4; 2; 1; 1; 8] pin_head old inp (fun _ _ => seqr pin_mid) ltac:(takes) L) as F. cbv zeta in F.
    destruct (andthen (seqr pin_head) (fun _ _ => seqr pin_mid) old inp) as [v n [e|] r] eqn:E; cbn [fail] in F; [|destruct F; discriminate].
    rewrite (andthen_err _ _ _ _ _ _ _ _ E). exact F. }
  set (s := pin_headed old inp). set (b := skipn 16 inp).
  assert (Bad : (exists v n e r, seqr pin_mid s b = Res v n (Some e) r /\ (e = EOF \/ e = UnexpectedEOF)) ->
    let r := andthen (andthen (seqr pin_head) (fun _ _ => seqr pin_mid)) (fun _ _ => readall set_PacketIn_Data) old inp in
    fail r = Some EOF \/ fail r = Some UnexpectedEOF).
  { intros (v & n & e & r & E & P). pose proof (andthen_both _ (fun _ _ => seqr pin_mid) _ _ _ _ _ _ _ _ _ (pin_head_ok old inp L) E) as Q.
    cbv zeta. rewrite (andthen_err _ _ _ _ _ _ _ _ Q). cbn [fail]. destruct P as [-> | ->]; auto. }
  destruct (match_any (PacketIn_Match s) b) as [(m & c & M & E)|[F N]].
  - destruct (Nat.lt_ge_cases (length (skipn (match_bytes b) b)) 2) as [H|H].
    + right. split; [apply Bad, pin_mid_err; right; eauto|]. intros (x & _ & _ & K & _). fold b in K. unfold b in H. rewrite !skipn_length in H. fold b in H.
      destruct M as (_ & M & _). unfold b in M at 2. rewrite skipn_length in M. lia.
    + left. destruct (pin_mid_ok s b m c _ E H) as (n & Q).
      pose proof (andthen_both _ (fun _ _ => seqr pin_mid) _ _ _ _ _ _ _ _ _ (pin_head_ok old inp L) Q) as W.
      destruct (andthen_long _ (readall set_PacketIn_Data) _ _ _ _ _ W) as [-> ->]. split; [reflexivity|]. split; [exact L|]. split; [exact M|].
      assert (K : 16 + match_bytes b + 2 <= length inp).
      { unfold b in H. rewrite !skipn_length in H. fold b in H. lia. }
      split; [exact K|]. split; [|reflexivity]. unfold readall. cbn [val]. unfold set_PacketIn_Data. cbn [PacketIn_Data]. unfold b. rewrite !skipn_skipn_add. try (f_equal; fold b; lia); reflexivity.
  - right. split; [apply Bad, pin_mid_err; left; destruct F as [F|F]; eauto|]. intros (x & _ & M & _). eauto.
Qed.
Print Assumptions C127_packet_in.

Example C127_packet_in_ex :
  let inp := be_enc 4 1 ++ be_enc 2 2 ++ [x00; x03] ++ be_enc 8 7 ++ [x00; x01; x00; x04; xff; xff; xff; xff] ++ [xee; xee; xab; xcd] in
  let r := dec_PacketIn zero_PacketIn inp in
  fail r = None /\ PacketIn_Cookie (val r) = 7%N /\ PacketIn_Data (val r) = [xab; xcd]
  /\ fail (dec_PacketIn zero_PacketIn (firstn 24 inp)) = Some EOF.
Proof. vm_compute. repeat split. Qed.

(** ** Packet-out *)
Definition pout_head : list (step (N * PacketOut)) :=
  [sub snd (fun m s => (fst s, m)) (fu 4 set_PacketOut_Buffer); sub snd (fun m s => (fst s, m)) (fu 4 set_PacketOut_InPort);
   fu 2 (fun v s => (v, snd s)); fpad 6].
Definition pout_headed (old : PacketOut) (inp : bytes) : N * PacketOut :=
  (num 8 2 inp, MkPacketOut (num 0 4 inp) (num 4 4 inp) (PacketOut_Actions old) (PacketOut_Data old)).
Lemma pout_head_ok old inp : 16 <= length inp -> seqr pout_head (0%N, old) inp = Res (pout_headed old inp) 16 None (skipn 16 inp).
Proof. intro L. do 16 (destruct inp as [|? inp]; [cbn [length] in L; lia|]). reflexivity. Qed.
Definition pout_acts : step (N * PacketOut) :=
  pre (fun s => (fst s, set_PacketOut_Actions [] (snd s)))
    (sub snd (fun m s => (fst s, m)) (sub PacketOut_Actions set_PacketOut_Actions dec_Actions)).
Definition pout_data : step (N * PacketOut) := sub snd (fun m s => (fst s, m)) (readall set_PacketOut_Data).
Definition pout_tail (h : N * PacketOut) : step (N * PacketOut) := andthen (limited (Z.of_N (fst h)) pout_acts) (fun _ _ => pout_data).
Lemma pout_eq old inp : dec_PacketOut old inp = with_local 0%N (andthen (seqr pout_head) (fun _ h => pout_tail h)) old inp.
Proof. reflexivity. Qed.

Lemma pout_acts_eq s reg : exists n,
  pout_acts s reg = Res (fst s, set_PacketOut_Actions (val (dec_Actions [] reg)) (snd s)) n (fail (dec_Actions [] reg)) [].
Proof.
  pose proof (actions_rest [] reg) as R. destruct (dec_Actions [] reg) as [l n e r] eqn:E. cbn [rest] in R. subst r. exists n. unfold pout_acts, pre.
  apply (sub_eq snd (fun m s => (fst s, m)) _ (fst s, set_PacketOut_Actions [] (snd s)) reg (set_PacketOut_Actions l (set_PacketOut_Actions [] (snd s)))).
  apply sub_eq. exact E.
Qed.

Lemma pout_tail_eq h b : let k := N.to_nat (fst h) in let d := dec_Actions [] (firstn k b) in
  fail (pout_tail h h b) = fail d
  /\ val (pout_tail h h b) = (fst h, match fail d with None => set_PacketOut_Data (skipn k b) (set_PacketOut_Actions (val d) (snd h))
                                     | Some _ => set_PacketOut_Actions (val d) (snd h) end).
Proof.
  intros k d. destruct (pout_acts_eq h (firstn k b)) as (n & E). fold d in E.
  replace k with (Z.to_nat (Z.of_N (fst h))) in E by (unfold k; lia).
  pose proof (limited_eq _ _ _ _ _ _ _ _ E) as Q. cbn [app] in Q. unfold pout_tail.
  destruct (fail d) as [e|] eqn:F.
  - rewrite (andthen_err _ _ _ _ _ _ _ _ Q). split; reflexivity.
  - destruct (andthen_long _ pout_data _ _ _ _ _ Q) as [-> ->]. replace (Z.to_nat (Z.of_N (fst h))) with k by (unfold k; lia). split; reflexivity.
Qed.

Lemma local_eq {L S} (l : L) (f : step (L * S)) s inp :
  fail (with_local l f s inp) = fail (f (l, s) inp) /\ val (with_local l f s inp) = snd (val (f (l, s) inp)).
Proof. split; reflexivity. Qed.

(** C127: every byte string is a packet-out, read and reported as such, or ends before
    its actions begin. *)
Theorem C127_packet_out : forall old inp, let r := dec_PacketOut old inp in
  packet_out_says inp (val r) (fail r)
  \/ (length inp < 16 /\ (fail r = Some EOF \/ fail r = Some UnexpectedEOF)).
Proof.
  intros old inp. cbv zeta. rewrite pout_eq.
  destruct (local_eq 0%N (andthen (seqr pout_head) (fun _ h => pout_tail h)) old inp) as [F V]. rewrite F, V. clear F V.
  destruct (Nat.lt_ge_cases (length inp) 16) as [L|L].
  { right. split; [exact L|].
    assert (A : fail (seqr pout_head (0%N, old) inp) = Some EOF \/ fail (seqr pout_head (0%N, old) inp) = Some UnexpectedEOF).
    { clear -L. do 16 (destruct inp as [|? inp]; [cbn; auto|]). cbn [length] in L. lia. }
    destruct (seqr pout_head (0%N, old) inp) as [v n [e|] r] eqn:E; cbn [fail] in A; [|destruct A; discriminate].
    rewrite (andthen_err _ _ _ _ _ _ _ _ E). exact A. }
  left. set (h := pout_headed old inp). set (b := skipn 16 inp).
  destruct (pout_tail_eq h b) as [F V].
  destruct (pout_tail h h b) as [tv tn te tr] eqn:E. cbn [fail val] in F, V.
  rewrite (andthen_both _ (fun _ h => pout_tail h) _ _ _ _ _ _ _ _ _ (pout_head_ok old inp L) E). cbn [fail val].
  subst te tv. cbn [snd]. pose proof (actions_said [] (firstn (N.to_nat (fst h)) b)) as A.
  destruct (dec_Actions [] (firstn (N.to_nat (fst h)) b)) as [l n e r]. cbn [val fail] in *. change (fst h) with (num 8 2 inp) in *.
  split; [exact L|]. split; [destruct e; exact A|]. split; [destruct e; reflexivity|].
  intros ->. unfold set_PacketOut_Data. cbn [PacketOut_Data]. unfold b. rewrite skipn_skipn_add. try (f_equal; lia); reflexivity.
Qed.
Print Assumptions C127_packet_out.

(** C127: a report other than end-of-input is given of exactly the byte strings that are
    packet-outs to be so reported; so is none. *)
Theorem C127_packet_out_report : forall old inp v, v <> Some EOF -> v <> Some UnexpectedEOF ->
  fail (dec_PacketOut old inp) = v <-> exists x, packet_out_says inp x v.
Proof.
  intros old inp v N1 N2. pose proof (C127_packet_out old inp) as C. cbv zeta in C. split.
  - intros <-. destruct C as [C|[_ [C|C]]]; [eauto|congruence|congruence].
  - intros (x & L & A & _). destruct C as [(_ & B & _)|[C _]]; [|lia].
    rewrite <- (actions_verdict _ _ _ [] A), <- (actions_verdict _ _ _ [] B). reflexivity.
Qed.
Print Assumptions C127_packet_out_report.

Example C127_packet_out_ex :
  let acts := [x00; x00; x00; x10; x00; x00; x00; x05; x00; x10] ++ zeros 6 in
  let inp := be_enc 4 1 ++ be_enc 4 2 ++ be_enc 2 16 ++ zeros 6 ++ acts ++ [xab; xcd] in
  let r := dec_PacketOut zero_PacketOut inp in
  fail r = None /\ length (PacketOut_Actions (val r)) = 1 /\ PacketOut_Data (val r) = [xab; xcd]
  /\ fail (dec_PacketOut zero_PacketOut (firstn 31 inp)) = Some UnexpectedEOF
  /\ fail (dec_PacketOut zero_PacketOut (firstn 12 inp)) = Some UnexpectedEOF.
Proof. vm_compute. repeat split. Qed.
