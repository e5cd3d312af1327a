(** Facts about cookie jars. *)
From Verif Require Export JarSpec CookieFacts ListFacts.
From Verif Require Import StepFacts.
Ltac Zify.zify_post_hook ::= Z.div_mod_to_equations.

(** [f] needs [k] bytes and takes them. *)
Definition takes {S} (k : nat) (f : step S) : Prop := forall s x,
  (length x < k -> fail (f s x) <> None) /\ (k <= length x -> fail (f s x) = None /\ rest (f s x) = skipn k x).

Lemma takes_take {S} k (upd : bytes -> S -> S) : takes k (take_full k upd).
Proof.
  intros s x. unfold take_full. destruct (Nat.ltb_spec (length x) k); split; intro; try lia; cbn; [destruct x; congruence|auto].
Qed.

Lemma takes_sub {S A} k (get : S -> A) set f : takes k f -> takes k (sub get set f).
Proof. intros H s x. apply (H (get s) x). Qed.

Lemma skipn_twice {A} a b (l : list A) : skipn a (skipn b l) = skipn (b + a) l.
Proof. revert l. induction b as [|b IH]; intros l; [reflexivity|]. destruct l; [destruct a; reflexivity|]. apply IH. Qed.

Lemma takes_seqr {S} : forall ks (fs : list (step S)), Forall2 takes ks fs -> takes (list_sum ks) (seqr fs).
Proof.
  induction 1 as [|k f ks fs Hf _ IH]; intros s x.
  - split; intro; [cbn in *; lia|]. split; reflexivity.
  - cbn [seqr]. change (list_sum (k :: ks)) with (k + list_sum ks).
    destruct (Hf s x) as [F1 F2]. destruct (Nat.le_gt_cases k (length x)) as [L|L].
    + destruct (F2 L) as [-> ->]. cbn [fail rest].
      destruct (IH (val (f s x)) (skipn k x)) as [I1 I2]. rewrite skipn_length in I1, I2. split; intro.
      * apply I1. lia.
      * destruct I2 as [-> ->]; [lia|]. rewrite skipn_twice. auto.
    + specialize (F1 L). split; intro; [|lia]. destruct (fail (f s x)) eqn:E; [rewrite E; discriminate|congruence].
Qed.

Lemma seqr_app {S} (a b : list (step S)) s x : fail (seqr (a ++ b) s x) = None ->
  fail (seqr a s x) = None /\ fail (seqr b (val (seqr a s x)) (rest (seqr a s x))) = None
  /\ val (seqr (a ++ b) s x) = val (seqr b (val (seqr a s x)) (rest (seqr a s x))).
Proof.
  revert s x. induction a as [|f a IH]; intros s x; cbn [app seqr]; [auto|].
  destruct (fail (f s x)) eqn:E; [rewrite E; discriminate|]. cbn [fail val rest]. apply IH.
Qed.

Lemma seqr_through {S} k (a b : list (step S)) s x : takes k (seqr a) -> k <= length x ->
  fail (seqr (a ++ b) s x) = fail (seqr b (val (seqr a s x)) (skipn k x)).
Proof.
  intros T L. destruct (T s x) as [_ T2]. destruct (T2 L) as [E <-]. clear T T2 L. revert s x E.
  induction a as [|f a IH]; intros s x E; cbn [app seqr] in *; [reflexivity|].
  destruct (fail (f s x)) eqn:F; [congruence|]. cbn [fail val rest] in *. apply IH, E.
Qed.

(** [f] takes [w] bytes and puts the number they are into [get]. *)
Definition sets {S} (w : nat) (get : S -> N) (f : step S) : Prop :=
  takes w f /\ forall s x, w <= length x -> get (val (f s x)) = be_dec (firstn w x).

Lemma sets_fu {S} w (get : S -> N) set : (forall v s, get (set v s) = v) -> sets w get (fu w set).
Proof.
  intro G. split; [apply takes_take|]. intros s x L. unfold fu, take_full.
  destruct (Nat.ltb_spec (length x) w); [lia|]. apply G.
Qed.

Lemma sets_snd {L S} w (get : S -> N) f : sets w get f ->
  sets w (fun s : L * S => get (snd s)) (sub snd (fun m s => (fst s, m)) f).
Proof. intros [T V]. split; [apply takes_sub, T|]. intros s x K. exact (V (snd s) x K). Qed.

(** A field at a fixed place that nothing behind it changes. *)
Lemma field_at {S} off w (get : S -> N) f a b l s x : l = a ++ f :: b -> takes off (seqr a) -> sets w get f ->
  keeps get (seqr b) -> fail (seqr l s x) = None ->
  off + w <= length x /\ get (val (seqr l s x)) = num off w x.
Proof.
  intros -> T [W G] K F. destruct (seqr_app a (f :: b) s x F) as (Fa & Fb & V). rewrite V. clear V F.
  assert (L : off <= length x).
  { destruct (Nat.le_gt_cases off (length x)) as [?|L]; [assumption|]. destruct (T s x) as [T1 _]. specialize (T1 L). congruence. }
  destruct (T s x) as [_ T2]. destruct (T2 L) as [_ R]. rewrite R in Fb |- *. clear T T2 R Fa.
  generalize dependent (val (seqr a s x)). intros t Fb. cbn [seqr] in *.
  destruct (W t (skipn off x)) as [W1 W2].
  destruct (Nat.le_gt_cases w (length (skipn off x))) as [LW|LW].
  - destruct (W2 LW) as [E R]. rewrite E in *. cbn [val]. rewrite K. split; [rewrite skipn_length in LW; lia|].
    apply G, LW.
  - specialize (W1 LW). destruct (fail (f t (skipn off x))) eqn:E; congruence.
Qed.

Lemma keeps_other {S T A} (p : S -> A) (get : S -> T) (set : T -> S -> S) f :
  (forall t s, p (set t s) = p s) -> keeps p (sub get set f).
Proof. intros H s inp. unfold sub. cbn [val]. apply H. Qed.

Ltac takes_list := repeat (apply Forall2_cons; [first [apply takes_take | apply takes_sub, takes_take]|]); apply Forall2_nil.

Ltac keeps_cookie := apply keeps_seqr; repeat apply Forall_cons; try apply Forall_nil;
  first [apply keeps_take; reflexivity | apply keeps_other; reflexivity].

Definition head_PacketIn : step PacketIn :=
  seqr [fu 4 set_PacketIn_Buffer; fu 2 set_PacketIn_Length; fu 1 set_PacketIn_Reason; fu 1 set_PacketIn_Table;
        fu 8 set_PacketIn_Cookie; sub PacketIn_Match set_PacketIn_Match dec_Match; fpad 2].

Lemma dec_PacketIn_eq : dec_PacketIn = andthen head_PacketIn (fun _ _ => readall set_PacketIn_Data).
Proof. unfold dec_PacketIn, head_PacketIn. reflexivity. Qed.

Lemma pos_head_PacketIn s x : fail (head_PacketIn s x) = None ->
  8 + 8 <= length x /\ PacketIn_Cookie (val (head_PacketIn s x)) = num 8 8 x.
Proof.
  apply (field_at 8 8 PacketIn_Cookie (fu 8 set_PacketIn_Cookie)
      [fu 4 set_PacketIn_Buffer; fu 2 set_PacketIn_Length; fu 1 set_PacketIn_Reason; fu 1 set_PacketIn_Table]
      [sub PacketIn_Match set_PacketIn_Match dec_Match; fpad 2]); [reflexivity| |apply sets_fu; reflexivity|].
  - apply (takes_seqr [4; 2; 1; 1]). takes_list.
  - keeps_cookie.
Qed.

Lemma pos_PacketIn s x : fail (dec_PacketIn s x) = None ->
  8 + 8 <= length x /\ PacketIn_Cookie (val (dec_PacketIn s x)) = num 8 8 x.
Proof.
  rewrite dec_PacketIn_eq. generalize (pos_head_PacketIn s x). generalize head_PacketIn as q. intros q Q.
  unfold andthen. destruct (fail (q s x)) eqn:E; [rewrite E; discriminate|]. intros _. exact (Q eq_refl).
Qed.

Lemma pos_FlowMod s x : fail (dec_FlowMod s x) = None ->
  0 + 8 <= length x /\ FlowMod_Cookie (val (dec_FlowMod s x)) = num 0 8 x.
Proof.
  unfold dec_FlowMod, pre. intro E.
  eapply (field_at 0 8 FlowMod_Cookie (fu 8 set_FlowMod_Cookie) []); [reflexivity|apply (takes_seqr []); constructor|apply sets_fu; reflexivity| |exact E].
  keeps_cookie.
Qed.

Lemma pos_FlowRemoved s x : fail (dec_FlowRemoved s x) = None ->
  0 + 8 <= length x /\ FlowRemoved_Cookie (val (dec_FlowRemoved s x)) = num 0 8 x.
Proof.
  unfold dec_FlowRemoved. intro E. eapply (field_at 0 8 FlowRemoved_Cookie (fu 8 set_FlowRemoved_Cookie) []); [reflexivity|apply (takes_seqr []); constructor|apply sets_fu; reflexivity| |exact E].
  keeps_cookie.
Qed.

Lemma pos_FlowStatsRequest s x : fail (dec_FlowStatsRequest s x) = None ->
  16 + 8 <= length x /\ FlowStatsRequest_Cookie (val (dec_FlowStatsRequest s x)) = num 16 8 x.
Proof.
  unfold dec_FlowStatsRequest. intro E. eapply (field_at 16 8 FlowStatsRequest_Cookie (fu 8 set_FlowStatsRequest_Cookie)
    [fu 1 set_FlowStatsRequest_Table; fpad 3; fu 4 set_FlowStatsRequest_OutPort; fu 4 set_FlowStatsRequest_OutGroup; fpad 4]);
    [reflexivity| |apply sets_fu; reflexivity| |exact E].
  - apply (takes_seqr [1; 3; 4; 4; 4]). takes_list.
  - keeps_cookie.
Qed.

Lemma pos_AggregateStatsRequest s x : fail (dec_AggregateStatsRequest s x) = None ->
  16 + 8 <= length x /\ AggregateStatsRequest_Cookie (val (dec_AggregateStatsRequest s x)) = num 16 8 x.
Proof.
  unfold dec_AggregateStatsRequest. intro E. eapply (field_at 16 8 AggregateStatsRequest_Cookie (fu 8 set_AggregateStatsRequest_Cookie)
    [fu 1 set_AggregateStatsRequest_Table; fpad 3; fu 4 set_AggregateStatsRequest_OutPort; fu 4 set_AggregateStatsRequest_OutGroup; fpad 4]);
    [reflexivity| |apply sets_fu; reflexivity| |exact E].
  - apply (takes_seqr [1; 3; 4; 4; 4]). takes_list.
  - keeps_cookie.
Qed.

Lemma keeps_snd {L S A} (p : S -> A) f : keeps p f -> keeps (fun s : L * S => p (snd s)) (sub snd (fun m s => (fst s, m)) f).
Proof. intros H s inp. unfold sub. cbn [val snd]. apply H. Qed.

Lemma local_head {L S} (l : L) (q : step (L * S)) k (get : S -> N) (P : bytes -> N -> Prop) s x :
  (forall t i, fail (q t i) = None -> P i (get (snd (val (q t i))))) ->
  (forall n h, keeps (fun s => get (snd s)) (k n h)) ->
  fail (with_local l (andthen q k) s x) = None -> P x (get (val (with_local l (andthen q k) s x))).
Proof.
  intros Q K. unfold with_local, andthen. destruct (fail (q (l, s) x)) eqn:E; cbn [fail val].
  - rewrite E. discriminate.
  - intros _. rewrite K. apply Q, E.
Qed.

Definition before_FlowStats : list (step (N * FlowStats)) :=
  [fu 2 (fun v (s : N * FlowStats) => (v, snd s)); sub snd (fun m s => (fst s, m)) (fu 1 set_FlowStats_Table); fpad 1;
   sub snd (fun m s => (fst s, m)) (fu 4 set_FlowStats_DurationSec); sub snd (fun m s => (fst s, m)) (fu 4 set_FlowStats_DurationNSec);
   sub snd (fun m s => (fst s, m)) (fu 2 set_FlowStats_Priority); sub snd (fun m s => (fst s, m)) (fu 2 set_FlowStats_IdleTimeout);
   sub snd (fun m s => (fst s, m)) (fu 2 set_FlowStats_HardTimeout); sub snd (fun m s => (fst s, m)) (fu 2 set_FlowStats_Flags); fpad 4].

Definition behind_FlowStats : list (step (N * FlowStats)) :=
  [sub snd (fun m s => (fst s, m)) (fu 8 set_FlowStats_PacketCount); sub snd (fun m s => (fst s, m)) (fu 8 set_FlowStats_ByteCount);
   sub snd (fun m s => (fst s, m)) (sub FlowStats_Match set_FlowStats_Match dec_Match)].

Definition head_FlowStats : step (N * FlowStats) :=
  seqr (before_FlowStats ++ sub snd (fun m s => (fst s, m)) (fu 8 set_FlowStats_Cookie) :: behind_FlowStats).

Definition tail_FlowStats (n : nat) (h : N * FlowStats) : step (N * FlowStats) :=
  limited (Z.of_N (fst h) - Z.of_nat n)
    (pre (fun s => (fst s, set_FlowStats_Instructions [] (snd s)))
      (sub snd (fun m s => (fst s, m)) (sub FlowStats_Instructions set_FlowStats_Instructions dec_Instructions))).

Lemma dec_FlowStats_eq : dec_FlowStats = with_local 0%N (andthen head_FlowStats tail_FlowStats).
Proof. unfold dec_FlowStats, head_FlowStats, tail_FlowStats, before_FlowStats, behind_FlowStats. cbn [app]. reflexivity. Qed.

Lemma pos_head_FlowStats t i : fail (head_FlowStats t i) = None ->
  24 + 8 <= length i /\ FlowStats_Cookie (snd (val (head_FlowStats t i))) = num 24 8 i.
Proof.
  apply (field_at 24 8 (fun s : N * FlowStats => FlowStats_Cookie (snd s)) (sub snd (fun m s => (fst s, m)) (fu 8 set_FlowStats_Cookie))
      before_FlowStats behind_FlowStats _ t i eq_refl).
  - apply (takes_seqr [2; 1; 1; 4; 4; 2; 2; 2; 2; 4]). unfold before_FlowStats. takes_list.
  - apply sets_snd, sets_fu. reflexivity.
  - apply keeps_seqr; repeat apply Forall_cons; try apply Forall_nil; apply keeps_snd;
      first [apply keeps_take; reflexivity | apply keeps_other; reflexivity].
Qed.

Lemma keeps_tail_FlowStats n h : keeps (fun s => FlowStats_Cookie (snd s)) (tail_FlowStats n h).
Proof.
  apply keeps_limited. intros t i. unfold pre.
  rewrite (keeps_snd FlowStats_Cookie (sub FlowStats_Instructions set_FlowStats_Instructions dec_Instructions)); [reflexivity|].
  apply keeps_other. reflexivity.
Qed.

Lemma pos_FlowStats s x : fail (dec_FlowStats s x) = None ->
  24 + 8 <= length x /\ FlowStats_Cookie (val (dec_FlowStats s x)) = num 24 8 x.
Proof.
  rewrite dec_FlowStats_eq.
  exact (local_head 0%N head_FlowStats tail_FlowStats FlowStats_Cookie (fun i c => 24 + 8 <= length i /\ c = num 24 8 i) s x
           pos_head_FlowStats keeps_tail_FlowStats).
Qed.

(** ** Where a message has its cookie *)
Definition cookie_at {A} (J : jar A) (off : nat) (m : A) : Prop :=
  exists p q, length p = off /\ forall c, jenc J (jset J c m) = p ++ be_enc 8 c ++ q.

Lemma cookie_at_same {A} (J : jar A) off m c d : cookie_at J off m ->
  same_but off 8 (jenc J (jset J c m)) (jenc J (jset J d m)).
Proof.
  intros (p & q & L & E). rewrite !E. unfold same_but. rewrite !app_length, !be_enc_length. split; [reflexivity|].
  rewrite !firstn_app_len by exact L. split; [reflexivity|].
  rewrite !app_assoc, !skipn_app_len by (rewrite app_length, be_enc_length; lia). reflexivity.
Qed.

Lemma cookie_at_num {A} (J : jar A) off m c : cookie_at J off m -> fits 8 c -> num off 8 (jenc J (jset J c m)) = c.
Proof.
  intros (p & q & L & E) F. rewrite E. unfold num. rewrite skipn_app_len by exact L.
  rewrite firstn_app_len by apply be_enc_length. apply be_dec_enc_fits, F.
Qed.

Lemma at_PacketIn m : cookie_at jar_PacketIn 8 m.
Proof.
  exists (concat [u32 (PacketIn_Buffer m); u16 (PacketIn_Length m); u8 (PacketIn_Reason m); u8 (PacketIn_Table m)]),
    (concat [enc_Match (PacketIn_Match m); pad 2; PacketIn_Data m]).
  split; [reflexivity|]. intro c. cbn [jar_PacketIn jenc jset]. unfold enc_PacketIn. cbn [concat]. rewrite <- !app_assoc. reflexivity.
Qed.
Lemma at_AggregateStatsRequest m : cookie_at jar_AggregateStatsRequest 16 m.
Proof.
  exists (concat [u8 (AggregateStatsRequest_Table m); pad 3; u32 (AggregateStatsRequest_OutPort m); u32 (AggregateStatsRequest_OutGroup m); pad 4]),
    (concat [u64 (AggregateStatsRequest_CookieMask m); enc_Match (AggregateStatsRequest_Match m)]).
  split; [reflexivity|]. intro c. cbn [jar_AggregateStatsRequest jenc jset]. unfold enc_AggregateStatsRequest. cbn [concat]. rewrite <- !app_assoc. reflexivity.
Qed.
Lemma at_FlowStatsRequest m : cookie_at jar_FlowStatsRequest 16 m.
Proof.
  exists (concat [u8 (FlowStatsRequest_Table m); pad 3; u32 (FlowStatsRequest_OutPort m); u32 (FlowStatsRequest_OutGroup m); pad 4]),
    (concat [u64 (FlowStatsRequest_CookieMask m); enc_Match (FlowStatsRequest_Match m)]).
  split; [reflexivity|]. intro c. cbn [jar_FlowStatsRequest jenc jset]. unfold enc_FlowStatsRequest. cbn [concat]. rewrite <- !app_assoc. reflexivity.
Qed.
Lemma at_FlowMod m : cookie_at jar_FlowMod 0 m.
Proof.
  exists [], (concat (tl [u64 0; u64 (FlowMod_CookieMask m); u8 (FlowMod_Table m); u8 (FlowMod_Command m); u16 (FlowMod_IdleTimeout m); u16 (FlowMod_HardTimeout m); u16 (FlowMod_Priority m); u32 (FlowMod_Buffer m); u32 (FlowMod_OutPort m); u32 (FlowMod_OutGroup m); u16 (FlowMod_Flags m); pad 2; enc_Match (FlowMod_Match m); enc_Instructions (FlowMod_Instructions m)])).
  split; [reflexivity|]. intro c. cbn [jar_FlowMod jenc jset]. unfold enc_FlowMod. cbn [concat tl app]. reflexivity.
Qed.
Lemma at_FlowRemoved m : cookie_at jar_FlowRemoved 0 m.
Proof.
  exists [], (concat [u16 (FlowRemoved_Priority m); u8 (FlowRemoved_Reason m); u8 (FlowRemoved_Table m); u32 (FlowRemoved_DurationSec m); u32 (FlowRemoved_DurationNSec m); u16 (FlowRemoved_IdleTimeout m); u16 (FlowRemoved_HardTimeout m); u64 (FlowRemoved_PacketCount m); u64 (FlowRemoved_ByteCount m); enc_Match (FlowRemoved_Match m)]).
  split; [reflexivity|]. intro c. cbn [jar_FlowRemoved jenc jset]. unfold enc_FlowRemoved. cbn [concat app]. reflexivity.
Qed.
Lemma at_FlowStats m : cookie_at jar_FlowStats 24 m.
Proof.
  set (b1 := concat [u8 (FlowStats_Table m); pad 1; u32 (FlowStats_DurationSec m); u32 (FlowStats_DurationNSec m); u16 (FlowStats_Priority m); u16 (FlowStats_IdleTimeout m); u16 (FlowStats_HardTimeout m); u16 (FlowStats_Flags m); pad 4]).
  set (b2 := concat [u64 (FlowStats_PacketCount m); u64 (FlowStats_ByteCount m); enc_Match (FlowStats_Match m); enc_Instructions (FlowStats_Instructions m)]).
  exists (u16 (uwrap 2 (N.of_nat (length (b1 ++ be_enc 8 0 ++ b2) + 2))) ++ b1), b2.
  split; [reflexivity|]. intro c. cbn [jar_FlowStats jenc jset].
  assert (E : concat [u8 (FlowStats_Table m); pad 1; u32 (FlowStats_DurationSec m); u32 (FlowStats_DurationNSec m); u16 (FlowStats_Priority m); u16 (FlowStats_IdleTimeout m); u16 (FlowStats_HardTimeout m); u16 (FlowStats_Flags m); pad 4; u64 c; u64 (FlowStats_PacketCount m); u64 (FlowStats_ByteCount m); enc_Match (FlowStats_Match m); enc_Instructions (FlowStats_Instructions m)]
    = b1 ++ be_enc 8 c ++ b2) by (unfold b1, b2; cbn [concat]; rewrite <- !app_assoc; reflexivity).
  unfold enc_FlowStats. cbv zeta. unfold set_FlowStats_Cookie. cbn [FlowStats_Table FlowStats_DurationSec FlowStats_DurationNSec FlowStats_Priority FlowStats_IdleTimeout FlowStats_HardTimeout FlowStats_Flags FlowStats_Cookie FlowStats_PacketCount FlowStats_ByteCount FlowStats_Match FlowStats_Instructions].
  rewrite E. cbn [concat]. rewrite app_nil_r, <- app_assoc. do 4 f_equal.
Qed.

(** ** Messages read as other messages *)
Lemma match_then {S} (get : S -> Match) set fs s m tl : wf_Match m ->
  (forall t, fail (seqr fs t tl) = None) -> fail (seqr (sub get set dec_Match :: fs) s (enc_Match m ++ tl)) = None.
Proof.
  intros W F. cbn [seqr]. pose proof (rt_sub get set _ _ _ (rt_Match m W) s tl) as R. rewrite R. cbn [fail val rest]. apply F.
Qed.

Definition before_FlowMod : list (step FlowMod) :=
  [fu 8 set_FlowMod_Cookie; fu 8 set_FlowMod_CookieMask; fu 1 set_FlowMod_Table; fu 1 set_FlowMod_Command; fu 2 set_FlowMod_IdleTimeout; fu 2 set_FlowMod_HardTimeout; fu 2 set_FlowMod_Priority; fu 4 set_FlowMod_Buffer; fu 4 set_FlowMod_OutPort; fu 4 set_FlowMod_OutGroup; fu 2 set_FlowMod_Flags; fpad 2].
Lemma takes_FlowMod : takes 40 (seqr before_FlowMod).
Proof. apply (takes_seqr [8; 8; 1; 1; 2; 2; 2; 4; 4; 4; 2; 2]). unfold before_FlowMod. takes_list. Qed.
Lemma dec_FlowMod_eq : dec_FlowMod = pre (set_FlowMod_Instructions [])
  (seqr (before_FlowMod ++ [sub FlowMod_Match set_FlowMod_Match dec_Match; sub FlowMod_Instructions set_FlowMod_Instructions dec_Instructions])).
Proof. unfold dec_FlowMod, before_FlowMod. cbn [app]. reflexivity. Qed.

Definition before_FlowRemoved : list (step FlowRemoved) :=
  [fu 8 set_FlowRemoved_Cookie; fu 2 set_FlowRemoved_Priority; fu 1 set_FlowRemoved_Reason; fu 1 set_FlowRemoved_Table; fu 4 set_FlowRemoved_DurationSec; fu 4 set_FlowRemoved_DurationNSec; fu 2 set_FlowRemoved_IdleTimeout; fu 2 set_FlowRemoved_HardTimeout; fu 8 set_FlowRemoved_PacketCount; fu 8 set_FlowRemoved_ByteCount].
Lemma takes_FlowRemoved : takes 40 (seqr before_FlowRemoved).
Proof. apply (takes_seqr [8; 2; 1; 1; 4; 4; 2; 2; 8; 8]). unfold before_FlowRemoved. takes_list. Qed.
Lemma dec_FlowRemoved_eq : dec_FlowRemoved = seqr (before_FlowRemoved ++ [sub FlowRemoved_Match set_FlowRemoved_Match dec_Match]).
Proof. unfold dec_FlowRemoved, before_FlowRemoved. cbn [app]. reflexivity. Qed.

Definition before_FlowStatsRequest : list (step FlowStatsRequest) :=
  [fu 1 set_FlowStatsRequest_Table; fpad 3; fu 4 set_FlowStatsRequest_OutPort; fu 4 set_FlowStatsRequest_OutGroup; fpad 4; fu 8 set_FlowStatsRequest_Cookie; fu 8 set_FlowStatsRequest_CookieMask].
Lemma takes_FlowStatsRequest : takes 32 (seqr before_FlowStatsRequest).
Proof. apply (takes_seqr [1; 3; 4; 4; 4; 8; 8]). unfold before_FlowStatsRequest. takes_list. Qed.
Lemma dec_FlowStatsRequest_eq : dec_FlowStatsRequest = seqr (before_FlowStatsRequest ++ [sub FlowStatsRequest_Match set_FlowStatsRequest_Match dec_Match]).
Proof. unfold dec_FlowStatsRequest, before_FlowStatsRequest. cbn [app]. reflexivity. Qed.

Definition before_AggregateStatsRequest : list (step AggregateStatsRequest) :=
  [fu 1 set_AggregateStatsRequest_Table; fpad 3; fu 4 set_AggregateStatsRequest_OutPort; fu 4 set_AggregateStatsRequest_OutGroup; fpad 4; fu 8 set_AggregateStatsRequest_Cookie; fu 8 set_AggregateStatsRequest_CookieMask].
Lemma takes_AggregateStatsRequest : takes 32 (seqr before_AggregateStatsRequest).
Proof. apply (takes_seqr [1; 3; 4; 4; 4; 8; 8]). unfold before_AggregateStatsRequest. takes_list. Qed.
Lemma dec_AggregateStatsRequest_eq : dec_AggregateStatsRequest = seqr (before_AggregateStatsRequest ++ [sub AggregateStatsRequest_Match set_AggregateStatsRequest_Match dec_Match]).
Proof. unfold dec_AggregateStatsRequest, before_AggregateStatsRequest. cbn [app]. reflexivity. Qed.

(** The bytes in front of the match, and the rest. *)
Lemma split_FlowMod m : exists p, enc_FlowMod m = p ++ enc_Match (FlowMod_Match m) ++ enc_Instructions (FlowMod_Instructions m) /\ length p = 40.
Proof.
  exists (concat [u64 (FlowMod_Cookie m); u64 (FlowMod_CookieMask m); u8 (FlowMod_Table m); u8 (FlowMod_Command m); u16 (FlowMod_IdleTimeout m); u16 (FlowMod_HardTimeout m); u16 (FlowMod_Priority m); u32 (FlowMod_Buffer m); u32 (FlowMod_OutPort m); u32 (FlowMod_OutGroup m); u16 (FlowMod_Flags m); pad 2]).
  split; [|reflexivity]. unfold enc_FlowMod. cbn [concat]. rewrite <- !app_assoc, !app_nil_r. reflexivity.
Qed.
Lemma split_FlowRemoved m : exists p, enc_FlowRemoved m = p ++ enc_Match (FlowRemoved_Match m) /\ length p = 40.
Proof.
  exists (concat [u64 (FlowRemoved_Cookie m); u16 (FlowRemoved_Priority m); u8 (FlowRemoved_Reason m); u8 (FlowRemoved_Table m); u32 (FlowRemoved_DurationSec m); u32 (FlowRemoved_DurationNSec m); u16 (FlowRemoved_IdleTimeout m); u16 (FlowRemoved_HardTimeout m); u64 (FlowRemoved_PacketCount m); u64 (FlowRemoved_ByteCount m)]).
  split; [|reflexivity]. unfold enc_FlowRemoved. cbn [concat]. rewrite <- !app_assoc, !app_nil_r. reflexivity.
Qed.
Lemma split_FlowStatsRequest m : exists p, enc_FlowStatsRequest m = p ++ enc_Match (FlowStatsRequest_Match m) /\ length p = 32.
Proof.
  exists (concat [u8 (FlowStatsRequest_Table m); pad 3; u32 (FlowStatsRequest_OutPort m); u32 (FlowStatsRequest_OutGroup m); pad 4; u64 (FlowStatsRequest_Cookie m); u64 (FlowStatsRequest_CookieMask m)]).
  split; [|reflexivity]. unfold enc_FlowStatsRequest. cbn [concat]. rewrite <- !app_assoc, !app_nil_r. reflexivity.
Qed.
Lemma split_AggregateStatsRequest m : exists p, enc_AggregateStatsRequest m = p ++ enc_Match (AggregateStatsRequest_Match m) /\ length p = 32.
Proof.
  exists (concat [u8 (AggregateStatsRequest_Table m); pad 3; u32 (AggregateStatsRequest_OutPort m); u32 (AggregateStatsRequest_OutGroup m); pad 4; u64 (AggregateStatsRequest_Cookie m); u64 (AggregateStatsRequest_CookieMask m)]).
  split; [|reflexivity]. unfold enc_AggregateStatsRequest. cbn [concat]. rewrite <- !app_assoc, !app_nil_r. reflexivity.
Qed.

Ltac cross split_m eq takes_m m :=
  destruct (split_m m) as (p & E & L); rewrite E, eq; unfold pre;
  rewrite (seqr_through _ _ _ _ _ takes_m) by (rewrite app_length; lia);
  rewrite skipn_app_len by exact L.

Lemma removed_as_mod m s : wf_Match (FlowRemoved_Match m) -> fail (dec_FlowMod s (enc_FlowRemoved m)) = None.
Proof.
  intro W. cross split_FlowRemoved dec_FlowMod_eq takes_FlowMod m.
  rewrite <- (app_nil_r (enc_Match _)). apply match_then; [exact W|]. intro t. reflexivity.
Qed.
Lemma mod_as_removed m s : wf_Match (FlowMod_Match m) -> fail (dec_FlowRemoved s (enc_FlowMod m)) = None.
Proof.
  intro W. cross split_FlowMod dec_FlowRemoved_eq takes_FlowRemoved m.
  apply match_then; [exact W|]. intro t. reflexivity.
Qed.
Lemma aggregate_as_flow m s : wf_Match (AggregateStatsRequest_Match m) ->
  fail (dec_FlowStatsRequest s (enc_AggregateStatsRequest m)) = None.
Proof.
  intro W. cross split_AggregateStatsRequest dec_FlowStatsRequest_eq takes_FlowStatsRequest m.
  rewrite <- (app_nil_r (enc_Match _)). apply match_then; [exact W|]. intro t. reflexivity.
Qed.
Lemma flow_as_aggregate m s : wf_Match (FlowStatsRequest_Match m) ->
  fail (dec_AggregateStatsRequest s (enc_FlowStatsRequest m)) = None.
Proof.
  intro W. cross split_FlowStatsRequest dec_AggregateStatsRequest_eq takes_AggregateStatsRequest m.
  rewrite <- (app_nil_r (enc_Match _)). apply match_then; [exact W|]. intro t. reflexivity.
Qed.

(** A reader with the cookie at [off]. *)
Definition reads_at {A} (dec : step A) (get : A -> N) (off : nat) : Prop := forall s x,
  fail (dec s x) = None -> off + 8 <= length x /\ get (val (dec s x)) = num off 8 x.

Lemma accepted_at {A} (dec : step A) zero get off want r x r' : reads_at dec get off ->
  readall_body (Request_Body r) = (x, None) ->
  cookie_match (read_cookie dec zero get) want r = Says true r' -> off + 8 <= length x /\ num off 8 x = want.
Proof.
  intros P H E. destruct (decision dec zero get want r x H) as [_ D].
  destruct (proj1 D (ex_intro _ r' E)) as (m & n & tl & R & G).
  destruct (P zero x) as [L V]; [rewrite R; reflexivity|]. rewrite R in V. cbn [val] in V. split; [exact L|congruence].
Qed.

Lemma decided_at {A} (dec : step A) zero get off want r x : reads_at dec get off ->
  readall_body (Request_Body r) = (x, None) -> fail (dec zero x) = None ->
  cookie_match (read_cookie dec zero get) want r = Says (num off 8 x =? want)%N (after r x).
Proof.
  intros P H F. rewrite (cookie_match_eq _ _ _ _ H). unfold read_cookie. rewrite F. destruct (P zero x F) as [_ V].
  rewrite V. reflexivity.
Qed.

Lemma be_dec_app a b : be_dec (a ++ b) = (be_dec a * 256 ^ N.of_nat (length b) + be_dec b)%N.
Proof.
  induction a as [|x a IH]; cbn [app]; [reflexivity|]. rewrite !be_dec_cons, IH, app_length.
  replace (N.of_nat (length a + length b)) with (N.of_nat (length a) + N.of_nat (length b))%N by lia.
  rewrite N.pow_add_r. lia.
Qed.

Lemma own_num {A} (J : jar A) off m : jset J (jget J m) m = m -> cookie_at J off m -> fits 8 (jget J m) ->
  num off 8 (jenc J m) = jget J m.
Proof. intros E C F. rewrite <- E at 1. apply cookie_at_num; assumption. Qed.

(** Parts of messages at the places of other cookies. *)
Lemma num_part x p b q off w : x = p ++ b ++ q -> length p = off -> length b = w -> num off w x = be_dec b.
Proof. intros -> L K. unfold num. rewrite skipn_app_len by exact L. rewrite firstn_app_len by exact K. reflexivity. Qed.

Lemma dec_buffer a b c d : fits 4 a -> fits 2 b -> fits 1 c -> fits 1 d ->
  be_dec (be_enc 4 a ++ be_enc 2 b ++ be_enc 1 c ++ be_enc 1 d) = (a * 4294967296 + b * 65536 + c * 256 + d)%N.
Proof.
  intros F1 F2 F3 F4. rewrite !be_dec_app, !app_length, !be_enc_length, !be_dec_enc_fits by assumption.
  generalize (eq_refl : (256 ^ N.of_nat (2 + (1 + 1)))%N = 4294967296%N) (eq_refl : (256 ^ N.of_nat (1 + 1))%N = 65536%N)
    (eq_refl : (256 ^ N.of_nat 1)%N = 256%N). intros -> -> ->. lia.
Qed.

Lemma dec_group a : fits 4 a -> be_dec (be_enc 4 a ++ zeros 4) = (a * 4294967296)%N.
Proof.
  intros F. rewrite be_dec_app, be_dec_enc_fits by assumption.
  generalize (eq_refl : (256 ^ N.of_nat (length (zeros 4)))%N = 4294967296%N) (eq_refl : be_dec (zeros 4) = 0%N). intros -> ->. lia.
Qed.

Lemma dec_timeout a b : fits 2 a -> fits 2 b ->
  be_dec (be_enc 2 a ++ be_enc 2 b ++ zeros 4) = (a * 281474976710656 + b * 4294967296)%N.
Proof.
  intros F1 F2. rewrite !be_dec_app, !app_length, !be_enc_length, !be_dec_enc_fits by assumption.
  generalize (eq_refl : (256 ^ N.of_nat (2 + length (zeros 4)))%N = 281474976710656%N)
    (eq_refl : (256 ^ N.of_nat (length (zeros 4)))%N = 4294967296%N) (eq_refl : be_dec (zeros 4) = 0%N). intros -> -> ->. lia.
Qed.

Lemma num_PacketIn m : wf_PacketIn m -> num 0 8 (enc_PacketIn m)
  = (PacketIn_Buffer m * 4294967296 + PacketIn_Length m * 65536 + PacketIn_Reason m * 256 + PacketIn_Table m)%N.
Proof.
  intros (F1 & F2 & F3 & F4 & _). rewrite <- (dec_buffer _ _ _ _ F1 F2 F3 F4).
  apply (num_part _ [] _ (concat [u64 (PacketIn_Cookie m); enc_Match (PacketIn_Match m); pad 2; PacketIn_Data m]));
    [|reflexivity|rewrite !app_length, !be_enc_length; reflexivity].
  unfold enc_PacketIn. cbn [concat app]. rewrite <- !app_assoc. reflexivity.
Qed.

Lemma num_FlowStatsRequest t f m : wf_FlowStatsRequest m ->
  num 16 8 (be_enc 2 t ++ be_enc 2 f ++ zeros 4 ++ enc_FlowStatsRequest m) = (FlowStatsRequest_OutGroup m * 4294967296)%N.
Proof.
  intros (_ & _ & F & _). rewrite <- (dec_group _ F).
  apply (num_part _ (be_enc 2 t ++ be_enc 2 f ++ zeros 4 ++ concat [u8 (FlowStatsRequest_Table m); pad 3; u32 (FlowStatsRequest_OutPort m)]) _
    (concat [u64 (FlowStatsRequest_Cookie m); u64 (FlowStatsRequest_CookieMask m); enc_Match (FlowStatsRequest_Match m)])).
  - unfold enc_FlowStatsRequest. cbn [concat]. rewrite <- !app_assoc. reflexivity.
  - rewrite !app_length. cbn [concat]. rewrite !app_length. unfold u8, u32, pad, zeros. rewrite !be_enc_length, !repeat_length. reflexivity.
  - rewrite app_length, be_enc_length. reflexivity.
Qed.

Lemma num_AggregateStatsRequest t f m : wf_AggregateStatsRequest m ->
  num 16 8 (be_enc 2 t ++ be_enc 2 f ++ zeros 4 ++ enc_AggregateStatsRequest m) = (AggregateStatsRequest_OutGroup m * 4294967296)%N.
Proof.
  intros (_ & _ & F & _). rewrite <- (dec_group _ F).
  apply (num_part _ (be_enc 2 t ++ be_enc 2 f ++ zeros 4 ++ concat [u8 (AggregateStatsRequest_Table m); pad 3; u32 (AggregateStatsRequest_OutPort m)]) _
    (concat [u64 (AggregateStatsRequest_Cookie m); u64 (AggregateStatsRequest_CookieMask m); enc_Match (AggregateStatsRequest_Match m)])).
  - unfold enc_AggregateStatsRequest. cbn [concat]. rewrite <- !app_assoc. reflexivity.
  - rewrite !app_length. cbn [concat]. rewrite !app_length. unfold u8, u32, pad, zeros. rewrite !be_enc_length, !repeat_length. reflexivity.
  - rewrite app_length, be_enc_length. reflexivity.
Qed.

Lemma num_FlowStats t f m : wf_FlowStats m ->
  num 24 8 (be_enc 2 t ++ be_enc 2 f ++ zeros 4 ++ enc_FlowStats m)
  = (FlowStats_HardTimeout m * 281474976710656 + FlowStats_Flags m * 4294967296)%N.
Proof.
  intros (_ & _ & _ & _ & _ & F1 & F2 & _). rewrite <- (dec_timeout _ _ F1 F2).
  unfold enc_FlowStats. cbv zeta. match goal with |- context [u16 (uwrap 2 ?n)] => generalize (uwrap 2 n) as h end. intro h.
  apply (num_part _ (be_enc 2 t ++ be_enc 2 f ++ zeros 4 ++ u16 h ++ concat [u8 (FlowStats_Table m); pad 1; u32 (FlowStats_DurationSec m); u32 (FlowStats_DurationNSec m); u16 (FlowStats_Priority m); u16 (FlowStats_IdleTimeout m)]) _
    (concat [u64 (FlowStats_Cookie m); u64 (FlowStats_PacketCount m); u64 (FlowStats_ByteCount m); enc_Match (FlowStats_Match m); enc_Instructions (FlowStats_Instructions m)])).
  - cbn [concat]. rewrite <- !app_assoc, !app_nil_r. reflexivity.
  - rewrite !app_length. cbn [concat]. rewrite !app_length. unfold u8, u16, u32, pad, zeros. rewrite !be_enc_length, !repeat_length. reflexivity.
  - rewrite !app_length, !be_enc_length. reflexivity.
Qed.
