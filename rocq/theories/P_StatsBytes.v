(** C127: what every byte string is read as, for flow statistics and requests for them. *)
From Verif Require Import InstructionFacts TruncFacts InstrListSpec P_InstrList FlowModel FlowBytesSpec P_FlowBytes.

(** ** Requests *)
Definition query_head : list (step FlowStatsRequest) :=
  [fu 1 set_FlowStatsRequest_Table; fpad 3; fu 4 set_FlowStatsRequest_OutPort; fu 4 set_FlowStatsRequest_OutGroup; fpad 4;
   fu 8 set_FlowStatsRequest_Cookie; fu 8 set_FlowStatsRequest_CookieMask].
Definition query_headed (old : FlowStatsRequest) (inp : bytes) : FlowStatsRequest :=
  MkFlowStatsRequest (num 0 1 inp) (num 4 4 inp) (num 8 4 inp) (num 16 8 inp) (num 24 8 inp) (FlowStatsRequest_Match old).
Lemma query_head_ok old inp : 32 <= length inp -> seqr query_head old inp = Res (query_headed old inp) 32 None (skipn 32 inp).
Proof. intro L. do 32 (destruct inp as [|? inp]; [cbn [length] in L; lia|]). reflexivity. Qed.
Definition query_tail : step FlowStatsRequest := seqr [sub FlowStatsRequest_Match set_FlowStatsRequest_Match dec_Match].
Lemma query_eq old inp : dec_FlowStatsRequest old inp = andthen (seqr query_head) (fun _ _ => query_tail) old inp.
Proof. unfold dec_FlowStatsRequest, query_tail. apply (seqr_app_eq query_head). Qed.

(** C127: every byte string is a complete request for flow statistics, read as such
    without report, or ends before it is complete, which is reported. *)
Theorem C127_flow_query : forall old inp, let r := dec_FlowStatsRequest old inp in let x := val r in
  (fail r = None /\ flow_query_says inp (FlowStatsRequest_Table x) (FlowStatsRequest_OutPort x) (FlowStatsRequest_OutGroup x)
                      (FlowStatsRequest_Cookie x) (FlowStatsRequest_CookieMask x) (FlowStatsRequest_Match x))
  \/ ((fail r = Some EOF \/ fail r = Some UnexpectedEOF) /\ ~ exists t p g c k m, flow_query_says inp t p g c k m).
Proof.
  intros old inp. cbv zeta. rewrite query_eq. destruct (Nat.lt_ge_cases (length inp) 32) as [L|L].
  { right. split; [|intros (t & p & g & c & k & m & H & _); lia]. apply (head_ends [1; 3; 4; 4; 4; 8; 8]); [takes|exact L]. }
  destruct (andthen_long _ query_tail _ _ _ _ _ (query_head_ok old inp L)) as [-> ->].
  destruct (one_eq (sub FlowStatsRequest_Match set_FlowStatsRequest_Match dec_Match) (query_headed old inp) (skipn 32 inp)) as [F V].
  unfold query_tail. rewrite F, V, sub_fail, sub_val. clear F V.
  destruct (match_any (FlowStatsRequest_Match (query_headed old inp)) (skipn 32 inp)) as [(m & c & M & ->)|[F N]].
  - left. split; [reflexivity|]. split; [exact L|]. split; [exact M|]. reflexivity.
  - right. split; [exact F|]. intros (t & p & g & c & k & m & _ & M & _). eauto.
Qed.
Print Assumptions C127_flow_query.

Definition sum_head : list (step AggregateStatsRequest) :=
  [fu 1 set_AggregateStatsRequest_Table; fpad 3; fu 4 set_AggregateStatsRequest_OutPort; fu 4 set_AggregateStatsRequest_OutGroup; fpad 4;
   fu 8 set_AggregateStatsRequest_Cookie; fu 8 set_AggregateStatsRequest_CookieMask].
Definition sum_headed (old : AggregateStatsRequest) (inp : bytes) : AggregateStatsRequest :=
  MkAggregateStatsRequest (num 0 1 inp) (num 4 4 inp) (num 8 4 inp) (num 16 8 inp) (num 24 8 inp) (AggregateStatsRequest_Match old).
Lemma sum_head_ok old inp : 32 <= length inp -> seqr sum_head old inp = Res (sum_headed old inp) 32 None (skipn 32 inp).
Proof. intro L. do 32 (destruct inp as [|? inp]; [cbn [length] in L; lia|]). reflexivity. Qed.
Definition sum_tail : step AggregateStatsRequest := seqr [sub AggregateStatsRequest_Match set_AggregateStatsRequest_Match dec_Match].
Lemma sum_eq old inp : dec_AggregateStatsRequest old inp = andthen (seqr sum_head) (fun _ _ => sum_tail) old inp.
Proof. unfold dec_AggregateStatsRequest, sum_tail. apply (seqr_app_eq sum_head). Qed.

(** C127: likewise for a request for their sum. *)
Theorem C127_sum_query : forall old inp, let r := dec_AggregateStatsRequest old inp in let x := val r in
  (fail r = None /\ flow_query_says inp (AggregateStatsRequest_Table x) (AggregateStatsRequest_OutPort x) (AggregateStatsRequest_OutGroup x)
                      (AggregateStatsRequest_Cookie x) (AggregateStatsRequest_CookieMask x) (AggregateStatsRequest_Match x))
  \/ ((fail r = Some EOF \/ fail r = Some UnexpectedEOF) /\ ~ exists t p g c k m, flow_query_says inp t p g c k m).
Proof.
  intros old inp. cbv zeta. rewrite sum_eq. destruct (Nat.lt_ge_cases (length inp) 32) as [L|L].
  { right. split; [|intros (t & p & g & c & k & m & H & _); lia]. apply (head_ends [1; 3; 4; 4; 4; 8; 8]); [takes|exact L]. }
  destruct (andthen_long _ sum_tail _ _ _ _ _ (sum_head_ok old inp L)) as [-> ->].
  destruct (one_eq (sub AggregateStatsRequest_Match set_AggregateStatsRequest_Match dec_Match) (sum_headed old inp) (skipn 32 inp)) as [F V].
  unfold sum_tail. rewrite F, V, sub_fail, sub_val. clear F V.
  destruct (match_any (AggregateStatsRequest_Match (sum_headed old inp)) (skipn 32 inp)) as [(m & c & M & ->)|[F N]].
  - left. split; [reflexivity|]. split; [exact L|]. split; [exact M|]. reflexivity.
  - right. split; [exact F|]. intros (t & p & g & c & k & m & _ & M & _). eauto.
Qed.
Print Assumptions C127_sum_query.

Example C127_query_ex :
  let inp := [x05] ++ zeros 15 ++ be_enc 8 7 ++ be_enc 8 1 ++ [x00; x01; x00; x04; xff; xff; xff; xff] in
  fail (dec_FlowStatsRequest zero_FlowStatsRequest inp) = None /\ FlowStatsRequest_Cookie (val (dec_FlowStatsRequest zero_FlowStatsRequest inp)) = 7%N
  /\ fail (dec_AggregateStatsRequest zero_AggregateStatsRequest (firstn 39 inp)) = Some UnexpectedEOF.
Proof. vm_compute. repeat split. Qed.

(** ** Flow entries *)
Lemma match_count old b : 4 <= length b -> fail (dec_Match old b) = None -> cnt (dec_Match old b) = match_bytes b.
Proof.
  intros L. destruct (len4 b L) as (b0 & b1 & b2 & b3 & tl & ->). pose proof (dec_Match_eq b0 b1 b2 b3 tl old) as Q. cbv zeta in Q.
  unfold match_bytes. rewrite region_eq, declared_eq, up8_pad. set (n := N.to_nat (be_dec [b2; b3])) in *.
  destruct (xm_loop _ true [] _) as [l [e|]]; rewrite Q; [discriminate|]. cbn [cnt fail]. unfold fpad.
  destruct (Nat.lt_ge_cases (length (skipn (n - 4) tl)) (pad_len n)) as [H|H].
  - rewrite take_short by exact H. cbn [fail]. discriminate.
  - rewrite take_long by exact H. cbn [cnt]. lia.
Qed.

Definition stats_head : list (step (N * FlowStats)) :=
  [fu 2 (fun v s => (v, snd s)); sub snd (fun m s => (fst s, m)) (fu 1 set_FlowStats_Table); fpad 1;
   sub snd (fun m s => (fst s, m)) (fu 4 set_FlowStats_DurationSec); sub snd (fun m s => (fst s, m)) (fu 4 set_FlowStats_DurationNSec);
   sub snd (fun m s => (fst s, m)) (fu 2 set_FlowStats_Priority); sub snd (fun m s => (fst s, m)) (fu 2 set_FlowStats_IdleTimeout);
   sub snd (fun m s => (fst s, m)) (fu 2 set_FlowStats_HardTimeout); sub snd (fun m s => (fst s, m)) (fu 2 set_FlowStats_Flags); fpad 4;
   sub snd (fun m s => (fst s, m)) (fu 8 set_FlowStats_Cookie); sub snd (fun m s => (fst s, m)) (fu 8 set_FlowStats_PacketCount);
   sub snd (fun m s => (fst s, m)) (fu 8 set_FlowStats_ByteCount)].
Definition stats_match : step (N * FlowStats) := sub snd (fun m s => (fst s, m)) (sub FlowStats_Match set_FlowStats_Match dec_Match).
Definition stats_front : step (N * FlowStats) := andthen (seqr stats_head) (fun _ _ => seqr [stats_match]).
Definition stats_list : step (N * FlowStats) :=
  pre (fun s => (fst s, set_FlowStats_Instructions [] (snd s)))
    (sub snd (fun m s => (fst s, m)) (sub FlowStats_Instructions set_FlowStats_Instructions dec_Instructions)).
Definition stats_headed (old : FlowStats) (inp : bytes) : N * FlowStats :=
  (num 0 2 inp, MkFlowStats (num 2 1 inp) (num 4 4 inp) (num 8 4 inp) (num 12 2 inp) (num 14 2 inp) (num 16 2 inp) (num 18 2 inp)
     (num 24 8 inp) (num 32 8 inp) (num 40 8 inp) (FlowStats_Match old) (FlowStats_Instructions old)).
Lemma stats_head_ok old inp : 48 <= length inp -> seqr stats_head (0%N, old) inp = Res (stats_headed old inp) 48 None (skipn 48 inp).
Proof. intro L. do 48 (destruct inp as [|? inp]; [cbn [length] in L; lia|]). reflexivity. Qed.
(** A step that takes [k] bytes or reports their end. *)
Definition eats {S} (k : nat) (f : step S) : Prop := forall s x,
  (length x < k -> fail (f s x) = Some EOF \/ fail (f s x) = Some UnexpectedEOF)
  /\ (k <= length x -> fail (f s x) = None /\ rest (f s x) = skipn k x).
Lemma eats_take {S} k (upd : bytes -> S -> S) : eats k (take_full k upd).
Proof.
  intros s x. split; intro L.
  - rewrite take_short by exact L. cbn [fail]. destruct x; auto.
  - rewrite take_long by exact L. split; reflexivity.
Qed.
Lemma eats_sub {S A} k (get : S -> A) set f : eats k f -> eats k (sub get set f).
Proof. intros E s x. destruct (E (get s) x) as [A1 A2]. unfold sub. cbn [fail rest]. auto. Qed.
Lemma eats_seqr {S} ks (fs : list (step S)) : Forall2 eats ks fs -> forall s x, length x < list_sum ks ->
  fail (seqr fs s x) = Some EOF \/ fail (seqr fs s x) = Some UnexpectedEOF.
Proof.
  induction 1 as [|k f ks fs E _ IH]; intros s x L; [cbn in L; lia|]. change (list_sum (k :: ks)) with (k + list_sum ks) in L.
  destruct (E s x) as [A B]. destruct (Nat.lt_ge_cases (length x) k) as [H|H].
  - specialize (A H). destruct (f s x) as [v n [e|] r] eqn:Ef; cbn [fail] in A; [|destruct A; discriminate].
    rewrite (seqr_err _ _ _ _ _ _ _ _ Ef). exact A.
  - destruct (B H) as [F R]. destruct (f s x) as [v n e r] eqn:Ef. cbn [fail rest] in F, R. subst e r.
    specialize (IH v (skipn k x)). rewrite skipn_length in IH. specialize (IH ltac:(lia)).
    cbn [seqr]. rewrite Ef. cbn [fail val rest]. destruct (seqr fs v (skipn k x)) as [v' n' e' r']. cbn [fail] in *. exact IH.
Qed.
Lemma stats_head_end old inp : length inp < 48 ->
  fail (seqr stats_head (0%N, old) inp) = Some EOF \/ fail (seqr stats_head (0%N, old) inp) = Some UnexpectedEOF.
Proof.
  intro L. apply (eats_seqr [2; 1; 1; 4; 4; 2; 2; 2; 2; 4; 8; 8; 8]); [|exact L]. unfold stats_head.
  repeat (constructor; [first [apply eats_sub, eats_take|apply eats_take]|]). constructor.
Qed.

Lemma front_swap {L S} (l : L) (a a' : step (L * S)) b s inp : a (l, s) inp = a' (l, s) inp ->
  with_local l (andthen a b) s inp = with_local l (andthen a' b) s inp.
Proof. intro E. unfold with_local, andthen. rewrite E. reflexivity. Qed.

Lemma stats_eq old inp : dec_FlowStats old inp
  = with_local 0%N (andthen stats_front (fun n h => limited (Z.of_N (fst h) - Z.of_nat n) stats_list)) old inp.
Proof. apply (front_swap 0%N (seqr (stats_head ++ [stats_match])) stats_front). apply seqr_app_eq. Qed.

Lemma stats_list_eq s reg : let q := dec_Instructions [] reg in
  fail (stats_list s reg) = fail q /\ val (stats_list s reg) = (fst s, set_FlowStats_Instructions (val q) (snd s)).
Proof. split; reflexivity. Qed.

Lemma limited_fv {S} z (f : step S) s inp :
  fail (limited z f s inp) = fail (f s (firstn (Z.to_nat z) inp)) /\ val (limited z f s inp) = val (f s (firstn (Z.to_nat z) inp)).
Proof. split; reflexivity. Qed.

Lemma one_ok {S} (f : step S) s inp v n r : f s inp = Res v n None r -> seqr [f] s inp = Res v n None r.
Proof. intro E. cbn [seqr]. rewrite E. cbn. now rewrite Nat.add_0_r. Qed.

Lemma keeps_sub {S A B} (p : S -> B) (q : A -> B) (get : S -> A) set f : (forall a s, p (set a s) = q a) -> (forall s, q (get s) = p s) ->
  keeps q f -> keeps p (sub get set f).
Proof. intros H1 H2 K s x. unfold sub. cbn [val]. rewrite H1, K. apply H2. Qed.
Lemma keeps_andthen {S B} (p : S -> B) (a b : step S) : keeps p a -> keeps p b -> keeps p (andthen a (fun _ _ => b)).
Proof.
  intros A B' s x. destruct (a s x) as [v n [e|] r] eqn:E.
  - rewrite (andthen_err _ _ _ _ _ _ _ _ E). rewrite <- (A s x), E. reflexivity.
  - rewrite (andthen_ok _ _ _ _ _ _ _ E). cbn [val]. rewrite B', <- (A s x), E. reflexivity.
Qed.
Lemma stats_keeps : keeps (fun s => FlowStats_Instructions (snd s)) stats_front.
Proof.
  apply keeps_andthen; apply keeps_seqr.
  - unfold stats_head. repeat (constructor; [first [apply keeps_take; reflexivity
      |apply (keeps_sub _ FlowStats_Instructions); [reflexivity|reflexivity|apply keeps_take; reflexivity]]|]). constructor.
  - constructor; [|constructor]. apply (keeps_sub _ FlowStats_Instructions); [reflexivity|reflexivity|]. intros s x. reflexivity.
Qed.

(** C127: every byte string is a flow entry, read and reported as such, or ends before
    its match is complete; then the receiver keeps the instructions it had. *)
Theorem C127_flow_stats : forall old inp, let r := dec_FlowStats old inp in
  flow_stats_says inp (val r) (fail r)
  \/ (((fail r = Some EOF \/ fail r = Some UnexpectedEOF) /\ FlowStats_Instructions (val r) = FlowStats_Instructions old)
      /\ ~ exists x v, flow_stats_says inp x v).
Proof.
  intros old inp. cbv zeta. rewrite stats_eq.
  destruct (local_eq 0%N (andthen stats_front (fun n h => limited (Z.of_N (fst h) - Z.of_nat n) stats_list)) old inp) as [F V].
  rewrite F, V. clear F V.
  assert (Bad : forall v n e r, stats_front (0%N, old) inp = Res v n (Some e) r -> e = EOF \/ e = UnexpectedEOF ->
    let q := andthen stats_front (fun n h => limited (Z.of_N (fst h) - Z.of_nat n) stats_list) (0%N, old) inp in
    (fail q = Some EOF \/ fail q = Some UnexpectedEOF) /\ FlowStats_Instructions (snd (val q)) = FlowStats_Instructions old).
  { intros v n e r E P. cbv zeta. rewrite (andthen_err _ _ _ _ _ _ _ _ E). cbn [fail val]. split; [destruct P as [-> | ->]; auto|].
    pose proof (stats_keeps (0%N, old) inp) as K. cbv beta in K. rewrite E in K. exact K. }
  destruct (Nat.lt_ge_cases (length inp) 48) as [L|L].
  { right. split; [|intros (x & v & H & _); lia]. pose proof (stats_head_end old inp L) as A.
    destruct (seqr stats_head (0%N, old) inp) as [v n [e|] r] eqn:E; cbn [fail] in A; [|destruct A; discriminate].
    pose proof (andthen_err _ (fun _ _ => seqr [stats_match]) _ _ _ _ _ _ E) as Q. apply (Bad _ _ _ _ Q). destruct A as [A|A]; injection A as ->; auto. }
  pose proof (stats_head_ok old inp L) as H0. remember (stats_headed old inp) as h eqn:Hh. remember (skipn 48 inp) as b eqn:Hb.
  destruct (match_any (FlowStats_Match (snd h)) b) as [(m & c & M & E)|[F N]].
  - left. pose proof (match_count (FlowStats_Match (snd h)) b (proj1 M)) as C. rewrite E in C. cbn [fail cnt] in C. rewrite (C eq_refl) in E. clear C.
    assert (E1 : stats_match h b = Res (fst h, set_FlowStats_Match m (snd h)) (match_bytes b) None (skipn (match_bytes b) b)).
    { unfold stats_match. apply (sub_eq snd (fun m s => (fst s, m)) _ h b (set_FlowStats_Match m (snd h))). apply sub_eq. exact E. }
    assert (Q : stats_front (0%N, old) inp = Res (fst h, set_FlowStats_Match m (snd h)) (48 + match_bytes b) None (skipn (match_bytes b) b))
      by exact (andthen_both _ (fun _ _ => seqr [stats_match]) _ _ _ _ _ _ _ _ _ H0 (one_ok _ _ _ _ _ _ E1)).
    rewrite (andthen_ok _ _ _ _ _ _ _ Q). cbn [fail val fst].
    match goal with |- context [limited ?z stats_list ?s ?i] => destruct (limited_fv z stats_list s i) as [-> ->] end.
    destruct (stats_list_eq (fst h, set_FlowStats_Match m (snd h)) (firstn (Z.to_nat (Z.of_N (fst h) - Z.of_nat (48 + match_bytes b))) (skipn (match_bytes b) b))) as [-> ->].
    cbn [snd]. replace (skipn (match_bytes b) b) with (skipn (48 + match_bytes b) inp) by (rewrite Hb; symmetry; apply skipn_skipn_add).
    replace (Z.to_nat (Z.of_N (fst h) - Z.of_nat (48 + match_bytes b))) with (N.to_nat (num 0 2 inp) - (48 + match_bytes b)) by (rewrite Hh; unfold stats_headed; cbn [fst]; lia).
    destruct (C67_classification [] (firstn (N.to_nat (num 0 2 inp) - (48 + match_bytes b)) (skipn (48 + match_bytes b) inp))) as (l & Vl & I).
    cbn [app] in Vl. rewrite Vl. subst h b. split; [exact L|]. split; [exact M|]. split; [exact I|]. reflexivity.
  - right. split.
    + assert (X : exists e, fail (seqr stats_head (0%N, old) inp) = None /\ fail (dec_Match (FlowStats_Match (snd h)) b) = Some e /\ (e = EOF \/ e = UnexpectedEOF))
        by (destruct F as [F|F]; eexists; rewrite H0; (split; [reflexivity|split; [exact F|auto]])).
      destruct X as (e & _ & Fe & P). destruct (dec_Match (FlowStats_Match (snd h)) b) as [m n e' r] eqn:D. cbn [fail] in Fe. subst e'.
      assert (E1 : stats_match h b = Res (fst h, set_FlowStats_Match m (snd h)) n (Some e) r).
      { unfold stats_match. apply (sub_eq snd (fun m s => (fst s, m)) _ h b (set_FlowStats_Match m (snd h))). apply sub_eq. exact D. }
      pose proof (andthen_both _ (fun _ _ => seqr [stats_match]) _ _ _ _ _ _ _ _ _ H0 (seqr_err _ [] _ _ _ _ _ _ E1)) as Q.
      exact (Bad _ _ _ _ Q P).
    + intros (x & v & _ & M & _). subst b. eauto.
Qed.
Print Assumptions C127_flow_stats.

(** C127: the report about a byte string that is a flow entry is the one due to its
    instructions, whatever else is said of it. *)
Theorem C127_flow_stats_report : forall old inp x v, flow_stats_says inp x v -> fail (dec_FlowStats old inp) = v.
Proof.
  intros old inp x v H. destruct (C127_flow_stats old inp) as [(_ & _ & I & _)|[_ N]]; [|exfalso; eauto].
  destruct H as (_ & _ & I' & _). pose proof (C67_verdict [] _ _ _ I) as A. pose proof (C67_verdict [] _ _ _ I') as B. congruence.
Qed.
Print Assumptions C127_flow_stats_report.

Example C127_flow_stats_ex :
  let inp := be_enc 2 64 ++ [x03] ++ zeros 45 ++ [x00; x01; x00; x04; xff; xff; xff; xff] ++ [x00; x01; x00; x08; x09; x00; x00; x00] ++ [xab; xcd] in
  let r := dec_FlowStats zero_FlowStats inp in
  fail r = None /\ FlowStats_Table (val r) = 3%N /\ FlowStats_Instructions (val r) = [IGotoTable 9] /\ rest r = [xab; xcd]
  /\ fail (dec_FlowStats zero_FlowStats (firstn 55 inp)) = Some UnexpectedEOF.
Proof. vm_compute. repeat split. Qed.
