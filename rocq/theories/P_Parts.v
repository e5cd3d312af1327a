(** C109: answers in several parts under concurrent handlers. *)
From Verif Require Import RequestSpec RequestFacts ServerSpec ServerFacts ConnSeqFacts HandlerFacts P_Server P_Session HandsModel HandsSpec P_Hands PairSpec PartsSpec.
From Verif Require Import FixedModel FixedSpec FixedFacts P_Fixed FlowModel FlowSpec GroupModel MeterModel ListSpec TableModel TableSpec.
From Verif Require P_Flow P_List P_Table ListFacts LoopFacts.
From Coq Require Import Lia Permutation.

Lemma Forall2_filter {A B} (R : A -> B -> Prop) (p : A -> bool) (p' : B -> bool) l l' :
  Forall2 R l l' -> (forall x y, In x l -> R x y -> p x = p' y) -> Forall2 R (filter p l) (filter p' l').
Proof.
  induction 1 as [|x y l l' H F IH]; intro E; cbn [filter]; [constructor|].
  rewrite <- (E x y (or_introl eq_refl) H). assert (G : Forall2 R (filter p l) (filter p' l')) by (apply IH; intros; apply E; auto; right; assumption).
  destruct (p x); [constructor; assumption|exact G].
Qed.

Lemma Forall2_map_l {A B C} (R : B -> C -> Prop) (g : A -> B) l l' : Forall2 R (map g l) l' <-> Forall2 (fun x y => R (g x) y) l l'.
Proof.
  split; revert l'; induction l as [|x l IH]; intros l' H; cbn [map] in *; inversion H; subst; constructor; auto.
Qed.

Lemma collects_all {A} (d : step A) zero enc wf view : entry_kind d zero enc wf view ->
  forall l, Forall wf l -> collects d zero (concat (map enc l)) (map view l) EOF.
Proof.
  intros [K E] l. induction 1 as [|v l W _ IH]; [apply collects_end; exact E|]. cbn [map concat].
  destruct (K v (concat (map enc l)) W) as (V & F & R). rewrite <- V. apply collects_one; [exact F|]. rewrite R. exact IH.
Qed.

(** What the reply [hp] to a request of version [v] is received as. *)
Definition reply_received (v : N) (hp : Header * option payload) (q : Request) : Prop :=
  received (if (Header_Version (fst hp) =? 0)%N then v else Header_Version (fst hp))
    (Header_Type (fst hp)) (Header_Transaction (fst hp)) (fst (content (BCopy (snd hp) [] None false))) q.

Lemma part_read {A} (d : step A) zero enc wf view t more l q : entry_kind d zero enc wf view -> fits 2 t -> Forall wf l ->
  Request_Body q = BBuf (part_body enc t more l) ->
  read_part d zero q (MkMultipartReply t (if more then 1 else 0)) (map view l).
Proof.
  intros K T W B. exists (part_body enc t more l). eexists. split; [exact B|]. split; [reflexivity|].
  set (m := MkMultipartReply t (if more then 1 else 0)%N).
  assert (WM : wf_MultipartReply m) by (split; [exact T|destruct more; vm_compute; reflexivity]).
  assert (E : part_body enc t more l = enc_MultipartReply m ++ concat (map enc l)).
  { unfold part_body, enc_MultipartReply, u16, pad. cbn [concat MultipartReply_Type MultipartReply_Flags m].
    rewrite <- !app_assoc. reflexivity. }
  rewrite E. pose proof (C38_fixed_roundtrip KMultipartReply m zero_MultipartReply (concat (map enc l)) WM) as RT.
  cbn [FixedModel.dec FixedModel.enc normal] in RT. rewrite RT. cbn [val fail rest]. split; [reflexivity|]. split; [reflexivity|].
  eapply collects_all; eassumption.
Qed.

Lemma gather_parts {A} (d : step A) zero enc wf view t v x w : entry_kind d zero enc wf view -> fits 2 t ->
  forall parts qs, parts <> [] -> Forall (Forall wf) parts ->
  Forall2 (reply_received w) (in_parts enc t v x parts) qs ->
  gathers d zero t qs (map view (concat parts)) [].
Proof.
  intros K T. induction parts as [|p ps IH]; intros qs N W F; [congruence|].
  cbn [in_parts] in F. inversion F as [|hp q l qs' R F' E1 E2]. subst. inversion W as [|p0 ps0 Wp Wps]. subst.
  unfold reply_received in R. cbn [fst snd Header_Version Header_Type Header_Transaction] in R. destruct R as (_ & B & _).
  change (fst (content (BCopy (Some (MkPayload (part_body enc t match ps with [] => false | _ => true end p) None)) [] None false)))
    with (part_body enc t match ps with [] => false | _ => true end p) in B.
  destruct ps as [|p' ps].
  - inversion F'. subst. cbn [concat]. rewrite app_nil_r. eapply gathers_last; [eapply part_read; eassumption|reflexivity|reflexivity].
  - cbn [concat]. rewrite map_app. eapply gathers_more; [eapply part_read; eassumption|reflexivity|reflexivity|].
    apply IH; [discriminate|exact Wps|exact F'].
Qed.

(** C109: handlers of one connection run in any way and write in any interleaving;
    every reply carries the transaction of its request, the transactions are
    different.  Of the messages the client receives those of one transaction are
    the parts of that answer in order, so that putting them together gives the
    entries of that answer, all of them, in order, and no message of that
    transaction is left. *)
Theorem C109_gathered : forall lim sq n sch k f ms c c' ts lg sched qs e r,
  let s := srun sch (sstart lim sq n) in sent k s ms ->
  length (calls (story k s)) = length ms -> all_returned (story k s) ->
  NoDup (map xid ms) ->
  (forall q, In q ms -> fits 1 (Header_Version (Request_Header q)) /\ fits 4 (xid q)
     /\ Forall (fun hp => plain_reply hp /\ Header_Transaction (fst hp) = xid q
                  /\ fits 1 (Header_Version (fst hp)) /\ fits 1 (Header_Type (fst hp))) (f q)) ->
  fine c -> on_wire c = [] -> hrun f (story k s) (c, [], []) (c', ts, lg) ->
  receive_all (S (length lg)) (MkReader (on_wire c') sched EOF false) = (qs, e, r) ->
  e = Some EOF
  /\ forall q A (d : step A) zero enc wf view t v parts, In q ms ->
     entry_kind d zero enc wf view -> fits 2 t -> parts <> [] -> Forall (Forall wf) parts ->
     f q = in_parts enc t v (xid q) parts ->
     gathers d zero t (filter (fun m => (xid m =? xid q)%N) qs) (map view (concat parts)) [].
Proof.
  intros lim sq n sch k f ms c c' ts lg sched qs e r s S LC AR ND P F W R RC.
  assert (PP : forall q, In q ms -> Forall plain_reply (f q)).
  { intros q Hq. destruct (P q Hq) as (_ & _ & H). eapply Forall_impl; [|exact H]. intros hp Hp. apply Hp. }
  destruct (C108_whole lim sq n sch k f ms c c' ts lg S PP F W R) as ((es & E1 & E2) & _ & _ & H1 & _ & H2). fold s in E2, H1, H2.
  specialize (H2 AR). set (cs := calls (story k s)) in *.
  assert (PM : Permutation cs ms).
  { destruct (C65_at_most_once lim sq n sch k ms S) as (w & PW). fold s in PW. fold cs in PW.
    pose proof (Permutation_length PW) as LW. rewrite app_length in LW. destruct w; [|cbn in LW; lia]. rewrite app_nil_r in PW. exact PW. }
  set (rq := fun x : nat * (Header * option payload) => nth (fst x) cs zero_Request).
  assert (IL : forall x, In x lg -> In (rq x) ms /\ In (snd x) (f (rq x))).
  { intros x Hx. specialize (H1 x Hx). destruct (nth_error cs (fst x)) as [q|] eqn:Q; [|apply nth_error_None in Q; lia].
    unfold rq. rewrite (nth_error_nth _ _ zero_Request Q). split; [apply (Permutation_in _ PM); eapply nth_error_In; exact Q|].
    rewrite <- (H2 _ _ Q). unfold written. apply in_map. apply filter_In. split; [exact Hx|apply Nat.eqb_refl]. }
  set (msg := fun x => (if (Header_Version (fst (snd x)) =? 0)%N then Header_Version (Request_Header (rq x)) else Header_Version (fst (snd x)),
                        Header_Type (fst (snd x)), Header_Transaction (fst (snd x)), fst (content (BCopy (snd (snd x)) [] None false)))).
  assert (FO : Forall2 frame_of es (map msg lg)).
  { clear - E2. induction E2 as [|x y lg es H _ IH]; cbn [map]; constructor; auto. }
  assert (AO : Forall msg_ok (map msg lg)).
  { apply Forall_forall. intros m Hm. apply in_map_iff in Hm. destruct Hm as (x & <- & Hx).
    destruct (IL x Hx) as [I1 I2]. destruct (P _ I1) as (V & X & G). rewrite Forall_forall in G.
    destruct (G _ I2) as ((b & C & L) & T & V' & T'). split; [|rewrite C; exact L].
    split; [|split; [exact T'|rewrite T; exact X]]. destruct (Header_Version (fst (snd x)) =? 0)%N; assumption. }
  rewrite E1 in RC. destruct (receive_stream _ AO _ FO sched) as (qs0 & r1 & E3 & RB & _).
  rewrite map_length, RC in E3. injection E3 as <- -> <-. split; [reflexivity|].
  intros q A d zero enc wf view t v parts Hq K T NP WP EF.
  apply (proj1 (Forall2_map_l received_as msg lg qs)) in RB.
  assert (HJ : exists j, nth_error cs j = Some q) by (apply In_nth_error, (Permutation_in _ (Permutation_sym PM)), Hq).
  destruct HJ as (j & Hj).
  assert (ND' : NoDup (map xid cs)) by (eapply Permutation_NoDup; [apply Permutation_map, Permutation_sym, PM|exact ND]).
  assert (G : Forall2 (fun x m => received_as (msg x) m) (filter (fun x => fst x =? j) lg) (filter (fun m => (xid m =? xid q)%N) qs)).
  { apply Forall2_filter; [exact RB|]. intros x m Hx RM. destruct RM as (HM & _). unfold xid at 1. rewrite HM. cbn [Header_Transaction].
    destruct (IL x Hx) as [I1 I2]. destruct (P _ I1) as (_ & _ & G). rewrite Forall_forall in G. destruct (G _ I2) as (_ & TX & _).
    rewrite TX. destruct (Nat.eqb_spec (fst x) j) as [E|E].
    - unfold rq. rewrite E, (nth_error_nth _ _ zero_Request Hj). symmetry. apply N.eqb_refl.
    - symmetry. apply N.eqb_neq. intro X. apply E. specialize (H1 x Hx). rewrite NoDup_nth_error in ND'.
      apply ND'; [rewrite map_length; exact H1|]. rewrite !nth_error_map, Hj.
      rewrite (nth_error_nth' cs zero_Request H1). cbn [option_map]. f_equal. exact X. }
  apply (gather_parts d zero enc wf view t v (xid q) (Header_Version (Request_Header q)) K T); auto.
  rewrite <- EF, <- (H2 j q Hj). unfold written. apply Forall2_map_l.
  eapply Forall2_impl'; [|exact G]. intros x m Hx RM. apply filter_In in Hx. destruct Hx as [_ Hx]. apply Nat.eqb_eq in Hx.
  unfold received_as, msg, rq in RM. rewrite Hx, (nth_error_nth _ _ zero_Request Hj) in RM. exact RM.
Qed.
Print Assumptions C109_gathered.

(** C109: the kinds of entries.  Flow statistics arrive as they were sent, entries
    of fixed size (ports, statistics of tables, ports and queues) up to what C38
    says of names and addresses, table features up to what C53 says of names;
    group statistics and meter configurations without their lists. *)
Theorem C109_kinds :
  entry_kind dec_FlowStats zero_FlowStats enc_FlowStats wf_FlowStats (fun m => m)
  /\ (forall k old, 0 < size k -> entry_kind (dec k) old (enc k) (wf k) (normal k))
  /\ entry_kind dec_TableFeatures zero_TableFeatures enc_TableFeatures wf_TableFeatures features_arrive
  /\ entry_kind dec_GroupStats zero_GroupStats enc_GroupStats wf_GroupStats (set_GroupStats_BucketStats [])
  /\ entry_kind dec_MeterConfig zero_MeterConfig enc_MeterConfig wf_MeterConfig (set_MeterConfig_Bands []).
Proof.
  split; [|split; [|split; [|split]]].
  - split; [|vm_compute; reflexivity]. intros v tl W. rewrite (P_Flow.C48_flowstats_roundtrip v zero_FlowStats tl W). auto.
  - intros k old Z. split; [intros v tl W; rewrite (C38_fixed_roundtrip k v old tl W); auto|].
    clear - Z. destruct k; cbn [size] in Z; try lia; reflexivity.
  - split; [|vm_compute; reflexivity]. intros v tl W. rewrite (TableFacts.rt_TableFeatures v W zero_TableFeatures tl). auto.
  - split; [|vm_compute; reflexivity]. intros v tl W. rewrite (P_List.C51_groupstats v zero_GroupStats tl W). auto.
  - split; [|vm_compute; reflexivity]. intros v tl W. rewrite (P_List.C51_meterconfig v zero_MeterConfig tl W). auto.
Qed.
Print Assumptions C109_kinds.

(** C109: for group descriptions and meter statistics the same program never gets
    to the end of the first part. *)
Lemma never_ends {A} (d : step A) zero (enc : A -> bytes) (wf : A -> Prop) :
  (forall v tl, wf v -> fail (d zero (enc v ++ tl)) = None /\ rest (d zero (enc v ++ tl)) = tl) ->
  fail (d zero []) = None /\ rest (d zero []) = [] ->
  forall b l e, collects d zero b l e -> forall vs, Forall wf vs -> b <> concat (map enc vs).
Proof.
  intros K [E R]. induction 1 as [b e F|b l e F _ IH]; intros vs W X; subst b.
  - destruct W as [|v vs W _]; cbn [map concat] in F; [congruence|]. destruct (K v (concat (map enc vs)) W). congruence.
  - destruct W as [|v vs W Ws].
    + apply (IH [] (Forall_nil _)). exact R.
    + apply (IH vs Ws). cbn [map concat]. apply K. exact W.
Qed.

Theorem C109_endless : forall q m,
  (forall l t more es, Forall wf_GroupDescStats es -> fits 2 t -> Request_Body q = BBuf (part_body enc_GroupDescStats t more es) ->
     ~ read_part dec_GroupDescStats zero_GroupDescStats q m l)
  /\ (forall l t more es, Forall wf_MeterStats es -> fits 2 t -> Request_Body q = BBuf (part_body enc_MeterStats t more es) ->
     ~ read_part dec_MeterStats zero_MeterStats q m l).
Proof.
  assert (H : forall (x : bytes) (t : N) (more : bool), fits 2 t ->
    dec_MultipartReply zero_MultipartReply (be_enc 2 t ++ be_enc 2 (if more then 1 else 0) ++ repeat x00 4 ++ x)
    = Res (MkMultipartReply t (if more then 1 else 0)) 8 None x).
  { intros x t more T. set (m := MkMultipartReply t (if more then 1 else 0)%N).
    assert (WM : wf_MultipartReply m) by (split; [exact T|destruct more; vm_compute; reflexivity]).
    pose proof (C38_fixed_roundtrip KMultipartReply m zero_MultipartReply x WM) as RT.
    etransitivity; [|exact RT]. reflexivity. }
  intros q m. split; intros l t more es W T B (b & r & B' & D & _ & _ & C);
    rewrite B in B'; injection B' as <-; unfold part_body in D; rewrite H in D by exact T; subst r; cbn [rest] in C.
  - eapply (never_ends _ _ enc_GroupDescStats wf_GroupDescStats); [| |exact C|exact W|reflexivity].
    + intros v tl Wv. rewrite (P_List.C51_groupdesc v zero_GroupDescStats tl Wv). auto.
    + destruct (LoopFacts.groupdesc_short zero_GroupDescStats [] ltac:(cbn; lia)) as (F & _ & R). auto.
  - eapply (never_ends _ _ enc_MeterStats wf_MeterStats); [| |exact C|exact W|reflexivity].
    + intros v tl Wv. rewrite (P_List.C51_meterstats v zero_MeterStats tl Wv). auto.
    + destruct (LoopFacts.meterstats_short zero_MeterStats [] ltac:(cbn; lia)) as (F & _ & R). auto.
Qed.
Print Assumptions C109_endless.

(** Two requests for flow statistics, each answered in two parts at the same time;
    the parts arrive in turns and are put together by transaction. *)
Definition pflow (n : N) : FlowStats := MkFlowStats 0 n 0 5 0 0 0 n 1 64 (MkMatch 1 []) [].
Definition pparts (q : Request) : list (list FlowStats) :=
  if (xid q =? 70)%N then [[pflow 1; pflow 2]; [pflow 3]] else [[]; [pflow 4; pflow 5]].
Definition panswer (q : Request) : list (Header * option payload) := in_parts enc_FlowStats 1 0 (xid q) (pparts q).

Lemma pparts_wf q : In q [hq1; hq2] -> Forall (Forall wf_FlowStats) (pparts q) /\ pparts q <> [].
Proof.
  assert (WF : Forall wf_FlowStats [pflow 1; pflow 2; pflow 3; pflow 4; pflow 5]).
  { repeat (constructor; [repeat split; try (cbn; lia); repeat constructor; cbn; auto; lia|]). constructor. }
  inversion WF as [|x1 l1 W1 V1]. inversion V1 as [|x2 l2 W2 V2]. inversion V2 as [|x3 l3 W3 V3]. inversion V3 as [|x4 l4 W4 V4].
    inversion V4 as [|x5 l5 W5 V5]. subst.
    intros [<-|[<-|[]]]; (split; [|discriminate]); repeat (constructor; auto).
Qed.

Example C109_ex : exists c' ts lg qs,
  sent 0 hserver [hq1; hq2] /\ length (calls (story 0 hserver)) = 2 /\ all_returned (story 0 hserver)
  /\ NoDup (map xid [hq1; hq2])
  /\ (forall q, In q [hq1; hq2] -> fits 1 (Header_Version (Request_Header q)) /\ fits 4 (xid q)
       /\ Forall (fun hp => plain_reply hp /\ Header_Transaction (fst hp) = xid q
                  /\ fits 1 (Header_Version (fst hp)) /\ fits 1 (Header_Type (fst hp))) (panswer q)
       /\ Forall (Forall wf_FlowStats) (pparts q) /\ pparts q <> [])
  /\ hrun panswer (story 0 hserver) (new_conn 0 (MkTr [] [] 0 None), [], []) (c', ts, lg)
  /\ map fst lg = [0; 1; 0; 1]
  /\ fst (receive_all (S (length lg)) (MkReader (on_wire c') [2; 9; 30] EOF false)) = (qs, Some EOF)
  /\ map xid qs = [70; 81; 70; 81]%N
  /\ gathers dec_FlowStats zero_FlowStats 1 (filter (fun m => (xid m =? 70)%N) qs) [pflow 1; pflow 2; pflow 3] []
  /\ gathers dec_FlowStats zero_FlowStats 1 (filter (fun m => (xid m =? 81)%N) qs) [pflow 4; pflow 5] [].
Proof.
  unfold hserver. set (s := srun hsched (sstart 0 false 1)).
  destruct (hexec panswer (hacts [AWrite 0; AWrite 1; AWrite 0; AWrite 1] []) [] (new_conn 0 (MkTr [] [] 0 None), [], []))
    as [[es [[c' ts] lg]]|] eqn:E; [|exfalso; vm_compute in E; discriminate].
  destruct (receive_all (S (length lg)) (MkReader (on_wire c') [2; 9; 30] EOF false)) as [[qs e] r] eqn:RC.
  exists c', ts, lg, qs. pose proof (hexec_run _ _ _ _ _ _ _ (hrun_nil _ _) E) as R.
  assert (ES : es = story 0 s).
  { vm_compute in E. injection E as <- _ _ _. vm_compute. reflexivity. }
  rewrite ES in R.
  assert (P1 : sent 0 s [hq1; hq2]) by (eexists; split; vm_compute; reflexivity).
  assert (P2 : length (calls (story 0 s)) = 2) by (vm_compute; reflexivity).
  assert (P3 : all_returned (story 0 s)) by (vm_compute; reflexivity).
  assert (P4 : NoDup (map xid [hq1; hq2])).
  { constructor; [intros [X|[]]; discriminate X|]. constructor; [intros []|constructor]. }
  assert (P5 : forall q, In q [hq1; hq2] -> fits 1 (Header_Version (Request_Header q)) /\ fits 4 (xid q)
       /\ Forall (fun hp => plain_reply hp /\ Header_Transaction (fst hp) = xid q
                  /\ fits 1 (Header_Version (fst hp)) /\ fits 1 (Header_Type (fst hp))) (panswer q)).
  { intros q [<-|[<-|[]]]; (split; [vm_compute; reflexivity|]); (split; [vm_compute; reflexivity|]);
      (constructor; [|constructor; [|constructor]]);
      (split; [eexists; split; [reflexivity|vm_compute; discriminate]|]); (split; [reflexivity|]); split; vm_compute; reflexivity. }
  assert (FI : fine (new_conn 0 (MkTr [] [] 0 None))).
  { split; [reflexivity|]. split; [|reflexivity]. split; [reflexivity|]. split; [reflexivity|]. intros d X. discriminate X. }
  destruct (C109_gathered 0 false 1 hsched 0 panswer [hq1; hq2] (new_conn 0 (MkTr [] [] 0 None)) c' ts lg [2; 9; 30] qs e r
    P1 P2 P3 P4 P5 FI eq_refl R RC) as [EE G].
  split; [exact P1|]. split; [exact P2|]. split; [exact P3|]. split; [exact P4|].
  split; [intros q Hq; destruct (P5 q Hq) as (A & B & C); destruct (pparts_wf q Hq); auto|]. split; [exact R|].
  subst e. split; [|split; [rewrite RC; reflexivity|split; [|split]]].
  - vm_compute in E. injection E as _ _ _ <-. reflexivity.
  - clear - E RC. vm_compute in E. injection E as _ <- _ <-. vm_compute in RC. injection RC as <- _. reflexivity.
  - destruct (pparts_wf hq1 (or_introl eq_refl)) as [W1 W2].
    apply (G hq1 FlowStats dec_FlowStats zero_FlowStats enc_FlowStats wf_FlowStats (fun m => m) 1%N 0%N (pparts hq1)); auto;
      [left; reflexivity|apply C109_kinds|vm_compute; reflexivity].
  - destruct (pparts_wf hq2 (or_intror (or_introl eq_refl))) as [W1 W2].
    apply (G hq2 FlowStats dec_FlowStats zero_FlowStats enc_FlowStats wf_FlowStats (fun m => m) 1%N 0%N (pparts hq2)); auto;
      [right; left; reflexivity|apply C109_kinds|vm_compute; reflexivity].
Qed.

(** C109: putting messages together in the order of their arrival, whatever their
    transactions, can give entries of both answers. *)
Theorem C109_unsorted_refuted : exists sch parts c' ts lg qs left,
  let s := srun sch (sstart 0 false 1) in sent 0 s [hq1; hq2] /\ all_returned (story 0 s)
  /\ hrun (fun q => in_parts enc_FlowStats 1 0 (xid q) (parts q)) (story 0 s) (new_conn 0 (MkTr [] [] 0 None), [], []) (c', ts, lg)
  /\ fst (receive_all (S (length lg)) (MkReader (on_wire c') [] EOF false)) = (qs, Some EOF)
  /\ exists l, gathers dec_FlowStats zero_FlowStats 1 qs l left /\ forall q, In q [hq1; hq2] -> l <> concat (parts q).
Proof.
  destruct (hexec panswer (hacts [AWrite 0; AWrite 1; AWrite 1] [AWrite 0]) [] (new_conn 0 (MkTr [] [] 0 None), [], []))
    as [[es [[c' ts] lg]]|] eqn:E; [|exfalso; vm_compute in E; discriminate].
  pose proof (hexec_run _ _ _ _ _ _ _ (hrun_nil _ _) E) as R.
  assert (ES : es = story 0 (srun hsched (sstart 0 false 1))).
  { vm_compute in E. injection E as <- _ _ _. vm_compute. reflexivity. }
  rewrite ES in R.
  set (m := fun more x l => let b := part_body enc_FlowStats 1 more l in
    MkRequest (MkHeader 4 19 (8 + lenN b) x) (BBuf b) 1 3 (Z.of_nat (length b))).
  exists hsched, pparts, c', ts, lg, [m true 70 [pflow 1; pflow 2]; m true 81 []; m false 81 [pflow 4; pflow 5]; m false 70 [pflow 3]]%N, [m false 70 [pflow 3]]%N.
  cbv zeta. split; [eexists; split; vm_compute; reflexivity|]. split; [vm_compute; reflexivity|]. split; [exact R|]. split.
  { clear - E. vm_compute in E. injection E as _ <- _ <-. vm_compute. reflexivity. }
  destruct (pparts_wf hq1 (or_introl eq_refl)) as [W1 _]. destruct (pparts_wf hq2 (or_intror (or_introl eq_refl))) as [W2 _].
  inversion W1 as [|? ? A1 _]. inversion W2 as [|? ? A2 A3]. inversion A3 as [|? ? A4 _]. subst.
  exists [pflow 1; pflow 2; pflow 4; pflow 5]. split.
  - assert (K := proj1 C109_kinds).
    assert (P : forall more x l, Forall wf_FlowStats l ->
      read_part dec_FlowStats zero_FlowStats (m more x l) (MkMultipartReply 1 (if more then 1 else 0)) l).
    { intros more x l W. rewrite <- (map_id l) at 2. eapply part_read; [exact K|vm_compute; reflexivity|exact W|reflexivity]. }
    apply (gathers_more _ _ _ _ _ [pflow 1; pflow 2] _ [pflow 4; pflow 5] _ (P true 70%N _ A1)); [reflexivity|reflexivity|].
    apply (gathers_more _ _ _ _ _ [] _ [pflow 4; pflow 5] _ (P true 81%N _ A2)); [reflexivity|reflexivity|].
    apply (gathers_last _ _ _ _ _ _ _ (P false 81%N _ A4)); reflexivity.
  - intros q [<-|[<-|[]]]; vm_compute; discriminate.
Qed.
Print Assumptions C109_unsorted_refuted.
