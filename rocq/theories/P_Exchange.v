(** C106: requests and replies from one side to the other and back. *)
From Verif Require Import RequestSpec RequestFacts MuxFacts PairSpec P_Pair ServerSpec SessionModel P_Session ConnSeqFacts ExchangeSpec.
From Coq Require Import Lia.

(** ** Dispatches and the programs they come from *)
Definition tracked (prog : nat -> list mop) (s : mux) : Prop :=
  (forall i r, dispatched s i r -> In (OServe r) (prog i))
  /\ (forall i r, in_hand (mat (mthreads s i)) = Some r -> In (OServe r) (prog i))
  /\ (forall i r, In (OServe r) (prog i) ->
        In (OServe r) (mtodo (mthreads s i)) \/ in_hand (mat (mthreads s i)) = Some r
        \/ mat (mthreads s i) = MDead \/ dispatched s i r).

Lemma dispatched_same s s' i r : mresults s' = mresults s -> dispatched s i r -> dispatched s' i r.
Proof. intros E (snap & c & r' & H). exists snap, c, r'. rewrite E. exact H. Qed.
Lemma dispatched_more s s' x i r : mresults s' = mresults s ++ [x] -> dispatched s i r -> dispatched s' i r.
Proof. intros E (snap & c & r' & H). exists snap, c, r'. rewrite E. apply in_or_app. left. exact H. Qed.
Lemma dispatched_last s s' j i r : mresults s' = mresults s ++ [j] -> dispatched s' i r ->
  dispatched s i r \/ exists snap c r', j = (i, Served r snap c r').
Proof.
  intros E (snap & c & r' & H). rewrite E in H. apply in_app_or in H. destruct H as [H|[H|[]]].
  - left. exists snap, c, r'. exact H.
  - right. exists snap, c, r'. exact H.
Qed.

Lemma tracked_step fs prog i s s' : from_prog prog s -> tracked prog s -> mtrans fs i s s' -> tracked prog s'.
Proof.
  intros [FP _] (A & B & C) H. unfold tracked.
  destruct H as [r l Ha Ht He Hr R Th|m h once l es x Ha Ht Hg Hr He Hr' R Th|snap r0 r Ha He Hr R Th
    |snap rest r0 r Ha Hp He Hr R Th|snap rest r0 r e rest' r' Ha Hp Hm He Hr R Th|snap rest r0 r e r' Ha Hi Hm Ho He Hr R Th
    |snap rest r0 r e r' Ha Hi Hm Ho He Hr R Th|snap e r0 r Ha Hr Hg He Hr' R Th|snap e r0 r Ha Hr Hg He Hr' R Th].
  - (* begin *)
    split; [intros j q D; apply A; eapply dispatched_same; [symmetry; exact R|exact D]|]. split.
    + intros j q. at_thread j i Th; cbn [mat in_hand]; [|apply B]. intro E. injection E as <-.
      destruct (FP i) as [d Hd]. rewrite Hd, Ht. apply in_or_app. right. left. reflexivity.
    + intros j q Hq. specialize (C j q Hq). at_thread j i Th; cbn [mat in_hand mtodo].
      * rewrite Ha, Ht in C. cbn [in_hand] in C. destruct C as [[C|C]|[C|[C|C]]]; try discriminate.
        -- injection C as <-. auto.
        -- auto.
        -- right. right. right. eapply dispatched_same; eassumption.
      * destruct C as [C|[C|[C|C]]]; auto. right. right. right. eapply dispatched_same; eassumption.
  - (* registration *)
    split; [intros j q D; apply A; destruct (dispatched_last _ _ _ _ _ R D) as [D'|(a & b & c & D')]; [exact D'|discriminate D']|].
    split.
    + intros j q. at_thread j i Th; cbn [mat in_hand]; [discriminate|apply B].
    + intros j q Hq. specialize (C j q Hq). at_thread j i Th; cbn [mat in_hand mtodo].
      * rewrite Ha, Ht in C. cbn [in_hand] in C. destruct C as [[C|C]|[C|[C|C]]]; try discriminate; auto.
        right. right. right. eapply dispatched_more; eassumption.
      * destruct C as [C|[C|[C|C]]]; auto. right. right. right. eapply dispatched_more; eassumption.
  - (* none *)
    split; [intros j q D; destruct (dispatched_last _ _ _ _ _ R D) as [D'|(a & b & c & D')];
            [apply A, D'|injection D' as <- <- <- <- <-; apply B; rewrite Ha; reflexivity]|].
    split; [intros j q; at_thread j i Th; cbn [mat in_hand]; [discriminate|apply B]|].
    intros j q Hq. specialize (C j q Hq). at_thread j i Th; cbn [mat in_hand mtodo].
    + rewrite Ha in C. cbn [in_hand] in C. destruct C as [C|[C|[C|C]]]; auto; try discriminate; right; right; right.
      * injection C as <-. exists snap, NoMatch, r. rewrite R. apply in_or_app. right. left. reflexivity.
      * eapply dispatched_more; eassumption.
    + destruct C as [C|[C|[C|C]]]; auto. right. right. right. eapply dispatched_more; eassumption.
  - (* panic *)
    split; [intros j q D; apply A; eapply dispatched_same; [symmetry; exact R|exact D]|].
    split; [intros j q; at_thread j i Th; cbn [mat in_hand]; [discriminate|apply B]|].
    intros j q Hq. specialize (C j q Hq). at_thread j i Th; cbn [mat in_hand mtodo]; [auto|].
    destruct C as [C|[C|[C|C]]]; auto. right. right. right. eapply dispatched_same; eassumption.
  - (* next *)
    split; [intros j q D; apply A; eapply dispatched_same; [symmetry; exact R|exact D]|].
    split; [intros j q; at_thread j i Th; cbn [mat in_hand]; [intro E; apply B; rewrite Ha; exact E|apply B]|].
    intros j q Hq. specialize (C j q Hq). at_thread j i Th; cbn [mat in_hand mtodo].
    + rewrite Ha in C. cbn [in_hand] in C. destruct C as [C|[C|[C|C]]]; auto; try discriminate.
      right. right. right. eapply dispatched_same; eassumption.
    + destruct C as [C|[C|[C|C]]]; auto. right. right. right. eapply dispatched_same; eassumption.
  - (* found *)
    split; [intros j q D; apply A; eapply dispatched_same; [symmetry; exact R|exact D]|].
    split; [intros j q; at_thread j i Th; cbn [mat in_hand]; [intro E; apply B; rewrite Ha; exact E|apply B]|].
    intros j q Hq. specialize (C j q Hq). at_thread j i Th; cbn [mat in_hand mtodo].
    + rewrite Ha in C. cbn [in_hand] in C. destruct C as [C|[C|[C|C]]]; auto; try discriminate.
      right. right. right. eapply dispatched_same; eassumption.
    + destruct C as [C|[C|[C|C]]]; auto. right. right. right. eapply dispatched_same; eassumption.
  - (* chose *)
    split; [intros j q D; destruct (dispatched_last _ _ _ _ _ R D) as [D'|(a & b & c & D')];
            [apply A, D'|injection D' as <- <- <- <- <-; apply B; rewrite Ha; reflexivity]|].
    split; [intros j q; at_thread j i Th; cbn [mat in_hand]; [discriminate|apply B]|].
    intros j q Hq. specialize (C j q Hq). at_thread j i Th; cbn [mat in_hand mtodo].
    + rewrite Ha in C. cbn [in_hand] in C. destruct C as [C|[C|[C|C]]]; auto; try discriminate; right; right; right.
      * injection C as <-. eexists _, _, _. rewrite R. apply in_or_app. right. left. reflexivity.
      * eapply dispatched_more; eassumption.
    + destruct C as [C|[C|[C|C]]]; auto. right. right. right. eapply dispatched_more; eassumption.
  - (* took *)
    split; [intros j q D; destruct (dispatched_last _ _ _ _ _ R D) as [D'|(a & b & c & D')];
            [apply A, D'|injection D' as <- <- <- <- <-; apply B; rewrite Ha; reflexivity]|].
    split; [intros j q; at_thread j i Th; cbn [mat in_hand]; [discriminate|apply B]|].
    intros j q Hq. specialize (C j q Hq). at_thread j i Th; cbn [mat in_hand mtodo].
    + rewrite Ha in C. cbn [in_hand] in C. destruct C as [C|[C|[C|C]]]; auto; try discriminate; right; right; right.
      * injection C as <-. eexists _, _, _. rewrite R. apply in_or_app. right. left. reflexivity.
      * eapply dispatched_more; eassumption.
    + destruct C as [C|[C|[C|C]]]; auto. right. right. right. eapply dispatched_more; eassumption.
  - (* lost *)
    split; [intros j q D; destruct (dispatched_last _ _ _ _ _ R D) as [D'|(a & b & c & D')];
            [apply A, D'|injection D' as <- <- <- <- <-; apply B; rewrite Ha; reflexivity]|].
    split; [intros j q; at_thread j i Th; cbn [mat in_hand]; [discriminate|apply B]|].
    intros j q Hq. specialize (C j q Hq). at_thread j i Th; cbn [mat in_hand mtodo].
    + rewrite Ha in C. cbn [in_hand] in C. destruct C as [C|[C|[C|C]]]; auto; try discriminate; right; right; right.
      * injection C as <-. eexists _, _, _. rewrite R. apply in_or_app. right. left. reflexivity.
      * eapply dispatched_more; eassumption.
    + destruct C as [C|[C|[C|C]]]; auto. right. right. right. eapply dispatched_more; eassumption.
Qed.

Lemma tracked_run fs sch prog : tracked prog (mrun fs sch (mstart prog)).
Proof.
  assert (G : from_prog prog (mrun fs sch (mstart prog)) /\ tracked prog (mrun fs sch (mstart prog))); [|apply G].
  apply (mrun_inv fs (fun s => from_prog prog s /\ tracked prog s)).
  - split; [exact (from_prog_run fs [] prog)|].
    split; [intros i r (? & ? & ? & [])|]. split; [intros i r E; discriminate E|]. intros i r H. left. exact H.
  - intros i s s' (A & B) H. split; [eapply from_prog_step; eassumption|eapply tracked_step; eassumption].
Qed.

(** ** Handlers registered before anything is dispatched *)
Definition covers (e : entry) (s : mux) : Prop :=
  (forall i, match mat (mthreads s i) with
     | MScan snap _ _ _ | MTaking snap _ _ _ => In e snap \/ 1 <= count (ekey e) (disposed s)
     | _ => True end)
  /\ forall i r snap c r', In (i, Served r snap c r') (mresults s) -> In e snap \/ 1 <= count (ekey e) (disposed s).

Lemma covers_step fs i s s' e : known s -> conserved s -> In e (registrations s) -> count (ekey e) (registrations s) <= 1 ->
  covers e s -> mtrans fs i s s' -> covers e s'.
Proof.
  intros [KN _] [_ CV] HI HC [P Q] H. pose proof (disposed_grow _ _ _ _ (ekey e) H) as G.
  assert (Up : forall snap, In e snap \/ 1 <= count (ekey e) (disposed s) -> In e snap \/ 1 <= count (ekey e) (disposed s'))
    by (intros snap [?|?]; [left; assumption|right; lia]).
  assert (P' : forall j, match mat (mthreads s j) with
     | MScan snap _ _ _ | MTaking snap _ _ _ => In e snap \/ 1 <= count (ekey e) (disposed s')
     | _ => True end) by (intro j; specialize (P j); destruct (mat (mthreads s j)); auto).
  assert (Old : mresults s' = mresults s -> forall j r snap c r', In (j, Served r snap c r') (mresults s') -> In e snap \/ 1 <= count (ekey e) (disposed s')).
  { intros R j r snap c r' I. rewrite R in I. apply Up. eapply Q. exact I. }
  assert (New : forall x, mresults s' = mresults s ++ [x] ->
     (forall j r snap c r', x = (j, Served r snap c r') -> In e snap \/ 1 <= count (ekey e) (disposed s')) ->
     forall j r snap c r', In (j, Served r snap c r') (mresults s') -> In e snap \/ 1 <= count (ekey e) (disposed s')).
  { intros x R N j r snap c r' I. rewrite R in I. apply in_app_or in I. destruct I as [I|[I|[]]]; [|eapply N; exact I].
    apply Up. eapply Q. exact I. }
  pose proof (P' i) as Pi.
  destruct H as [r l Ha Ht He Hr R Th|m h once l es x Ha Ht Hg Hr He Hr' R Th|snap r0 r Ha He Hr R Th
    |snap rest r0 r Ha Hp He Hr R Th|snap rest r0 r e' rest' r' Ha Hp Hm He Hr R Th|snap rest r0 r e' r' Ha Hi Hm Ho He Hr R Th
    |snap rest r0 r e' r' Ha Hi Hm Ho He Hr R Th|snap e' r0 r Ha Hr Hg He Hr' R Th|snap e' r0 r Ha Hr Hg He Hr' R Th];
    rewrite Ha in Pi; (split; [intro j; at_thread j i Th; cbn [mat]; [|apply P']|]);
    try exact I; try exact Pi; try (apply Old; exact R);
    try (apply (New _ R); intros j r1 snap1 c1 r1' E; try discriminate E; injection E as <- <- <- <- <-; exact Pi).
  (* begin: the entry is in the map, or was taken *)
  destruct (CV (ekey e)) as [C1 _]. pose proof (count_in e _ HI) as C2.
  destruct (count (ekey e) (disposed s)) eqn:D; [|right; lia]. left.
  assert (K : registered (ekey e) (entries s) = true).
  { destruct (registered (ekey e) (entries s)) eqn:K; [reflexivity|]. apply count_zero in K. lia. }
  apply registered_spec in K. destruct K as (e1 & I1 & E1).
  assert (e1 = e) by (apply (count_two (ekey e) (registrations s)); auto). subst e1. exact I1.
Qed.

Lemma covers_run fs prog sch0 e : let s0 := mrun fs sch0 (mstart prog) in quiet s0 -> In e (registrations s0) ->
  forall sch1, let s := mrun fs sch1 s0 in count (ekey e) (registrations s) <= 1 -> covers e s.
Proof.
  intros s0 [Q1 Q2] HI sch1. induction sch1 as [|a sch IH] using rev_ind.
  - cbv zeta. intros _. split.
    + intro i. specialize (Q1 i). cbn [mrun fold_left]. destruct (mat (mthreads s0 i)); try exact I; discriminate Q1.
    + intros i r snap c r' H. exfalso. apply (Q2 i r). exists snap, c, r'. exact H.
  - cbv zeta in *. rewrite mrun_app. set (s := mrun fs sch s0) in *. intro HC.
    destruct (registrations_run fs [a] s) as [_ G]. specialize (G (ekey e)). specialize (IH ltac:(lia)).
    change (mrun fs [a] s) with (mact fs s a) in *. unfold mact in *.
    destruct (mstep fs (fst a) (snd a) s) as [s'|] eqn:E; [|exact IH].
    assert (S : s = mrun fs (sch0 ++ sch) (mstart prog)) by (unfold s, s0; rewrite mrun_app; reflexivity).
    eapply (covers_step fs (fst a) s s'); [rewrite S; apply known_run|rewrite S; apply conserved_run| |lia|exact IH|eapply mstep_trans; exact E].
    apply (registrations_run fs sch s0), HI.
Qed.

(** C106: a one-shot handler registered before anything is dispatched gets exactly
    one message as soon as any message of its transaction was dispatched, whatever
    the interleaving. *)
Theorem C106_registered_first : forall fs prog sch0 sch1 e x, plain_prog fs prog ->
  let s0 := mrun fs sch0 (mstart prog) in let s := mrun fs sch1 s0 in
  quiet s0 -> In e (registrations s0) -> waits fs s e x ->
  (exists i r, dispatched s i r /\ xid r = x) ->
  exists q, given (ekey e) s = [q] /\ xid q = x /\ exists i, In (OServe q) (prog i).
Proof.
  intros fs prog sch0 sch1 e x Hp s0 s Q HI W (i & r & (snap & c & r' & D) & Hx).
  assert (S : s = mrun fs (sch0 ++ sch1) (mstart prog)) by (unfold s, s0; rewrite mrun_app; reflexivity).
  pose proof (C104_exactly_one fs prog (sch0 ++ sch1) e x Hp) as T. cbv zeta in T. rewrite <- S in T.
  destruct (T W) as (T1 & T2 & T3).
  assert (L : length (given (ekey e) s) = 1).
  { destruct W as (W1 & W2 & W3 & W4 & W5).
    pose proof (covers_run fs prog sch0 e Q HI sch1) as [_ CR]; [fold s0; fold s; lia|].
    fold s0 in CR. fold s in CR. destruct (CR _ _ _ _ _ D) as [In'|Di].
    - apply T3. exists i, r, snap, c, r'. auto.
    - pose proof (given_disposed fs prog (sch0 ++ sch1) e Hp) as GD. cbv zeta in GD. rewrite <- S in GD.
      destruct (GD W1 W2 W3) as [GD' _]. lia. }
  destruct (given (ekey e) s) as [|q [|? ?]] eqn:G; try discriminate L. exists q. split; [reflexivity|].
  split; [apply T1; left; reflexivity|].
  assert (X : In q (given (ekey e) s)) by (rewrite G; left; reflexivity).
  unfold given in X. apply in_flat_map in X. destruct X as ([j o] & H & X).
  destruct o as [?|r1 snap1 [e'| |] r1']; cbn [snd] in X; try contradiction.
  destruct (same_key (ekey e') (ekey e)); [|contradiction]. destruct X as [->|[]].
  exists j. pose proof (tracked_run fs (sch0 ++ sch1) prog) as (A & _). rewrite <- S in A. apply A.
  exists snap1, (Chosen e'), r1'. exact H.
Qed.
Print Assumptions C106_registered_first.

(** ** A client and a server *)
Lemma Forall2_in_r {A B} (R : A -> B -> Prop) l l' b : Forall2 R l l' -> In b l' -> exists a, In a l /\ R a b.
Proof. induction 1 as [|x y l l' H _ IH]; intros []; [subst; exists x|destruct (IH H0) as (a & ? & ?); exists a]; cbn; auto. Qed.
Lemma Forall2_in_l {A B} (R : A -> B -> Prop) l l' a : Forall2 R l l' -> In a l -> exists b, In b l' /\ R a b.
Proof. induction 1 as [|x y l l' H _ IH]; intros []; [subst; exists y|destruct (IH H0) as (b & ? & ?); exists b]; cbn; auto. Qed.

(** The answer as a message. *)
Definition reply_msg (f : Request -> list (Header * option payload)) (q : Request) : N * N * N * bytes :=
  match f q with
  | (hd, pl) :: _ => (if (Header_Version hd =? 0)%N then Header_Version (Request_Header q) else Header_Version hd,
                      Header_Type hd, Header_Transaction hd, fst (content (BCopy pl [] None false)))
  | [] => (0%N, 0%N, 0%N, [])
  end.

(** The client's side: the replies [qs] were received, among them one to each request,
    each an answer to one of the requests [ms] that the server received. *)
Lemma client_gets n draw hdr fs body reqs f ms qs prog sch0 sch1 :
  let msg := fun p => (Header_Version (hdr p), Header_Type (hdr p), awaited draw hdr p, body p) in
  (forall p, p < n -> from_header draw hdr fs p /\ asks draw hdr p (reqs p) (body p)) ->
  (forall p q, p < n -> q < n -> awaited draw hdr p = awaited draw hdr q -> p = q) ->
  Forall2 received_as (map msg (seq 0 n)) ms ->
  (forall q, In q ms -> exists v t b, answers_with f q v t b
     /\ reply_msg f q = (if (v =? 0)%N then Header_Version (Request_Header q) else v, t, xid q, b)) ->
  (forall m, In m qs -> exists q, In q ms /\ received_as (reply_msg f q) m) ->
  (forall q, In q ms -> exists m, In m qs /\ received_as (reply_msg f q) m) ->
  (forall i k h once, In (OHandle (Some k) h once) (prog i) -> once = true /\ exists p, p < n /\ k = KPtr p) ->
  (forall m, (exists i, In (OServe m) (prog i)) <-> In m qs) ->
  let s0 := mrun fs sch0 (mstart prog) in let s1 := mrun fs sch1 s0 in
  quiet s0 -> (forall p, p < n -> registered (KPtr p) (registrations s0) = true) ->
  finished s1 -> (forall k, count k (registrations s1) <= 1) ->
  forall p, p < n -> exists q v t b m, In q ms
       /\ received (Header_Version (hdr p)) (Header_Type (hdr p)) (awaited draw hdr p) (body p) q
       /\ answers_with f q v t b /\ given (KPtr p) s1 = [m]
       /\ received (if (v =? 0)%N then Header_Version (hdr p) else v) t (awaited draw hdr p) b m.
Proof.
  intros msg HA HD RA MO RB1 RB2 HP HQ s0 s1 Q0 HR FI HC.
  intros p Hp. destruct (HA p Hp) as (FH & _).
  assert (PL : plain_prog fs prog).
  { intros i k1 h1 once Hi m. destruct (HP i k1 h1 once Hi) as [_ (p1 & Hp1 & ->)]. cbn [asked].
    destruct (HA p1 Hp1) as (F1 & _). rewrite F1. unfold transaction_matcher. cbn [snd]. eauto. }
  assert (S1 : s1 = mrun fs (sch0 ++ sch1) (mstart prog)) by (unfold s1, s0; rewrite mrun_app; reflexivity).
  assert (Sh : forall e1, In e1 (registrations s1) -> eonce e1 = true /\ exists p1, p1 < n /\ ekey e1 = KPtr p1).
  { intros e1 H1. rewrite S1 in H1. destruct (proj2 (from_prog_run fs (sch0 ++ sch1) prog) e1 H1) as [i Hi]. exact (HP i _ _ _ Hi). }
  pose proof (HR p Hp) as HRp. apply registered_spec in HRp. destruct HRp as (en & Hen & Ek).
  assert (Hen1 : In en (registrations s1)) by (apply (registrations_run fs sch1 s0), Hen).
  destruct (Forall2_in_l _ _ _ (msg p) RA) as (q & Hq & Rq); [apply in_map, in_seq; lia|].
  destruct (MO q Hq) as (v & t & b & AW & RM).
  destruct (RB2 q Hq) as (m & Hm & Rm).
  assert (Xm : forall m', In m' qs -> exists q', In q' ms /\ received_as (reply_msg f q') m' /\ xid m' = xid q').
  { intros m' Hm'. destruct (RB1 m' Hm') as (q' & Hq' & R). exists q'. split; [exact Hq'|]. split; [exact R|].
    destruct (MO q' Hq') as (v' & t' & b' & _ & RM'). rewrite RM' in R. destruct R as (R & _). unfold xid at 1. rewrite R. reflexivity. }
  assert (Xq : xid q = awaited draw hdr p) by (destruct Rq as (R & _); unfold xid; rewrite R; reflexivity).
  assert (Hx : xid m = awaited draw hdr p).
  { rewrite RM in Rm. destruct Rm as (R & _). unfold xid at 1. rewrite R. exact Xq. }
  destruct (C106_registered_first fs prog sch0 sch1 en (awaited draw hdr p) PL Q0 Hen) as (m' & G & X & i & Hi).
  - fold s0. fold s1. destruct (Sh en Hen1) as [On _]. split; [exact Hen1|]. split; [exact On|]. split.
    + pose proof (HC (ekey en)). pose proof (count_in en _ Hen1). lia.
    + split.
      * intro z. destruct en as [k1 h1 o1 i1]. cbn [ekey] in Ek. subst k1. apply awaited_accepts, FH.
      * intros e1 z He1 Acc Hz. destruct (Sh e1 He1) as (_ & p1 & Hp1 & Ek1).
        destruct e1 as [k1 h1 o1 i1]. cbn [ekey] in Ek1. subst k1. destruct (HA p1 Hp1) as (F1 & _).
        apply (awaited_accepts draw hdr fs p1 h1 o1 i1 z F1) in Acc. rewrite Hz in Acc. apply HD in Acc; auto. subst p1.
        apply (count_two (KPtr p) (registrations s1)); auto.
  - fold s0. fold s1. destruct (proj2 (HQ m) Hm) as [i Hi]. exists i, m. split; [|exact Hx].
    pose proof (tracked_run fs (sch0 ++ sch1) prog) as (_ & _ & T). rewrite <- S1 in T.
    destruct (T i m Hi) as [T1|[T1|[T1|T1]]]; [| | |exact T1]; destruct (FI i) as [F1 F2]; rewrite ?F1, ?F2 in T1; [contradiction|discriminate|discriminate].
  - fold s0 in G. fold s1 in G. rewrite Ek in G.
    destruct (Xm m' (proj1 (HQ m') (ex_intro _ i Hi))) as (q' & Hq' & R' & X').
    destruct (Forall2_in_r _ _ _ _ RA Hq') as (z & Hz & Rz). apply in_map_iff in Hz. destruct Hz as (p' & <- & Hp').
    apply in_seq in Hp'. cbn [received_as msg] in Rz.
    assert (p' = p).
    { apply HD; [lia|exact Hp|]. rewrite <- X, X'. destruct Rz as (Z & _). unfold xid. rewrite Z. reflexivity. }
    subst p'. destruct (MO q' Hq') as (v' & t' & b' & AW' & RM'). exists q', v', t', b', m'.
    split; [exact Hq'|]. split; [exact Rz|]. split; [exact AW'|]. split; [exact G|].
    rewrite RM', <- X', X in R'. destruct Rz as (Z & _). rewrite Z in R'. exact R'.
Qed.

Lemma requests_arrive n draw hdr fs body reqs :
  let msg := fun p => (Header_Version (hdr p), Header_Type (hdr p), awaited draw hdr p, body p) in
  (forall p, p < n -> from_header draw hdr fs p /\ asks draw hdr p (reqs p) (body p)) ->
  Forall2 frame_of (flat_map (fun p => wcalls (write_to sink (reqs p))) (seq 0 n)) (map msg (seq 0 n))
  /\ Forall msg_ok (map msg (seq 0 n)).
Proof.
  intros msg HA.
  assert (HV : forall p, Header_Version (fst (transaction_matcher (draw p) (hdr p))) = Header_Version (hdr p)
                      /\ Header_Type (fst (transaction_matcher (draw p) (hdr p))) = Header_Type (hdr p)).
  { intro p. unfold transaction_matcher. cbn [fst]. destruct (Header_Transaction (hdr p) =? 0)%N; auto. }
  (* the requests arrive *)
  assert (FR : Forall2 frame_of (flat_map (fun p => wcalls (write_to sink (reqs p))) (seq 0 n)) (map msg (seq 0 n))
               /\ Forall msg_ok (map msg (seq 0 n))).
  { assert (G : forall l, (forall p, In p l -> p < n) ->
      Forall2 frame_of (flat_map (fun p => wcalls (write_to sink (reqs p))) l) (map msg l) /\ Forall msg_ok (map msg l)).
    { induction l as [|p l IH]; intro Hl; [split; constructor|]. destruct (IH (fun p H => Hl p (or_intror H))) as [I1 I2].
      destruct (HA p (Hl p (or_introl eq_refl))) as (_ & A1 & A2 & A3 & A4).
      destruct (write_sink (reqs p) (body p) A2 A3) as (x & X1 & _ & _ & X2). rewrite A1 in X2.
      destruct (HV p) as [V1 V2]. rewrite V1, V2 in X2. cbn [flat_map map]. rewrite X1. split; constructor; auto.
      split; assumption. }
    apply G. intros p H. apply in_seq in H. lia. }
  exact FR.
Qed.

Lemma replies_fit n draw hdr fs body reqs f ms :
  let msg := fun p => (Header_Version (hdr p), Header_Type (hdr p), awaited draw hdr p, body p) in
  (forall p, p < n -> from_header draw hdr fs p /\ asks draw hdr p (reqs p) (body p)) ->
  Forall2 received_as (map msg (seq 0 n)) ms ->
  (forall q, In q ms -> exists v t b, answers_with f q v t b) ->
  forall q, In q ms -> exists v t b, answers_with f q v t b /\ msg_ok (reply_msg f q)
     /\ reply_msg f q = (if (v =? 0)%N then Header_Version (Request_Header q) else v, t, xid q, b).
Proof.
  intros msg HA RA HH.
  intros q Hq. destruct (HH q Hq) as (v & t & b & AW). exists v, t, b. split; [exact AW|].
    destruct AW as (hd & pl & E & V & T & X & C & L & F1 & F2). unfold reply_msg. rewrite E, C, V, T, X. cbn [fst].
    split; [|reflexivity]. split; [|exact L]. split; [|split; [exact F2|]].
    - destruct (v =? 0)%N; [|exact F1]. destruct (Forall2_in_r _ _ _ _ RA Hq) as (m & Hm & R).
      apply in_map_iff in Hm. destruct Hm as (p & <- & Hp). apply in_seq in Hp.
      destruct R as (R & _). rewrite R. cbn [Header_Version]. destruct (HA p ltac:(lia)) as (_ & _ & _ & _ & G & _). exact G.
    - destruct (Forall2_in_r _ _ _ _ RA Hq) as (m & Hm & R).
      apply in_map_iff in Hm. destruct Hm as (p & <- & Hp). apply in_seq in Hp.
      destruct R as (R & _). unfold xid. rewrite R. cbn [Header_Transaction].
      destruct (HA p ltac:(lia)) as (_ & _ & _ & _ & _ & _ & G). exact G.
Qed.

(** C106: requests with distinct transactions are written to a connection and their
    handlers registered before anything is dispatched; the server, handling the
    connection's requests in sequence among whatever other connections, answers
    each with one message under the same transaction; both streams are read in
    any pieces; the client's goroutines dispatch what they read in any order and
    interleaving.  When they are done, every handler was given exactly one
    message: the answer of the server's handler to its own request. *)
Theorem C106_exchange : forall n draw hdr fs body reqs h f nl sch k sched sched' ms e r qs e' r' prog sch0 sch1,
  (* the client's requests *)
  (forall p, p < n -> from_header draw hdr fs p /\ asks draw hdr p (reqs p) (body p)) ->
  (forall p q, p < n -> q < n -> awaited draw hdr p = awaited draw hdr q -> p = q) ->
  (* what the server reads and does *)
  receive_all (S n) (MkReader (concat (flat_map (fun p => wcalls (write_to sink (reqs p))) (seq 0 n))) sched EOF false) = (ms, e, r) ->
  let s := srun sch (sstart 0 true nl) in sent k s ms -> settled s ->
  (forall q, In q ms -> acts_as h f q /\ exists v t b, answers_with f q v t b) ->
  (* what the client reads *)
  receive_all (S n) (MkReader (on_wire (enacts h (story k s) (new_conn 0 (MkTr [] [] 0 None)))) sched' EOF false) = (qs, e', r') ->
  (* what the client does *)
  (forall i k h once, In (OHandle (Some k) h once) (prog i) -> once = true /\ exists p, p < n /\ k = KPtr p) ->
  (forall m, (exists i, In (OServe m) (prog i)) <-> In m qs) ->
  let s0 := mrun fs sch0 (mstart prog) in let s1 := mrun fs sch1 s0 in
  quiet s0 -> (forall p, p < n -> registered (KPtr p) (registrations s0) = true) ->
  finished s1 -> (forall k, count k (registrations s1) <= 1) ->
  e = Some EOF /\ e' = Some EOF
  /\ forall p, p < n -> exists q v t b m, In q ms
       /\ received (Header_Version (hdr p)) (Header_Type (hdr p)) (awaited draw hdr p) (body p) q
       /\ answers_with f q v t b /\ given (KPtr p) s1 = [m]
       /\ received (if (v =? 0)%N then Header_Version (hdr p) else v) t (awaited draw hdr p) b m.
Proof.
  intros n draw hdr fs body reqs h f nl sch k sched sched' ms e r qs e' r' prog sch0 sch1
    HA HD RC s SE Q HH RC' HP HQ s0 s1 Q0 HR FI HC.
  set (msg := fun p => (Header_Version (hdr p), Header_Type (hdr p), awaited draw hdr p, body p)).
  destruct (requests_arrive n draw hdr fs body reqs HA) as [FR OK]. fold msg in FR, OK.
  destruct (receive_stream _ OK _ FR sched) as (ms0 & r0 & E0 & RA & _). rewrite map_length, seq_length, RC in E0.
  injection E0 as <- -> <-. split; [reflexivity|].
  (* the answers are written *)
  assert (P : Forall (fun q => acts_as h f q /\ Forall plain_reply (f q)) ms).
  { apply Forall_forall. intros q Hq. destruct (HH q Hq) as (A & v & t & b & hd & pl & E & _ & _ & _ & C & L & _).
    split; [exact A|]. rewrite E. constructor; [|constructor]. exists b. auto. }
  destruct (C86_all_answered h f nl sch k ms (new_conn 0 (MkTr [] [] 0 None)) SE Q P) as (out & (ess & -> & RT) & W).
  { split; [reflexivity|]. split; [|reflexivity]. split; [reflexivity|]. split; [reflexivity|]. intros d X. discriminate X. }
  { reflexivity. }
  fold s in W. rewrite W in RC'.
  pose proof (replies_fit n draw hdr fs body reqs f ms HA RA (fun q Hq => proj2 (HH q Hq))) as MO.
  assert (FO : Forall2 frame_of (concat ess) (map (reply_msg f) ms)).
  { clear - RT HH. induction RT as [|q x ms ess H _ IH]; [constructor|]. cbn [concat map].
    destruct (HH q (or_introl eq_refl)) as (_ & v & t & b & hd & pl & E & _). rewrite E in H.
    inversion H as [|a y b0 l' H1 H2 H3 H4]. subst. inversion H2. subst. cbn [app].
    constructor; [|apply IH; intros q' Hq'; apply HH; right; exact Hq'].
    unfold reply_msg. rewrite E. exact H1. }
  assert (AO : Forall msg_ok (map (reply_msg f) ms)).
  { apply Forall_forall. intros m Hm. apply in_map_iff in Hm. destruct Hm as (q & <- & Hq). destruct (MO q Hq) as (v & t & b & _ & G & _). exact G. }
  destruct (receive_stream _ AO _ FO sched') as (qs0 & r1 & E1 & RB & _).
  assert (LM : length ms = n).
  { rewrite <- (seq_length n 0), <- (map_length msg). clear - RA. induction RA; cbn [length]; auto. }
  rewrite map_length, LM, RC' in E1. injection E1 as <- -> <-. split; [reflexivity|].
  (* the answers are dispatched *)
  apply (client_gets n draw hdr fs body reqs f ms qs prog sch0 sch1); auto.
  - intros q Hq. destruct (MO q Hq) as (v & t & b & A & _ & B). exists v, t, b. auto.
  - intros m Hm. destruct (Forall2_in_r _ _ _ _ RB Hm) as (z & Hz & R). apply in_map_iff in Hz.
    destruct Hz as (q & <- & Hq). eauto.
  - intros q Hq. apply (Forall2_in_l _ _ _ _ RB). apply in_map, Hq.
Qed.
Print Assumptions C106_exchange.

(** Two echo requests, one under transaction 70 set by the caller, one under a
    transaction drawn at random; the replies are dispatched by two goroutines, in
    the opposite order. *)
Definition ehdr (p : nat) : Header := MkHeader 4 2 0 (if p =? 0 then 70 else 0).
Definition ebody (p : nat) : bytes := if p =? 0 then [xaa] else [xbb; xcc].
Definition ereqs (p : nat) : Request :=
  set_header (fst (transaction_matcher (draws p) (ehdr p))) (new_request 2 (Some (MkPayload (ebody p) None))).
Definition earrived : list Request :=
  [MkRequest (MkHeader 4 2 9 70) (BBuf [xaa]) 1 3 1; MkRequest (MkHeader 4 2 10 81) (BBuf [xbb; xcc]) 1 3 2].
Definition ereplies : list Request :=
  [MkRequest (MkHeader 4 3 9 70) (BBuf [xaa]) 1 3 1; MkRequest (MkHeader 4 3 10 81) (BBuf [xbb; xcc]) 1 3 2].
Definition eserver : server :=
  srun (repeat (MLoop 0 earrived) 5
        ++ flat_map (fun _ => [MRecv 0; MServe 0; MServe 0; MServe 0; MServe 0; MServe 0; MServe 0]) (repeat tt 2)
        ++ [MRecv 0] ++ repeat (MServe 0) 4) (sstart 0 true 1).
Definition eprog (i : nat) : list mop :=
  match i with
  | 0 => [OHandle (Some (KPtr 0)) (Some 10) true; OHandle (Some (KPtr 1)) (Some 11) true]
  | 1 => [OServe (MkRequest (MkHeader 4 3 10 81) (BBuf [xbb; xcc]) 1 3 2)]
  | 2 => [OServe (MkRequest (MkHeader 4 3 9 70) (BBuf [xaa]) 1 3 1)]
  | _ => []
  end.

Example C106_ex :
  let fs := made_by draws ehdr in let h := controller 4 in let f := controller_writes 4 in
  let s0 := mrun fs [(0, 0); (0, 0)] (mstart eprog) in
  let s1 := mrun fs [(1, 0); (2, 0); (1, 0); (2, 0); (2, 0); (1, 0); (1, 0); (2, 0); (1, 0); (2, 0)] s0 in
  (forall p, p < 2 -> from_header draws ehdr fs p /\ asks draws ehdr p (ereqs p) (ebody p))
  /\ (forall p q, p < 2 -> q < 2 -> awaited draws ehdr p = awaited draws ehdr q -> p = q)
  /\ fst (receive_all 3 (MkReader (concat (flat_map (fun p => wcalls (write_to sink (ereqs p))) (seq 0 2))) [3; 1; 7] EOF false))
     = (earrived, Some EOF)
  /\ sent 0 eserver earrived /\ settled eserver
  /\ (forall q, In q earrived -> acts_as h f q /\ exists v t b, answers_with f q v t b)
  /\ fst (receive_all 3 (MkReader (on_wire (enacts h (story 0 eserver) (new_conn 0 (MkTr [] [] 0 None)))) [2; 9] EOF false))
     = (ereplies, Some EOF)
  /\ (forall i k h once, In (OHandle (Some k) h once) (eprog i) -> once = true /\ exists p, p < 2 /\ k = KPtr p)
  /\ (forall m, (exists i, In (OServe m) (eprog i)) <-> In m ereplies)
  /\ quiet s0 /\ (forall p, p < 2 -> registered (KPtr p) (registrations s0) = true)
  /\ finished s1 /\ (forall k, count k (registrations s1) <= 1)
  /\ given (KPtr 0) s1 = [MkRequest (MkHeader 4 3 9 70) (BBuf [xaa]) 1 3 1]
  /\ given (KPtr 1) s1 = [MkRequest (MkHeader 4 3 10 81) (BBuf [xbb; xcc]) 1 3 2].
Proof.
  cbv zeta. split.
  { intros [|[|p]] Hp; [| |lia]; (split; [intro r; reflexivity|]);
      (split; [reflexivity|split; [reflexivity|split; [discriminate|vm_compute; auto]]]). }
  split.
  { intros [|[|p]] [|[|q]] Hp Hq; try lia; vm_compute; congruence. }
  split; [vm_compute; reflexivity|]. split; [eexists; split; vm_compute; reflexivity|]. split.
  { assert (E : eserver = MkServer 0 true 0 [LIdle] [MkCn earrived [] REnd VGone] [] (served_story 0 earrived)) by (vm_compute; reflexivity).
    rewrite E. intros [[|[|k]] ms|[|[|c]]|[|[|c]]|[|j]]; cbn; intro H; try reflexivity; discriminate. }
  split.
  { intros q [<-|[<-|[]]].
    - split; [apply (controller_acts 4 (4, 2, 70, [xaa])%N); vm_compute; auto|].
      exists 4%N, 3%N, [xaa]. eexists _, _. split; [reflexivity|]. do 4 (split; [reflexivity|]). split; [discriminate|vm_compute; auto].
    - split; [apply (controller_acts 4 (4, 2, 81, [xbb; xcc])%N); vm_compute; auto|].
      exists 4%N, 3%N, [xbb; xcc]. eexists _, _. split; [reflexivity|]. do 4 (split; [reflexivity|]). split; [discriminate|vm_compute; auto]. }
  split; [vm_compute; reflexivity|]. split.
  { intros [|[|[|i]]] k h once H; cbn in H; repeat (destruct H as [H|H]); try contradiction; try discriminate;
      injection H as <- <- <-; (split; [reflexivity|eexists; split; [|reflexivity]; lia]). }
  split.
  { intro m. split.
    - intros (i & H). destruct i as [|[|[|i]]]; cbn in H; repeat (destruct H as [H|H]); try contradiction; try discriminate;
        injection H as <-; cbn; auto.
    - intros [<-|[<-|[]]]; [exists 2|exists 1]; left; reflexivity. }
  split.
  { split; [intros [|[|[|i]]]; vm_compute; reflexivity|]. intros i r (snap & c & r' & H). vm_compute in H.
    repeat (destruct H as [H|H]); try contradiction; discriminate. }
  split; [intros [|[|p]] Hp; [vm_compute; reflexivity|vm_compute; reflexivity|lia]|].
  split; [intros [|[|[|i]]]; vm_compute; auto|].
  split; [|split; vm_compute; reflexivity].
  intro k. match goal with |- context [registrations ?s] => let v := eval vm_compute in (registrations s) in
    assert (E : registrations s = v) by (vm_compute; reflexivity) end. rewrite E.
  destruct k as [t|[|[|p]]]; cbn; lia.
Qed.
