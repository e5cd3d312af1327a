(** C119: what Send without Flush puts on the wire, and what Close loses. *)
From Verif Require Import WireSpec RequestSpec RequestFacts ConnSpec ConnFacts ConnSeqFacts HeldModel HeldSpec.
From Coq Require Import Lia NArith.

Local Transparent bufsize.
Lemma bufsize_N : N.of_nat bufsize = 4096%N.
Proof. unfold bufsize. apply N2Nat.id. Qed.
Local Opaque bufsize.

Lemma bw_write_hold p b : readyb b -> length (bbuf b) <= bufsize ->
  lenN (bbuf (snd (bw_write p b))) = hold (lenN (bbuf b)) (lenN p).
Proof.
  intros (E & P & D) L. pose proof bufsize_N as B. unfold hold, lenN in *.
  unfold bw_write. cbn [bw_loop]. unfold bw_more at 1. rewrite E, Bool.andb_true_r. unfold available.
  destruct (Nat.ltb_spec (bufsize - length (bbuf b)) (length p)) as [H|H].
  - destruct (N.leb_spec (N.of_nat (length (bbuf b)) + N.of_nat (length p)) 4096) as [X|_]; [lia|].
    unfold bw_iter at 1. destruct (bbuf b) as [|x l] eqn:Eb.
    + rewrite tr_write_ready by assumption. rewrite skipn_all. unfold bw_more. cbn [length berr bbuf].
      unfold available. cbn [bbuf length]. destruct (Nat.ltb_spec (bufsize - 0) 0) as [X|_]; [lia|]. reflexivity.
    + unfold available. rewrite Eb. set (n := bufsize - length (x :: l)) in *.
      unfold bw_flush. cbn [berr bbuf btr]. rewrite E.
      destruct ((x :: l) ++ firstn n p) as [|y l'] eqn:Ef; [discriminate Ef|].
      rewrite tr_write_ready by assumption. cbn [snd]. unfold bw_more at 1. unfold available at 1. cbn [bbuf berr length].
      rewrite Bool.andb_true_r, skipn_length.
      destruct (N.eqb_spec (N.of_nat (S (length l))) 0) as [X|_]; [lia|].
      destruct (Nat.ltb_spec (bufsize - 0) (length p - n)) as [H2|H2].
      * destruct (N.leb_spec (N.of_nat (S (length l)) + N.of_nat (length p) - 4096) 4096) as [X|_]; [subst n; cbn [length] in *; lia|].
        unfold bw_iter. cbn [bbuf btr]. rewrite tr_write_ready by reflexivity. rewrite skipn_all. unfold bw_more, available.
        cbn [bbuf berr length]. destruct (Nat.ltb_spec (bufsize - 0) 0) as [X|_]; [lia|]. reflexivity.
      * destruct (N.leb_spec (N.of_nat (S (length l)) + N.of_nat (length p) - 4096) 4096) as [_|X]; [|subst n; cbn [length] in *; lia].
        unfold bw_end. cbn [berr bbuf snd app]. rewrite skipn_length. subst n. cbn [length] in *. lia.
  - destruct (N.leb_spec (N.of_nat (length (bbuf b)) + N.of_nat (length p)) 4096) as [_|X]; [|lia].
    unfold bw_end. rewrite E. cbn [snd bbuf]. rewrite app_length. lia.
Qed.

Lemma send_hold r f c : outgoing r = inl f -> ready c -> failure c = None -> okc c ->
  exists c', c_send r c = (None, c') /\ ready c' /\ failure c' = None /\ okc c'
    /\ on_wire c' ++ unsent c' = on_wire c ++ unsent c ++ f /\ lenN (unsent c') = hold (lenN (unsent c)) (lenN f).
Proof.
  intros Hr Hc Hf Hok. destruct (send_ready r f c Hr Hc Hf Hok) as (c' & S & A & B & C & D).
  exists c'. repeat (split; [assumption|]). unfold c_send in S. rewrite Hr in S.
  pose proof (bw_write_hold f (cbw c) (ready_b c Hc Hf) Hok) as H.
  destruct (bw_write f (cbw c)) as [e b]. injection S as _ <-. cbn [snd] in H.
  destruct (arm_after_same (MkConn b (wtimeout c))) as [-> _]. exact H.
Qed.

Lemma sends_hold rs fs : Forall2 (fun r f => outgoing r = inl f) rs fs -> forall c,
  ready c -> failure c = None -> okc c ->
  exists c', sends rs c = (repeat None (length rs), c') /\ ready c' /\ failure c' = None /\ okc c'
    /\ on_wire c' ++ unsent c' = on_wire c ++ unsent c ++ concat fs
    /\ lenN (unsent c') = held (lenN (unsent c)) (map lenN fs).
Proof.
  induction 1 as [|r f rs fs Hr HF IH]; intros c Hc Hf Hok.
  - exists c. cbn. rewrite app_nil_r. auto 6.
  - destruct (send_hold r f c Hr Hc Hf Hok) as (c1 & S & A & B & C & D & E).
    destruct (IH c1 A B C) as (c' & S' & A' & B' & C' & D' & E'). exists c'. cbn [sends]. rewrite S, S'.
    repeat (split; [reflexivity || assumption|]). split.
    + rewrite D'. cbn [concat]. rewrite app_assoc, D, <- !app_assoc. reflexivity.
    + rewrite E', E. reflexivity.
Qed.

(** C119: over a transport that works every Send succeeds, and the bytes that wait for
    a Flush are the last [held] ones, whatever was done with the connection before. *)
Theorem C119_held : forall l tmo t rs fs, let c := history l (new_conn tmo t) in
  ready c -> failure c = None -> Forall2 (fun r f => outgoing r = inl f) rs fs ->
  exists c', sends rs c = (repeat None (length rs), c')
    /\ on_wire c' ++ unsent c' = on_wire c ++ unsent c ++ concat fs
    /\ lenN (unsent c') = held (lenN (unsent c)) (map lenN fs).
Proof.
  intros l tmo t rs fs c Hc Hf HF. assert (O : okc c) by (apply okc_history, okc_new).
  destruct (sends_hold rs fs HF c Hc Hf O) as (c' & A & _ & _ & _ & B & C). eauto.
Qed.
Print Assumptions C119_held.

Lemma hold_le k n : (k <= 4096 -> hold k n <= 4096 /\ hold k n <= k + n)%N.
Proof.
  unfold hold. intro H. destruct (N.leb_spec (k + n) 4096); [lia|]. destruct (N.eqb_spec k 0); [lia|].
  destruct (N.leb_spec (k + n - 4096) 4096); lia.
Qed.
Lemma held_le l : forall k, (k <= 4096)%N -> (held k l <= 4096 /\ held k l <= k + fold_right N.add 0 l)%N.
Proof.
  induction l as [|n l IH]; intros k H; cbn [held fold_left fold_right]; [lia|].
  destruct (hold_le k n H) as [A B]. destruct (IH (hold k n) A) as [C D]. unfold held in *. lia.
Qed.

(** Never more than 4096 bytes wait, ... *)
Theorem C119_bound : forall k sizes, (k <= 4096)%N -> (held k sizes <= 4096)%N.
Proof. intros k sizes H. apply held_le, H. Qed.
Print Assumptions C119_bound.

(** ... up to 4096 bytes all of them do, ... *)
Theorem C119_all_wait : forall sizes k, (k + fold_right N.add 0 sizes <= 4096)%N ->
  held k sizes = (k + fold_right N.add 0 sizes)%N.
Proof.
  induction sizes as [|n l IH]; intros k H; cbn [held fold_left fold_right] in *; [lia|].
  unfold hold. destruct (N.leb_spec (k + n) 4096); [|lia]. change (held (k + n) l = k + (n + fold_right N.add 0 l))%N. rewrite IH; lia.
Qed.
Print Assumptions C119_all_wait.

(** ... and with less than 4096 bytes waiting, a message that exceeds them by at most
    4096 is torn: its first bytes are sent and its last ones wait. *)
Theorem C119_torn : forall k n, (0 < k < 4096)%N -> (4096 < k + n <= 8192)%N -> (0 < hold k n < n)%N.
Proof.
  intros k n H1 H2. unfold hold. destruct (N.leb_spec (k + n) 4096); [lia|]. destruct (N.eqb_spec k 0); [lia|].
  destruct (N.leb_spec (k + n - 4096) 4096); lia.
Qed.
Print Assumptions C119_torn.

(** ** The peer *)
Lemma receive_cut_stream msgs : Forall msg_ok msgs ->
  forall es, Forall2 frame_of es msgs -> forall n s, exists qs r',
  receive_all (S (length msgs)) (MkReader (firstn n (concat es)) s EOF false)
    = (qs, Some (match snd (whole n (map (@length _) es)) with 3 | 5 | 6 | 7 => UnexpectedEOF | _ => EOF end), r')
  /\ Forall2 received_as (firstn (fst (whole n (map (@length _) es))) msgs) qs.
Proof.
  induction 1 as [|[[[v t] x] b] msgs [Hr HL] Hok IH]; intros es He n s.
  - inversion He. subst. destruct (receive_stream [] (Forall_nil _) [] (Forall2_nil _) s) as (qs & r' & R & F & _).
    cbn [concat map whole fst snd]. rewrite firstn_nil. exists qs, r'. split; [exact R|exact F].
  - inversion He as [|e m es' msgs' Hf He']. subst. cbn [concat map length whole]. unfold frame_of in Hf.
    destruct (Nat.leb_spec (length e) n) as [H|H].
    + rewrite firstn_app, firstn_all2 by exact H.
      destruct (receive_frame _ _ _ _ _ Hf Hr HL zero_Request (firstn (n - length e) (concat es')) s EOF false (or_introl eq_refl))
        as (A & _ & B & C & D & E & _).
      remember (S (length msgs)) as k eqn:Ek. cbn [receive_all]. unfold receive. rewrite A.
      destruct (rreader (read_from zero_Request (MkReader (e ++ firstn (n - length e) (concat es')) s EOF false))) as [d s' f g] eqn:Er.
      cbn [data fin eager] in C, D, E. subst d f g.
      destruct (IH es' He' (n - length e) s') as (qs & r' & R & F). rewrite R.
      destruct (whole (n - length e) (map (@length _) es')) as [j c]. cbn [fst snd] in *.
      do 2 eexists. split; [reflexivity|]. cbn [firstn]. constructor; [exact B|exact F].
    + rewrite firstn_app, (proj2 (Nat.sub_0_le n (length e)) (Nat.lt_le_incl _ _ H)), firstn_O, app_nil_r. cbn [fst snd firstn].
      destruct (receive_cut _ _ _ _ _ Hf Hr HL n zero_Request s false H) as [A _].
      cbn [receive_all]. unfold receive. rewrite A. do 2 eexists. split; [reflexivity|constructor].
Qed.

Lemma firstn_wire {A} (a b x : list A) k : a ++ b = x -> length b = k -> a = firstn (length x - k) x.
Proof.
  intros <- <-. rewrite app_length, Nat.add_sub, firstn_app, Nat.sub_diag, firstn_all, firstn_O, app_nil_r. reflexivity.
Qed.

(** C119: messages are sent on a fresh connection, every Send succeeds, and the
    connection is closed without a Flush: the peer receives exactly the messages that
    lie wholly before the [held] last bytes, then the end of the stream. *)
Theorem C119_close : forall t rs fs msgs sizes, let c := new_conn 0 t in
  wire t = [] -> plan t = [] -> deadline t = None ->
  Forall2 (fun r f => outgoing r = inl f) rs fs -> Forall2 frame_of fs msgs -> Forall msg_ok msgs ->
  exists c', sends rs c = (repeat None (length rs), c')
    /\ let n := length (concat fs) - N.to_nat (held 0 (map lenN fs)) in
       exists qs e r', receive_all (S (length msgs)) (closed sizes c') = (qs, Some e, r')
       /\ Forall2 received_as (firstn (fst (whole n (map (@length _) fs))) msgs) qs
       /\ e = match snd (whole n (map (@length _) fs)) with 3 | 5 | 6 | 7 => UnexpectedEOF | _ => EOF end.
Proof.
  intros t rs fs msgs sizes c W P D HF HM Hok.
  destruct (sends_hold rs fs HF c) as (c' & S & _ & _ & _ & O & H); [split; [exact P|split; [exact D|reflexivity]]|reflexivity|apply okc_new|].
  exists c'. split; [exact S|]. cbv zeta.
  assert (X : on_wire c' = firstn (length (concat fs) - N.to_nat (held 0 (map lenN fs))) (concat fs)).
  { apply (firstn_wire _ (unsent c')).
    - rewrite O. unfold on_wire, unsent. cbn. rewrite W. reflexivity.
    - change (held 0 (map lenN fs)) with (held (lenN (unsent c)) (map lenN fs)). rewrite <- H. unfold lenN. rewrite Nat2N.id. reflexivity. }
  unfold closed. unfold on_wire in X. rewrite X.
  destruct (receive_cut_stream msgs Hok fs HM (length (concat fs) - N.to_nat (held 0 (map lenN fs))) sizes) as (qs & r' & R & F).
  eexists qs, _, r'. split; [exact R|]. split; [exact F|reflexivity].
Qed.
Print Assumptions C119_close.

Lemma sum_lengths fs : fold_right N.add 0%N (map lenN fs) = lenN (concat fs).
Proof.
  induction fs as [|f fs IH]; [reflexivity|]. cbn [map fold_right concat]. rewrite IH. unfold lenN. rewrite app_length. lia.
Qed.

(** C119: so up to 4096 bytes are lost without any error on either side: the peer sees
    a connection that was closed without a word. *)
Theorem C119_lost : forall t rs fs msgs sizes, let c := new_conn 0 t in
  wire t = [] -> plan t = [] -> deadline t = None ->
  Forall2 (fun r f => outgoing r = inl f) rs fs -> Forall2 frame_of fs msgs -> Forall msg_ok msgs ->
  (lenN (concat fs) <= 4096)%N ->
  exists c' r', sends rs c = (repeat None (length rs), c')
    /\ receive_all (S (length msgs)) (closed sizes c') = ([], Some EOF, r').
Proof.
  intros t rs fs msgs sizes c W P D HF HM Hok L.
  destruct (C119_close t rs fs msgs sizes W P D HF HM Hok) as (c' & S & H). cbv zeta in H.
  assert (N0 : length (concat fs) - N.to_nat (held 0 (map lenN fs)) = 0).
  { rewrite C119_all_wait; rewrite sum_lengths; unfold lenN in *; lia. }
  rewrite N0 in H.
  assert (E : whole 0 (map (@length byte) fs) = (0, 0)).
  { destruct HM as [|f m fs' ms Hf _]; [reflexivity|]. cbn [map whole].
    destruct m as [[[v ty] x] b]. pose proof (frame_length _ _ _ _ _ Hf). destruct (Nat.leb_spec (length f) 0); [lia|reflexivity]. }
  destruct H as (qs & e & r' & R & F & X). rewrite E in F, X. cbn in F, X. inversion F. subst. eauto.
Qed.
Print Assumptions C119_lost.

(** ** Concrete cases *)
Definition echo_of (x : N) (b : bytes) : Request := set_header (MkHeader 4 2 0 x) (new_request 2 (Some (MkPayload b None))).
Definition frame_bytes (r : Request) : bytes := match outgoing r with inl f => f | inr _ => [] end.
Definition clean : transport := MkTr [] [] 0 None.

(** Two messages of 3008 bytes: the first and 1088 bytes of the second are sent,
    1920 bytes wait. *)
Example C119_held_ex :
  let r x := echo_of x (repeat x61 (N.to_nat 3000)) in
  let c' := snd (sends [r 1; r 2]%N (new_conn 0 clean)) in
  map lenN [frame_bytes (r 1%N); frame_bytes (r 2%N)] = [3008; 3008]%N
  /\ held 0 [3008; 3008]%N = 1920%N
  /\ lenN (unsent c') = 1920%N /\ lenN (on_wire c') = 4096%N
  /\ (0 < hold 3008 3008 < 3008)%N.
Proof. vm_compute. repeat split; reflexivity. Qed.

(** The peer of a connection closed then receives the first and not the second, and
    does not learn of that. *)
Example C119_close_ex :
  let r x := echo_of x (repeat x61 (N.to_nat 3000)) in
  let got := receive_all 3 (closed [100; 7] (snd (sends [r 1; r 2]%N (new_conn 0 clean)))) in
  map (fun q => Header_Transaction (Request_Header q)) (fst (fst got)) = [1%N] /\ snd (fst got) = Some EOF.
Proof. vm_compute. split; reflexivity. Qed.

Example C119_lost_ex :
  let rs := [echo_of 1 [x61]; echo_of 2 []] in
  fst (sends rs (new_conn 0 clean)) = [None; None]
  /\ Forall2 frame_of (map frame_bytes rs) [(4, 2, 1, [x61]); (4, 2, 2, [])]%N
  /\ Forall msg_ok [(4, 2, 1, [x61]); (4, 2, 2, [])]%N
  /\ fst (receive_all 3 (closed [] (snd (sends rs (new_conn 0 clean))))) = ([], Some EOF).
Proof.
  split; [vm_compute; reflexivity|]. split.
  - constructor; [|constructor; [|constructor]]; apply frame_eq; vm_compute; reflexivity.
  - split; [|vm_compute; reflexivity]. constructor; [|constructor; [|constructor]];
      (split; [repeat split; vm_compute; reflexivity|vm_compute; discriminate]).
Qed.
