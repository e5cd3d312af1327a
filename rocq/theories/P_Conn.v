(** C13 - C20: connections shared by goroutines, deadlines and replies. *)
From Verif Require Import WireSpec RequestSpec RequestFacts.
From Verif Require Import ConnModel ConnSpec ConnFacts ConnSeqFacts.

Definition msgA : bytes := [x04; x02; x00; x08; x00; x00; x00; x01].
Definition msgB : bytes := [x04; x02; x00; x09; x00; x00; x00; x02; xff].
Definition fresh : transport := MkTr [] [] 0 None.

(** C13: for every schedule [sch] of every program the wire holds a prefix of
    whole messages in one order, in which each goroutine's own messages are
    those of the operations it has begun, in program order. *)
Theorem C13_shared_order : forall tmo t prog sch, wire t = [] ->
  let s := run sch (start tmo t prog) in
  exists order, prefix (on_wire (scon s)) (concat (map snd order))
    /\ forall i, exists done, prog i = done ++ todo (threads s i) /\ own i order = flat_map message done.
Proof. exact shared_order. Qed.
Print Assumptions C13_shared_order.

(** Two goroutines; the one that loses the lock waits, then both messages are whole. *)
Example C13_shared_order_ex :
  let prog i := match i with 0 => [OReply msgA] | 1 => [OReply msgB; OFlush] | _ => [] end in
  let s := run [Go 0; Go 1; Go 0; Go 1; Go 0; Go 1; Go 0; Go 1; Go 1; Go 1; Go 1; Go 1; Go 1] (start 0 fresh prog) in
  on_wire (scon s) = msgA ++ msgB
  /\ results s = [(0, OReply msgA, None); (1, OReply msgB, None); (1, OFlush, None)].
Proof. vm_compute. split; reflexivity. Qed.

(** C13: a goroutine that runs one operation alone has the effect of the plain
    (sequential) operation, so C14 - C16 and C18 describe the same connection. *)
Theorem C13_solo_sequential : forall i o l s, at_ (threads s i) = Idle -> todo (threads s i) = o :: l ->
  owner s = None -> length (bbuf (cbw (scon s))) <= bufsize ->
  exists n, let s' := run (repeat (Go i) n) s in
    at_ (threads s' i) = Idle /\ todo (threads s' i) = l /\ owner s' = None
    /\ scon s' = snd (perform (as_event o) (scon s))
    /\ results s' = results s ++ [(i, o, fst (perform (as_event o) (scon s)))].
Proof. exact solo. Qed.
Print Assumptions C13_solo_sequential.

Example C13_solo_sequential_ex :
  let s := start 0 fresh (fun _ => [OReply msgB]) in
  at_ (threads s 3) = Idle /\ todo (threads s 3) = [OReply msgB] /\ owner s = None
  /\ on_wire (scon (run (repeat (Go 3) 4) s)) = msgB.
Proof. vm_compute. repeat split; reflexivity. Qed.

(** C62: the connection's lock is never lost: while some goroutine has work to
    do, some goroutine can move. *)
Theorem C62_shared_progress : forall tmo t prog sch i, wire t = [] ->
  let s := run sch (start tmo t prog) in busy s i -> exists j, step_of j s <> None.
Proof. exact shared_progress. Qed.
Print Assumptions C62_shared_progress.

(** The transport fails every write; the lock is released all the same. *)
Example C62_shared_progress_ex :
  let t := MkTr [] [Some (3, EUser 9)] 0 None in
  let s := run [Go 0; Go 0; Go 0; Go 0] (start 0 t (fun _ => [OReply msgA])) in
  results s = [(0, OReply msgA, Some (EUser 9))] /\ owner s = None /\ busy s 1.
Proof. vm_compute. split; [reflexivity|]. split; [reflexivity|left; discriminate]. Qed.

(** C14: when a Flush or a reply returns without error the wire holds exactly
    the messages accepted so far, whole, including those of every operation
    that has returned. *)
Theorem C14_flush_complete : forall tmo t prog sch i s' o, wire t = [] ->
  let s := run sch (start tmo t prog) in
  step_of i s = Some s' -> results s' = results s ++ [(i, o, None)] -> flushing o = true ->
  exists order, on_wire (scon s') = concat (map snd order) /\ unsent (scon s') = []
    /\ (forall j o' e m, In (j, o', e) (results s') -> In m (message o') -> In (j, m) order)
    /\ forall j, exists done, prog j = done ++ todo (threads s' j) /\ own j order = flat_map message done.
Proof. exact flush_complete. Qed.
Print Assumptions C14_flush_complete.

Example C14_flush_complete_ex :
  let r := new_request 2 None in
  let prog i := match i with 0 => [OSend r] | 1 => [OFlush] | _ => [] end in
  let s := run [Go 0; Go 0; Go 0; Go 0; Go 1] (start 0 fresh prog) in
  on_wire (scon s) = []
  /\ exists s', step_of 1 s = Some s' /\ results s' = results s ++ [(1, OFlush, None)]
     /\ on_wire (scon s') = [x04; x02; x00; x08; x00; x00; x00; x00].
Proof. vm_compute. split; [reflexivity|]. eexists. repeat split; reflexivity. Qed.

(** C15: after an operation reported a failure of the connection nothing more
    is written, and an operation that returns later without error had already
    been accepted before (only its deadline was left to be armed). *)
Theorem C15_sticky : forall tmo t prog sch i o e, let s := run sch (start tmo t prog) in
  In (i, o, Some e) (results s) -> touching o ->
  forall sch', let s' := run sch' s in
  on_wire (scon s') = on_wire (scon s) /\ exists new, results s' = results s ++ new
    /\ forall j o', In (j, o', None) new -> at_ (threads s j) = Arming o' None.
Proof. exact sticky. Qed.
Print Assumptions C15_sticky.

(** The transport accepts 3 bytes of the first message and fails. *)
Example C15_sticky_ex :
  let t := MkTr [] [Some (3, EUser 9)] 0 None in
  let s := run (repeat (Go 0) 20) (start 0 t (fun _ => [OReply msgA; OSend (new_request 2 None); OReply msgB; OFlush])) in
  on_wire (scon s) = firstn 3 msgA
  /\ map (fun x => snd x) (results s) = repeat (Some (EUser 9)) 4.
Proof. vm_compute. split; reflexivity. Qed.

(** C16: when Send succeeds the requests are on the wire in order. *)
Theorem C16_send_all_order : forall l tmo t rs c', let c := history l (new_conn tmo t) in
  failure c = None -> send_all rs c = (None, c') ->
  exists fs, Forall2 frame_for fs rs /\ on_wire c' = on_wire c ++ unsent c ++ concat fs /\ unsent c' = [].
Proof. exact used_send_all. Qed.
Print Assumptions C16_send_all_order.

Example C16_send_all_order_ex :
  let c := new_conn 0 fresh in
  let rs := [new_request 2 (Some (MkPayload [xaa] None)); new_request 20 None] in
  failure c = None /\ fst (send_all rs c) = None
  /\ on_wire (snd (send_all rs c)) = [x04; x02; x00; x09; x00; x00; x00; x00; xaa; x04; x14; x00; x08; x00; x00; x00; x00].
Proof. vm_compute. repeat split; reflexivity. Qed.

(** C16: when request number [length rs] cannot be serialised, the earlier ones
    have been accepted and the next flush puts them on the wire; at most one
    buffer of them is still held back when Send returns. *)
Theorem C16_send_all_leaks : forall l tmo t rs fs bad e more, let c := history l (new_conn tmo t) in
  Forall2 (fun r f => outgoing r = inl f) rs fs -> outgoing bad = inr e -> ready c -> failure c = None ->
  exists c' c'', send_all (rs ++ bad :: more) c = (Some e, c')
    /\ on_wire c' ++ unsent c' = on_wire c ++ unsent c ++ concat fs
    /\ length (unsent c') <= bufsize
    /\ c_flush c' = (None, c'') /\ on_wire c'' = on_wire c ++ unsent c ++ concat fs.
Proof. exact used_send_all_leaks. Qed.
Print Assumptions C16_send_all_leaks.

Definition bad_request : Request := new_request 2 (Some (MkPayload [] (Some (EUser 5)))).
Definition big_request : Request := new_request 2 (Some (MkPayload (repeat x61 (N.to_nat 5000)) None)).

(** "No data will be written when any of the request failed" is false: data of
    an earlier request is on the wire when Send returns the error. *)
Theorem C16_all_or_nothing_refuted : exists rs c,
  failure c = None /\ on_wire c = [] /\ fst (send_all rs c) <> None /\ on_wire (snd (send_all rs c)) <> [].
Proof.
  exists [big_request; bad_request], (new_conn 0 fresh). vm_compute. repeat split; discriminate.
Qed.
Print Assumptions C16_all_or_nothing_refuted.

Example C16_send_all_leaks_ex :
  let c := new_conn 0 fresh in
  outgoing (new_request 20 None) = inl [x04; x14; x00; x08; x00; x00; x00; x00]
  /\ outgoing bad_request = inr (EUser 5) /\ ready c /\ failure c = None
  /\ fst (send_all [new_request 20 None; bad_request] c) = Some (EUser 5)
  /\ on_wire (snd (c_flush (snd (send_all [new_request 20 None; bad_request] c))))
     = [x04; x14; x00; x08; x00; x00; x00; x00].
Proof. vm_compute. repeat split; reflexivity. Qed.

(** C17: a receiver that has the connection for itself is the function
    [receive] of C04 - C09 ... *)
Theorem C17_single_receiver : forall r, exists n out,
  riter n rstart r = (RDone out, snd (receive r)) /\ agrees out (fst (receive r)).
Proof. exact solo_receive. Qed.
Print Assumptions C17_single_receiver.

Example C17_single_receiver_ex :
  riter 5 rstart (MkReader (msgB ++ msgA) [] EOF false)
  = (RDone (inl (firstn 8 msgB, [xff])), MkReader msgA [] EOF false).
Proof. vm_compute. reflexivity. Qed.

(** ... but two receivers can split any two empty messages of the same version
    between them: each is given a message nobody sent. *)
Theorem C17_concurrent_receive_tears : forall v t t' a b c d e f g h,
  race [true; true; true; false; true; false; false; false] rstart rstart
    (MkReader ([v; t; x00; x08; a; b; c; d] ++ [v; t'; x00; x08; e; f; g; h]) [] EOF false)
  = (RDone (inl ([v; t; x00; x08; b; c; d; v], [])),
     RDone (inl ([a; t'; x00; x08; e; f; g; h], [])), MkReader [] [] EOF false).
Proof. exact race_tears. Qed.
Print Assumptions C17_concurrent_receive_tears.

(** "Multiple goroutines may invoke methods on conn simultaneously" is false of
    Receive: both calls succeed and return neither message. *)
Theorem C17_concurrent_receive_refuted : exists m1 m2 sch h1 b1 h2 b2 r',
  is_frame m1 4 2 1 [] /\ is_frame m2 4 2 2 []
  /\ race sch rstart rstart (MkReader (m1 ++ m2) [] EOF false) = (RDone (inl (h1, b1)), RDone (inl (h2, b2)), r')
  /\ h1 ++ b1 <> m1 /\ h1 ++ b1 <> m2 /\ h2 ++ b2 <> m1 /\ h2 ++ b2 <> m2.
Proof.
  exists msgA, [x04; x02; x00; x08; x00; x00; x00; x02].
  exists [true; true; true; false; true; false; false; false]. do 5 eexists.
  split; [apply frame_eq; reflexivity|]. split; [apply frame_eq; reflexivity|].
  split; [exact (race_tears _ _ _ _ _ _ _ _ _ _ _)|]. repeat split; discriminate.
Qed.
Print Assumptions C17_concurrent_receive_refuted.

(** C18: when [tmo] or more has passed since the last Send, the next reply
    fails with a timeout, and so does everything after it. *)
Theorem C18_late_reply : forall l0 tmo t r l p, wire t = [] -> (0 < tmo)%Z ->
  let c1 := snd (c_send r (history l0 (new_conn tmo t))) in
  forallb (fun v => negb (is_sending v)) l = true -> (tmo <= elapsed l)%Z ->
  let c2 := history l c1 in failure c2 = None -> p <> [] ->
  exists c3, c_force p c2 = (Some ETimeout, c3) /\ on_wire c3 = on_wire c2
    /\ forall l' v, is_passing v = false ->
       fst (perform v (history l' c3)) <> None /\ on_wire (snd (perform v (history l' c3))) = on_wire c2.
Proof. exact late_reply. Qed.
Print Assumptions C18_late_reply.

Example C18_late_reply_ex :
  let c1 := snd (c_send (new_request 0 None) (new_conn 5 fresh)) in
  let l := [Flushing; Replying msgA; Passing 3; Passing 4] in
  (5 <= elapsed l)%Z /\ failure (history l c1) = None
  /\ on_wire (history l c1) = [x04; x00; x00; x08; x00; x00; x00; x00] ++ msgA
  /\ fst (c_force msgB (history l c1)) = Some ETimeout.
Proof. vm_compute. repeat split; try reflexivity; discriminate. Qed.

(** C18: within the window a ready transport accepts the reply. *)
Theorem C18_timely_reply : forall l0 tmo t r p d, plan t = [] -> (0 < tmo)%Z ->
  let c1 := snd (c_send r (history l0 (new_conn tmo t))) in
  failure c1 = None -> (0 <= d < tmo)%Z ->
  exists c3, c_force p (tick d c1) = (None, c3) /\ on_wire c3 = on_wire c1 ++ unsent c1 ++ p /\ unsent c3 = [].
Proof. exact timely_reply. Qed.
Print Assumptions C18_timely_reply.

Example C18_timely_reply_ex :
  let c1 := snd (c_send (new_request 0 None) (new_conn 5 fresh)) in
  failure c1 = None /\ fst (c_force msgB (tick 4 c1)) = None.
Proof. vm_compute. split; reflexivity. Qed.

(** C19: a reply of up to 65527 bytes is one frame, after everything accepted before. *)
Theorem C19_reply_frame : forall v h w x, content (BCopy w [] None false) = (x, None) -> (lenN x <= 65527)%N ->
  forall c, failure c = None -> okc c -> ontime (cbw c) ->
  exists e c', is_frame e (if (Header_Version h =? 0)%N then v else Header_Version h) (Header_Type h) (Header_Transaction h) x
    /\ c_respond v h w c = (None, c') /\ on_wire c' = on_wire c ++ unsent c ++ e /\ unsent c' = [].
Proof. exact reply_frame. Qed.
Print Assumptions C19_reply_frame.

Example C19_reply_frame_ex :
  let c := snd (c_respond 4 (MkHeader 0 3 777 9) (Some (MkPayload [xab] None)) (new_conn 0 fresh)) in
  on_wire c = [x04; x03; x00; x09; x00; x00; x00; x09; xab].
Proof. vm_compute. reflexivity. Qed.

(** C19: a payload that fails leaves the connection as it was. *)
Theorem C19_reply_fails : forall v h w x y, content (BCopy w [] None false) = (x, Some y) ->
  forall c, c_respond v h w c = (Some y, c).
Proof. exact reply_fails. Qed.
Print Assumptions C19_reply_fails.

Example C19_reply_fails_ex :
  content (BCopy (Some (MkPayload [x01] (Some (EUser 5)))) [] None false) = ([x01], Some (EUser 5)).
Proof. reflexivity. Qed.

(** C19: a longer payload is written all the same, under a length field that is
    the size modulo 65536, ... *)
Theorem C19_reply_wraps : forall v h w x, content (BCopy w [] None false) = (x, None) -> (65527 < lenN x)%N ->
  exists e, snd (response_bytes v h w) = inl e
    /\ laid_out e (8 + length x)
         [(0, Num 1 (if (Header_Version h =? 0)%N then v else Header_Version h)); (1, Num 1 (Header_Type h));
          (2, Num 2 ((8 + lenN x) mod 65536)); (4, Num 4 (Header_Transaction h)); (8, Raw (length x) x)]
    /\ (declared e < lenN e)%N.
Proof. exact reply_wraps. Qed.
Print Assumptions C19_reply_wraps.

(** ... and the peer, whatever follows, stops reading inside that reply. *)
Theorem C19_reply_wraps_peer : forall v h w x, content (BCopy w [] None false) = (x, None) -> (65527 < lenN x)%N ->
  exists e, snd (response_bytes v h w) = inl e /\
  forall req tl s f eg, length tl < length (data (rreader (read_from req (MkReader (e ++ tl) s f eg)))).
Proof. exact reply_wraps_peer. Qed.
Print Assumptions C19_reply_wraps_peer.

Theorem C19_oversized_reply_refuted : exists h x c,
  (65527 < lenN x)%N /\ fst (c_respond 4 h (Some (MkPayload x None)) c) = None
  /\ firstn 8 (on_wire (snd (c_respond 4 h (Some (MkPayload x None)) c))) = [x04; x03; x00; x08; x00; x00; x00; x01].
Proof.
  exists (MkHeader 0 3 0 1), (repeat x61 (N.to_nat 65536)), (new_conn 0 fresh). vm_compute. repeat split; reflexivity.
Qed.
Print Assumptions C19_oversized_reply_refuted.

(** C20: what the peer receives carries the transaction id of the handler's
    header; the request's id plays no part. *)
Theorem C20_reply_transaction : forall q h w x, content (BCopy w [] None false) = (x, None) -> (lenN x <= 65527)%N ->
  wf_Header h -> fits 1 (Header_Version (Request_Header q)) ->
  forall c, failure c = None -> okc c -> ontime (cbw c) -> unsent c = [] ->
  exists e c', reply_to q h w c = (None, c') /\ on_wire c' = on_wire c ++ e /\
  forall tl s, let y := read_from zero_Request (MkReader (e ++ tl) s EOF false) in
    rfail y = None /\ Header_Transaction (Request_Header (rreq y)) = Header_Transaction h.
Proof. exact reply_transaction. Qed.
Print Assumptions C20_reply_transaction.

(** "The reply uses the request's transaction id" is false. *)
Theorem C20_reply_pairing_refuted : exists q h, Header_Transaction (Request_Header q) = 7%N
  /\ on_wire (snd (reply_to q h None (new_conn 0 fresh))) = [x04; x03; x00; x08; x00; x00; x00; x00].
Proof.
  exists (MkRequest (MkHeader 4 2 8 7) (BBuf []) 1 3 0), (MkHeader 0 3 0 0). vm_compute. split; reflexivity.
Qed.
Print Assumptions C20_reply_pairing_refuted.
