(** C60, C76: the echo and hello handlers, the response recorder. *)
From Verif Require Import HandlerFacts.

(** C60: over a working connection the echo handler answers a received request by
    one frame of type 3 with the version, transaction and data of the request. *)
Theorem C60_echo : forall q d c, Request_Body q = BBuf d -> (lenN d <= 65527)%N ->
  failure c = None -> okc c -> ontime (cbw c) ->
  exists e c', echo_handler None (server_writer q) q c = Some c'
    /\ is_frame e (Header_Version (Request_Header q)) 3 (Header_Transaction (Request_Header q)) d
    /\ on_wire c' = on_wire c ++ unsent c ++ e /\ unsent c' = [].
Proof.
  intros q d c B L F O T. rewrite (echo_received None _ q d c B).
  destruct (reply_frame (Header_Version (Request_Header q)) (set_Header_Type 3 (Request_Header q))
              (Some (MkPayload d None)) d eq_refl L c F O T) as (e & c' & E1 & E2 & E3 & E4).
  exists e, c'. unfold server_writer, reply_to. rewrite E2. split; [reflexivity|].
  split; [|split; assumption]. unfold reply_header in E1. destruct (Request_Header q) as [v t l x].
  cbn [set_Header_Type Header_Version Header_Type Header_Transaction] in *. destruct (v =? 0)%N; exact E1.
Qed.
Print Assumptions C60_echo.

(** C60: from end to end: a client that sends an echo request and receives the
    answer, under every fragmentation both ways, gets its data and its
    transaction back. *)
Theorem C60_echo_end_to_end : forall d x s s' c, fits 4 x -> (lenN d <= 65527)%N ->
  failure c = None -> okc c -> ontime (cbw c) -> unsent c = [] ->
  let r := set_header (MkHeader 4 2 0 x) (new_request 2 (Some (MkPayload (enc_EchoRequest (MkEchoRequest d)) None))) in
  exists e q r1 c' e' q' r2, wcalls (write_to sink r) = [e]
    /\ receive (MkReader e s EOF false) = (inl q, r1)
    /\ echo_handler None (server_writer q) q c = Some c' /\ on_wire c' = on_wire c ++ e'
    /\ receive (MkReader e' s' EOF false) = (inl q', r2)
    /\ Header_Type (Request_Header q') = 3%N /\ Header_Transaction (Request_Header q') = x
    /\ Header_Version (Request_Header q') = 4%N
    /\ exists b, Request_Body q' = BBuf b /\ forall old, val (dec_EchoReply old b) = MkEchoReply d
                                                   /\ fail (dec_EchoReply old b) = None.
Proof.
  intros d x s s' c Hx L F O T U r.
  destruct (delivered 2 x d s eq_refl Hx L) as (e & q & r1 & E1 & E2 & E3 & _ & (Q1 & Q2 & _)).
  destruct (C60_echo q d c Q2 L F O T) as (e' & c' & H1 & H2 & H3 & _).
  rewrite Q1 in H2. cbn [Header_Version Header_Transaction] in H2.
  pose proof (receive_frame e' 4 3 x d H2 (conj eq_refl (conj eq_refl Hx)) L zero_Request [] s' EOF false (or_introl eq_refl)) as R.
  cbv zeta in R. rewrite app_nil_r in R. destruct R as (R1 & _ & (R2 & R3 & _) & _).
  rewrite U, app_nil_l in H3.
  exists e, q, r1, c', e'. unfold receive at 2. rewrite R1. do 2 eexists. repeat (split; [eassumption || reflexivity|]).
  rewrite R2. repeat (split; [reflexivity|]). exists d. split; [exact R3|]. intro old.
  pose proof (whole_EchoReply (MkEchoReply d) old) as D. change (enc_EchoReply (MkEchoReply d)) with d in D.
  rewrite D. split; reflexivity.
Qed.
Print Assumptions C60_echo_end_to_end.

Example C60_echo_ex :
  let q := MkRequest (MkHeader 4 2 10 7) (BBuf [xab; xcd]) 1 3 2 in
  let c := new_conn 0 (MkTr [] [] 0 None) in
  okc c /\ ontime (cbw c) /\ unsent c = []
  /\ option_map on_wire (echo_handler None (server_writer q) q c) = Some [x04; x03; x00; x0a; x00; x00; x00; x07; xab; xcd].
Proof.
  split; [apply okc_new|]. split; [repeat split; discriminate|]. vm_compute. split; reflexivity.
Qed.

(** C60: the hello handler answers by one frame with an empty body, the
    transaction of the request and the given version (0 stands for the version
    of the request), but of the type of the request. *)
Theorem C60_hello : forall v q c, failure c = None -> okc c -> ontime (cbw c) ->
  exists e, is_frame e (if (v =? 0)%N then Header_Version (Request_Header q) else v) (Header_Type (Request_Header q))
              (Header_Transaction (Request_Header q)) []
    /\ on_wire (hello_handler v None (server_writer q) q c) = on_wire c ++ unsent c ++ e
    /\ unsent (hello_handler v None (server_writer q) q c) = [].
Proof.
  intros v q c F O T. unfold hello_handler, server_writer, reply_to.
  destruct (reply_frame (Header_Version (Request_Header q)) (set_Header_Version v (Request_Header q))
              None [] eq_refl ltac:(discriminate) c F O T) as (e & c' & E1 & E2 & E3 & E4).
  exists e. rewrite E2. split; [exact E1|]. split; assumption.
Qed.
Print Assumptions C60_hello.

(** "Replies to each request with hello message" is false. *)
Theorem C60_hello_type_refuted : exists q c, Header_Type (Request_Header q) = 2%N
  /\ on_wire (hello_handler 4 None (server_writer q) q c) = [x04; x02; x00; x08; x00; x00; x00; x09].
Proof.
  exists (MkRequest (MkHeader 1 2 8 9) (BBuf []) 1 0 0), (new_conn 0 (MkTr [] [] 0 None)). vm_compute. split; reflexivity.
Qed.
Print Assumptions C60_hello_type_refuted.

Example C60_hello_ex :
  let q := MkRequest (MkHeader 1 0 8 9) (BBuf []) 1 0 0 in
  on_wire (hello_handler 4 None (server_writer q) q (new_conn 0 (MkTr [] [] 0 None)))
  = [x04; x00; x00; x08; x00; x00; x00; x09].
Proof. vm_compute. reflexivity. Qed.

(** C60: a chained handler runs exactly once after the write, whatever the write
    returned, with the same writer; the echo handler has emptied the body by
    then.  [f] counts its calls and keeps the requests it was given. *)
Definition spy {W} : handler (W * list Request) := fun _ r w => (fst w, snd w ++ [r]).
Definition beside {W} (rw : response_writer W) : response_writer (W * list Request) :=
  fun h p w => let '(e, w') := rw h p (fst w) in (e, (w', snd w)).

Theorem C60_chained : forall W (rw : response_writer W) v q d w l, Request_Body q = BBuf d ->
  (exists w', echo_handler (Some spy) (beside rw) q (w, l) = Some (w', l ++ [set_body (BBuf []) q]))
  /\ exists w', hello_handler v (Some spy) (beside rw) q (w, l) = (w', l ++ [q]).
Proof.
  intros W rw v q d w l B. split.
  - rewrite (echo_received _ _ q d _ B). unfold spy, beside. cbv zeta. cbn [fst snd].
    destruct (rw _ _ w) as [e w']. cbn [fst snd]. eexists. reflexivity.
  - unfold hello_handler, spy, beside. cbv zeta. cbn [fst snd].
    destruct (rw _ _ w) as [e w']. cbn [fst snd]. eexists. reflexivity.
Qed.
Print Assumptions C60_chained.

(** "Executed in case of successful message submission" is false: the transport
    fails, nothing is sent, the chained handler runs. *)
Theorem C60_chained_after_failure_refuted : exists q c, failure c = None /\
  let '(c', l) := hello_handler 4 (Some spy) (beside (server_writer q)) q (c, []) in
  on_wire c' = [] /\ failure c' = Some (EUser 9) /\ l = [q].
Proof.
  exists (MkRequest (MkHeader 1 0 8 9) (BBuf []) 1 0 0), (new_conn 0 (MkTr [] [Some (0, EUser 9)] 0 None)).
  vm_compute. repeat split; reflexivity.
Qed.
Print Assumptions C60_chained_after_failure_refuted.

(** The data of an echo request is gone when the chained handler looks at it. *)
Theorem C60_chained_body_refuted : exists q, Request_Body q = BBuf [xab] /\
  exists q' w, echo_handler (Some spy) (beside record_write) q ([], []) = Some (w, [q']) /\ Request_Body q' = BBuf [].
Proof.
  exists (MkRequest (MkHeader 4 2 9 9) (BBuf [xab]) 1 3 1). split; [reflexivity|]. vm_compute. do 2 eexists. split; reflexivity.
Qed.
Print Assumptions C60_chained_body_refuted.

Example C60_chained_ex :
  let q := MkRequest (MkHeader 4 2 9 9) (BBuf [xab]) 1 3 1 in
  option_map snd (echo_handler (Some spy) (beside record_write) q ([], [])) = Some [MkRequest (MkHeader 4 2 9 9) (BBuf []) 1 3 1].
Proof. vm_compute. reflexivity. Qed.

(** C60: a body that cannot be read is not answered, and the chained handler does
    not run; a request without body makes the echo handler panic. *)
Theorem C60_unreadable : forall W h (rw : response_writer W) q w,
  (forall r e, Request_Body q = BReader r -> fin r = e -> e <> EOF -> e <> EPanic ->
     echo_handler h rw q w = Some w)
  /\ (Request_Body q = BNil -> echo_handler h rw q w = None).
Proof.
  intros W h rw q w. split.
  - intros r e B F NE NP. unfold echo_handler. rewrite B. unfold read_body_all. cbn [body_fuel].
    assert (G : forall f acc r, fin r = e -> exists b1 b2, body_all f acc (BReader r) = (b1, Some e, b2)
                                        \/ body_all f acc (BReader r) = (b1, Some EFuel, b2)).
    { clear - NE. induction f as [|f IH]; intros acc r F; [do 2 eexists; right; reflexivity|].
      cbn [body_all body_read]. unfold read1. destruct (data r) as [|c x] eqn:D; cbn [fin].
      - rewrite F. destruct e; try congruence; do 2 eexists; left; reflexivity.
      - destruct (skipn _ (c :: x)) as [|c' x'] eqn:K; [destruct (eager r); rewrite ?F; [destruct e; try congruence; do 2 eexists; left; reflexivity|]|]; apply IH; first [exact F|reflexivity]. }
    destruct (G (fuel_of r) [] r F) as (b1 & b2 & [-> | ->]); [destruct e; congruence|reflexivity].
  - intro B. unfold echo_handler. rewrite B. reflexivity.
Qed.
Print Assumptions C60_unreadable.

Example C60_unreadable_ex :
  let q := MkRequest (MkHeader 4 2 9 9) (BReader (MkReader [x01; x02] [1] (EUser 3) false)) 1 3 1 in
  echo_handler (Some spy) (beside record_write) q ([], []) = Some ([], []).
Proof. vm_compute. reflexivity. Qed.

(** ** The recorder *)

(** C76: the recorder keeps every write in order and never reports an error;
    First and Last are the ends of All and panic before the first write. *)
Theorem C76_recorder : forall ws : list (Header * option payload),
  let l := fold_left (fun l hw => snd (record_write (fst hw) (snd hw) l)) ws new_recorder in
  map (fun q => (Request_Header q, content (Request_Body q))) (rec_all l)
    = map (fun hw => (fst hw, match snd hw with None => ([], None) | Some p => (pbytes p, perr p) end)) ws
  /\ rec_first l = nth_error (rec_all l) 0
  /\ rec_last l = nth_error (rev (rec_all l)) 0
  /\ (rec_first l = None <-> ws = []) /\ (rec_last l = None <-> ws = []).
Proof.
  intro ws. cbv zeta. set (one := fun hw : Header * option payload => set_header (fst hw) (new_request (Header_Type (fst hw)) (snd hw))).
  assert (E : forall ws l, fold_left (fun l hw => snd (record_write (fst hw) (snd hw) l)) ws l = l ++ map one ws).
  { clear. induction ws as [|[h w] ws IH]; intro l; cbn [fold_left map]; [symmetry; apply app_nil_r|].
    rewrite IH. cbn [record_write snd fst]. rewrite <- app_assoc. reflexivity. }
  rewrite E. unfold new_recorder. rewrite app_nil_l. unfold rec_all, rec_first, rec_last.
  split; [|split; [reflexivity|]]; [|split; [|split]].
  - rewrite map_map. apply map_ext. intros [h [w|]]; reflexivity.
  - clear E. destruct (map one ws) as [|a l] eqn:M using rev_ind; [reflexivity|].
    rewrite rev_app_distr. cbn [rev app nth_error]. destruct (l ++ [a]) as [|b m] eqn:K; [destruct l; discriminate K|].
    rewrite <- K, app_length, Nat.add_sub. cbn [length]. rewrite nth_error_app2 by lia. rewrite Nat.sub_diag. reflexivity.
  - destruct ws; cbn; split; congruence.
  - destruct ws as [|w ws]; [cbn; tauto|]. split; [|discriminate]. intro H. exfalso. revert H.
    cbn [map]. apply nth_error_Some. cbn [length]. lia.
Qed.
Print Assumptions C76_recorder.

(** C76: a recorded answer with a version, whose payload serialises to at most
    65527 bytes, is byte for byte what the server would put on the wire. *)
Theorem C76_faithful : forall q h w x, Header_Version h <> 0%N ->
  content (BCopy w [] None false) = (x, None) -> (lenN x <= 65527)%N ->
  exists l e, record_write h w new_recorder = (None, l)
    /\ exists r, rec_last l = Some r /\ wcalls (write_to sink r) = [e]
    /\ snd (response_bytes (Header_Version (Request_Header q)) h w) = inl e.
Proof.
  intros q h w x V C L. eexists. set (r := set_header h (new_request (Header_Type h) w)).
  destruct (write_sink r x) as (e & E1 & _ & _ & F); [exact C|exact L|].
  exists e. split; [reflexivity|]. exists r. split; [reflexivity|]. split; [exact E1|].
  destruct (response_all (Header_Version (Request_Header q)) h w x C) as (e' & G1 & G2).
  rewrite G1. f_equal. apply frame_eq in F. rewrite G2, F, uwrap_len by exact L.
  unfold reply_header. rewrite (proj2 (N.eqb_neq _ _) V). reflexivity.
Qed.
Print Assumptions C76_faithful.

Example C76_faithful_ex :
  let h := MkHeader 4 3 0 7 in
  map (fun q => wcalls (write_to sink q)) (snd (record_write h (Some (MkPayload [xaa] None)) new_recorder))
  = [[[x04; x03; x00; x09; x00; x00; x00; x07; xaa]]].
Proof. vm_compute. reflexivity. Qed.

(** C76: otherwise it is not.  A header without version is recorded without,
    while the server fills in that of the request; the error of a payload is not
    reported; an answer that is too long is recorded as a request that cannot be
    sent, while the server sends it. *)
Theorem C76_unfaithful : forall q h w, exists r, snd (record_write h w new_recorder) = [r]
  /\ fst (record_write h w new_recorder) = None
  /\ Header_Version (Request_Header r) = Header_Version h
  /\ (Header_Version h = 0%N -> forall x, content (BCopy w [] None false) = (x, None) ->
        exists e, snd (response_bytes (Header_Version (Request_Header q)) h w)
                  = inl (byte_of_N (Header_Version (Request_Header q)) :: e))
  /\ (forall x y c, content (BCopy w [] None false) = (x, Some y) -> fst (reply_to q h w c) = Some y)
  /\ (forall x, content (BCopy w [] None false) = (x, None) -> (65527 < lenN x)%N ->
        wcalls (write_to sink r) = [] /\ werr (write_to sink r) = Some ETooLong
        /\ exists e, snd (response_bytes (Header_Version (Request_Header q)) h w) = inl e /\ length e = 8 + length x).
Proof.
  intros q h w. set (r := set_header h (new_request (Header_Type h) w)). exists r.
  split; [reflexivity|]. split; [reflexivity|]. split; [reflexivity|]. split; [|split].
  - intros V x C. destruct (response_all (Header_Version (Request_Header q)) h w x C) as (e' & G1 & G2).
    rewrite G1, G2. unfold reply_header. rewrite V. cbn [N.eqb]. unfold enc_Header. cbn [concat Header_Version].
    unfold u8 at 1. rewrite be_enc_1. eexists. reflexivity.
  - intros x y c C. unfold reply_to. rewrite (reply_fails _ h w x y C c). reflexivity.
  - intros x C L. destruct (response_all (Header_Version (Request_Header q)) h w x C) as (e' & G1 & G2).
    assert (TL : (65535 <? lenN x + 8)%N = true) by (apply N.ltb_lt; lia).
    assert (K : write_to sink r = WRes (set_body (Request_Body r) (set_header (set_Header_Length 8 h) r)) 0 (Some ETooLong) []).
    { unfold write_to. cbn [r set_header Request_Header Request_Body new_request copy_body].
      destruct w as [[p pe]|]; cbn in C.
      - injection C as -> ->. cbn [copy_write pbytes perr]. rewrite TL. reflexivity.
      - injection C as <-. discriminate TL. }
    rewrite K. split; [reflexivity|]. split; [reflexivity|]. exists e'. split; [exact G1|].
    rewrite G2, app_length, enc_Header_length. reflexivity.
Qed.
Print Assumptions C76_unfaithful.

Theorem C76_version_refuted : exists q h, Header_Version (Request_Header q) = 4%N
  /\ map (fun r => wcalls (write_to sink r)) (snd (record_write h None new_recorder)) = [[[x00; x03; x00; x08; x00; x00; x00; x00]]]
  /\ on_wire (snd (reply_to q h None (new_conn 0 (MkTr [] [] 0 None)))) = [x04; x03; x00; x08; x00; x00; x00; x00].
Proof. exists (MkRequest (MkHeader 4 2 8 7) (BBuf []) 1 3 0), (MkHeader 0 3 0 0). vm_compute. repeat split; reflexivity. Qed.
Print Assumptions C76_version_refuted.
