(** C02 - C12: framing of requests. *)
From Verif Require Import RequestFacts.

(** C02: a successful WriteTo is one write of one self-describing frame. *)
Theorem C02_write_frame : forall w r, werr (write_to w r) = None ->
  let h := Request_Header r in
  exists b e, content (Request_Body r) = (b, None) /\ wcalls (write_to w r) = [e]
    /\ is_frame e (Header_Version h) (Header_Type h) (Header_Transaction h) b
    /\ wcount (write_to w r) = length e
    /\ Request_Header (wreq (write_to w r))
       = MkHeader (Header_Version h) (Header_Type h) (lenN e) (Header_Transaction h).
Proof. exact write_frame. Qed.
Print Assumptions C02_write_frame.

Example C02_write_frame_ex :
  let r := set_header (MkHeader 4 13 999 7) (new_request 13 (Some (MkPayload [xaa; xbb; xcc] None))) in
  werr (write_to sink r) = None
  /\ wcalls (write_to sink r) = [[x04; x0d; x00; x0b; x00; x00; x00; x07; xaa; xbb; xcc]]
  /\ wcalls (write_to sink (set_body BNil r)) = [[x04; x0d; x00; x08; x00; x00; x00; x07]].
Proof. vm_compute. repeat split; reflexivity. Qed.

(** C02, C03: bodies of up to 65527 bytes are written as a frame. *)
Theorem C03_fitting_written : forall r b, content (Request_Body r) = (b, None) -> (lenN b <= 65527)%N ->
  let h := Request_Header r in
  exists e, wcalls (write_to sink r) = [e] /\ werr (write_to sink r) = None
    /\ wcount (write_to sink r) = length e
    /\ is_frame e (Header_Version h) (Header_Type h) (Header_Transaction h) b.
Proof. exact write_sink. Qed.
Print Assumptions C03_fitting_written.

Example C03_fitting_written_ex :
  content (BBuf [x01]) = ([x01], None) /\ (lenN [x01] <= 65527)%N.
Proof. vm_compute. split; [reflexivity|discriminate]. Qed.

(** C03: longer bodies are refused, nothing is written. *)
Theorem C03_oversized_refused : forall w r b, content (Request_Body r) = (b, None) -> (65527 < lenN b)%N ->
  werr (write_to w r) = Some ETooLong /\ wcalls (write_to w r) = [] /\ wcount (write_to w r) = 0.
Proof. exact write_to_toolong. Qed.
Print Assumptions C03_oversized_refused.

Example C03_oversized_refused_ex :
  let b := repeat x61 (N.to_nat 65528) in
  lenN b = 65528%N /\ werr (write_to sink (new_request 13 (Some (MkPayload b None)))) = Some ETooLong
  /\ werr (write_to sink (new_request 13 (Some (MkPayload (tl b) None)))) = None.
Proof. vm_compute. repeat split; reflexivity. Qed.

(** C03: a failing body's error is returned, nothing is written. *)
Theorem C03_failing_body : forall w r b e, Request_Body r <> BNil -> content (Request_Body r) = (b, Some e) ->
  werr (write_to w r) = Some e /\ wcalls (write_to w r) = [] /\ wcount (write_to w r) = length b.
Proof. exact write_to_fails. Qed.
Print Assumptions C03_failing_body.

Example C03_failing_body_ex :
  werr (write_to sink (new_request 13 (Some (MkPayload [x01; x02] (Some (EUser 5)))))) = Some (EUser 5).
Proof. vm_compute. reflexivity. Qed.

(** C04: reading a frame gives back the message under every fragmentation
    [s], whatever follows ([tl]) and however the stream ends ([f]).  [eg] says
    that the final error comes with the last bytes; see C09 for that case. *)
Theorem C04_receive_frame : forall e v t x b, is_frame e v t x b -> ranges v t x -> (lenN b <= 65527)%N ->
  forall req tl s f eg, (eg = false \/ tl <> [] \/ b = []) ->
  let y := read_from req (MkReader (e ++ tl) s f eg) in
  rfail y = None /\ rcount y = length e /\ received v t x b (rreq y)
  /\ data (rreader y) = tl /\ fin (rreader y) = f /\ eager (rreader y) = eg
  /\ Request_ProtoMajor (rreq y) = 1%Z
  /\ Request_ProtoMinor (rreq y) = Z.of_N (if (v =? 0)%N then 255 else v - 1).
Proof. exact receive_frame. Qed.
Print Assumptions C04_receive_frame.

Example C04_receive_frame_ex :
  let e := [x04; x0d; x00; x0b; x00; x00; x00; x07; xaa; xbb; xcc] in
  is_frame e 4 13 7 [xaa; xbb; xcc]
  /\ let y := read_from zero_Request (MkReader (e ++ [x99]) [0; 1; 0; 0; 1; 1; 5; 0; 1; 1] EOF false) in
     rfail y = None /\ rcount y = 11 /\ Request_Body (rreq y) = BBuf [xaa; xbb; xcc]
     /\ data (rreader y) = [x99].
Proof. split; [apply frame_eq; vm_compute; reflexivity|vm_compute; auto]. Qed.

(** C05: a stream of messages followed by a close is received as the same sequence. *)
Theorem C05_receive_stream : forall msgs, Forall msg_ok msgs ->
  forall es, Forall2 frame_of es msgs -> forall s,
  exists qs r', receive_all (S (length msgs)) (MkReader (concat es) s EOF false) = (qs, Some EOF, r')
    /\ Forall2 received_as msgs qs /\ data r' = [].
Proof. exact receive_stream. Qed.
Print Assumptions C05_receive_stream.

Example C05_receive_stream_ex :
  let e1 := [x04; x02; x00; x08; x00; x00; x00; x01] in
  let e2 := [x04; x0a; x00; x0a; x00; x00; x00; x02; xde; xad] in
  Forall msg_ok [(4, 2, 1, []); (4, 10, 2, [xde; xad])]%N
  /\ Forall2 frame_of [e1; e2] [(4, 2, 1, []); (4, 10, 2, [xde; xad])]%N
  /\ map Request_Body (fst (fst (receive_all 3 (MkReader (e1 ++ e2) [3; 0; 2] EOF false))))
     = [BBuf []; BBuf [xde; xad]].
Proof.
  split; [repeat constructor; vm_compute; congruence|].
  split; [repeat constructor; apply frame_eq; vm_compute; reflexivity|vm_compute; reflexivity].
Qed.

(** C06: whatever the bytes, fragmentation and final error: the count is what
    was consumed, at most the declared length (8 for the header), and success
    means exactly the declared message was consumed and is the body. *)
Theorem C06_receive_bounds : forall req r,
  let y := read_from req r in
  exists used, data r = used ++ data (rreader y) /\ rcount y = length used
    /\ (8 <= length (data r) -> length used <= Nat.max 8 (N.to_nat (declared (data r))))
    /\ length used <= length (data r)
    /\ (length (data r) < 8 -> length used <= 8)
    /\ (rfail y = None ->
        8 <= length used /\ length used = N.to_nat (declared (data r))
        /\ Request_Body (rreq y) = BBuf (skipn 8 used)
        /\ Request_ContentLength (rreq y) = (Z.of_N (declared (data r)) - 8)%Z).
Proof. exact receive_bounds. Qed.
Print Assumptions C06_receive_bounds.

Example C06_receive_bounds_ex :
  let r := MkReader [x04; x02; x00; x09; x00; x00; x00; x01; xee; xff] [2] (EUser 3) true in
  rfail (read_from zero_Request r) = None /\ rcount (read_from zero_Request r) = 9
  /\ declared (data r) = 9%N.
Proof. vm_compute. repeat split; reflexivity. Qed.

(** C07: a declared length below 8 is rejected after exactly the header ... *)
Theorem C07_corrupted : forall req r, 8 <= length (data r) -> (declared (data r) < 8)%N ->
  let y := read_from req r in
  rfail y = Some ECorrupted /\ rcount y = 8 /\ data (rreader y) = skipn 8 (data r).
Proof. exact receive_corrupted. Qed.
Print Assumptions C07_corrupted.

(** ... and nothing else is. *)
Theorem C07_not_corrupted : forall req r, (length (data r) < 8 \/ (8 <= declared (data r))%N) ->
  fin r <> ECorrupted -> rfail (read_from req r) <> Some ECorrupted.
Proof. exact receive_not_corrupted. Qed.
Print Assumptions C07_not_corrupted.

Example C07_corrupted_ex :
  let d := [x04; x02; x00; x07; x00; x00; x00; x01; xee] in
  8 <= length d /\ (declared d < 8)%N
  /\ rfail (read_from zero_Request (MkReader d [] EOF false)) = Some ECorrupted
  /\ rfail (read_from zero_Request (MkReader [x04; x02; x00; x08; x00; x00; x00; x01] [] EOF false)) = None.
Proof. vm_compute. repeat split; auto. Qed.

(** C08: every strict prefix of a frame fails; the error is that of a clean
    close (the case [c = 0]) except after 3, 5, 6 or 7 bytes. *)
Theorem C08_cut_short : forall e v t x b, is_frame e v t x b -> ranges v t x -> (lenN b <= 65527)%N ->
  forall c req s eg, c < length e ->
  rfail (read_from req (MkReader (firstn c e) s EOF eg))
  = Some (match c with 3 | 5 | 6 | 7 => UnexpectedEOF | _ => EOF end)
  /\ rcount (read_from req (MkReader (firstn c e) s EOF eg)) = c.
Proof. exact receive_cut. Qed.
Print Assumptions C08_cut_short.

Example C08_cut_short_ex :
  let e := [x04; x0d; x00; x0b; x00; x00; x00; x07; xaa; xbb; xcc] in
  is_frame e 4 13 7 [xaa; xbb; xcc] /\ 10 < length e
  /\ fst (receive (MkReader (firstn 10 e) [] EOF false)) = inr EOF
  /\ fst (receive (MkReader [] [] EOF false)) = inr EOF.
Proof. split; [apply frame_eq; vm_compute; reflexivity|vm_compute; auto]. Qed.

(** C09: a complete frame whose last bytes come together with an error is lost. *)
Theorem C09_data_with_error_lost : forall e v t x b,
  is_frame e v t x b -> ranges v t x -> (lenN b <= 65527)%N ->
  b <> [] -> forall req s f,
  rfail (read_from req (MkReader e s f true)) = Some f
  /\ rcount (read_from req (MkReader e s f true)) = length e.
Proof. exact receive_eager. Qed.
Print Assumptions C09_data_with_error_lost.

Example C09_data_with_error_lost_ex :
  let e := [x04; x0d; x00; x09; x00; x00; x00; x07; xaa] in
  is_frame e 4 13 7 [xaa]
  /\ fst (receive (MkReader e [] EOF true)) = inr EOF
  /\ exists q, fst (receive (MkReader e [] EOF false)) = inl q.
Proof. split; [apply frame_eq; vm_compute; reflexivity|vm_compute; eauto]. Qed.

(** C10: ProtoAtLeast is the lexicographic order (the decoded version is part of C04). *)
Theorem C10_proto_lex : forall q a b, proto_at_least q a b = true <->
  (a < Request_ProtoMajor q \/ (a = Request_ProtoMajor q /\ b <= Request_ProtoMinor q))%Z.
Proof. exact proto_lex. Qed.
Print Assumptions C10_proto_lex.

Example C10_proto_lex_ex :
  let q := new_request 0 None in
  proto_at_least q 1 3 = true /\ proto_at_least q 1 4 = false /\ proto_at_least q 0 9 = true
  /\ proto_at_least q 2 0 = false.
Proof. vm_compute. auto. Qed.

(** C10: what NewRequest makes is received as 1.3. *)
Theorem C10_new_request_13 : forall t w b, fits 1 t -> content (Request_Body (new_request t w)) = (b, None) ->
  (lenN b <= 65527)%N ->
  exists e, wcalls (write_to sink (new_request t w)) = [e] /\
  forall tl s, let y := read_from zero_Request (MkReader (e ++ tl) s EOF false) in
    rfail y = None /\ Request_ProtoMajor (rreq y) = 1%Z /\ Request_ProtoMinor (rreq y) = 3%Z.
Proof. exact new_request_received. Qed.
Print Assumptions C10_new_request_13.

Example C10_new_request_13_ex :
  content (Request_Body (new_request 2 (Some (MkPayload [x01] None)))) = ([x01], None).
Proof. reflexivity. Qed.

(** C10: version 0 passes for 1.255, the newest version of all. *)
Theorem C10_version_zero_refuted : exists d, nth 0 d xff = x00 /\
  let y := read_from zero_Request (MkReader d [] EOF false) in
  rfail y = None /\ forall m, (m <= 255)%Z -> proto_at_least (rreq y) 1 m = true.
Proof. exact version_zero. Qed.
Print Assumptions C10_version_zero_refuted.

(** C11: a NewRequest request can be sent any number of times. *)
Theorem C11_resend_new : forall t x p, (lenN p <= 65527)%N ->
  let r := set_header (MkHeader 4 t 0 x) (new_request t (Some (MkPayload p None))) in
  exists e, is_frame e 4 t x p /\ forall n, wcalls (write_to sink (resend n r)) = [e]
    /\ werr (write_to sink (resend n r)) = None.
Proof. exact resend_new. Qed.
Print Assumptions C11_resend_new.

Example C11_resend_new_ex :
  let r := set_header (MkHeader 4 2 0 9) (new_request 2 (Some (MkPayload [x01; x02] None))) in
  (lenN [x01; x02] <= 65527)%N
  /\ wcalls (write_to sink (resend 3 r)) = [[x04; x02; x00; x0a; x00; x00; x00; x09; x01; x02]].
Proof. vm_compute. split; [discriminate|reflexivity]. Qed.

(** C11: a payload that is too long is refused each time, and nothing is written. *)
Theorem C11_resend_long : forall t x p, (65527 < lenN p)%N ->
  let r := set_header (MkHeader 4 t 0 x) (new_request t (Some (MkPayload p None))) in
  forall n, wcalls (write_to sink (resend n r)) = [] /\ werr (write_to sink (resend n r)) = Some ETooLong.
Proof.
  intros t x p HL r n.
  assert (G : forall q, Request_Body q = BCopy (Some (MkPayload p None)) [] None false ->
    Request_Body (resend n q) = BCopy (Some (MkPayload p None)) [] None false).
  { induction n as [|n IH]; intros q Hq; [exact Hq|]. cbn [resend]. apply IH. unfold write_to. rewrite Hq. cbn [copy_body copy_write pbytes perr].
    destruct (65535 <? lenN p + 8)%N; reflexivity. }
  unfold write_to. rewrite (G r eq_refl). cbn [copy_body copy_write pbytes perr].
  replace (65535 <? lenN p + 8)%N with true by (symmetry; apply N.ltb_lt; lia). split; reflexivity.
Qed.
Print Assumptions C11_resend_long.

Example C11_resend_long_ex : (65527 < lenN (repeat x00 (N.to_nat 65528)))%N.
Proof. unfold lenN. rewrite repeat_length, N2Nat.id. reflexivity. Qed.

(** C11: a received request is forwarded once; afterwards only its header. *)
Theorem C11_resend_received : forall q b, Request_Body q = BBuf b -> (lenN b <= 65527)%N ->
  let h := Request_Header q in
  (exists e, is_frame e (Header_Version h) (Header_Type h) (Header_Transaction h) b
             /\ wcalls (write_to sink q) = [e])
  /\ forall n, exists e, is_frame e (Header_Version h) (Header_Type h) (Header_Transaction h) []
             /\ wcalls (write_to sink (resend (S n) q)) = [e] /\ length e = 8.
Proof. exact resend_received. Qed.
Print Assumptions C11_resend_received.

Example C11_resend_received_ex :
  let y := read_from zero_Request (MkReader [x04; x0d; x00; x09; x00; x00; x00; x07; xaa] [] EOF false) in
  Request_Body (rreq y) = BBuf [xaa]
  /\ wcalls (write_to sink (rreq y)) = [[x04; x0d; x00; x09; x00; x00; x00; x07; xaa]]
  /\ wcalls (write_to sink (resend 1 (rreq y))) = [[x04; x0d; x00; x08; x00; x00; x00; x07]].
Proof. vm_compute. auto. Qed.

(** C12: reading the body of a NewRequest in pieces of any sizes. *)
Theorem C12_new_body_reads : forall ks p, Forall (fun k => 0 < k) ks ->
  let outs := body_reads ks (Request_Body (new_request 0 (Some (MkPayload p None)))) in
  concat (map fst outs) = firstn (list_sum ks) p
  /\ forall i, i < length ks ->
     option_map snd (nth_error outs i)
     = Some (if length p <=? list_sum (firstn i ks) then Some EOF else None).
Proof. exact new_body_reads. Qed.
Print Assumptions C12_new_body_reads.

Example C12_new_body_reads_ex :
  body_reads [2; 1; 5; 1] (Request_Body (new_request 0 (Some (MkPayload [x01; x02; x03; x04] None))))
  = [([x01; x02], None); ([x03], None); ([x04], None); ([], Some EOF)].
Proof. vm_compute. reflexivity. Qed.

(** C12: the first read of a failing payload never shows the failure; a payload
    that fails before producing bytes looks like an empty body. *)
Theorem C12_failing_body_reads : forall k ks p e, 0 < k ->
  body_reads (k :: ks) (Request_Body (new_request 0 (Some (MkPayload p (Some e)))))
  = (firstn k p, match p with [] => Some EOF | _ => None end) :: map (fun _ => ([], Some e)) ks.
Proof. exact failing_body_reads. Qed.
Print Assumptions C12_failing_body_reads.

Example C12_failing_body_reads_ex :
  body_reads [512] (Request_Body (new_request 0 (Some (MkPayload [] (Some (EUser 7)))))) = [([], Some EOF)].
Proof. vm_compute. reflexivity. Qed.
