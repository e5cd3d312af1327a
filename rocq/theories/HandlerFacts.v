(** Facts about the echo and hello handlers and the recorder. *)
From Verif Require Export RequestSpec RequestFacts ConnSpec ConnSeqFacts DataFacts.
From Verif Require Export HandlerModel.

Lemma body_all_buf : forall f x acc, length x < f -> body_all (S f) acc (BBuf x) = (acc ++ x, None, BBuf []).
Proof.
  induction f as [|f IH]; intros x acc L; [lia|].
  destruct x as [|c x].
  - cbn. reflexivity.
  - cbn [body_all]. set (y := c :: x) in *. assert (Y : y <> []) by discriminate.
    cbn [body_read]. unfold buffer_read. destruct y as [|c' y'] eqn:E; [congruence|]. rewrite <- E in *.
    assert (L2 : length (skipn 512 y) < f).
    { rewrite skipn_length. assert (0 < length y) by (rewrite E; cbn; lia). lia. }
    change (body_all (S f) (acc ++ firstn 512 y) (BBuf (skipn 512 y)) = (acc ++ y, None, BBuf [])).
    rewrite (IH _ _ L2), <- app_assoc, firstn_skipn. reflexivity.
Qed.

(** A received body is read completely. *)
Lemma read_all_buf x : read_body_all (BBuf x) = (x, None, BBuf []).
Proof. unfold read_body_all, body_fuel. apply (body_all_buf (S (length x)) x []). lia. Qed.

(** What EchoHandler does with a received request. *)
Lemma echo_received {W} (h : option (handler W)) rw q d w : Request_Body q = BBuf d ->
  echo_handler h rw q w =
  Some (let w1 := snd (rw (set_Header_Type 3 (Request_Header q)) (Some (MkPayload d None)) w) in
        match h with None => w1 | Some f => f rw (set_body (BBuf []) q) w1 end).
Proof. intro B. unfold echo_handler. rewrite B, read_all_buf. reflexivity. Qed.
