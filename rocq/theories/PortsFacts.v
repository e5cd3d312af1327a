(** Lemmas about lists of ports. *)
From Coq Require Import ZifyBool ZifyNat ZifyN.
From Verif Require Export CutFacts PortsModel.
Ltac Zify.zify_post_hook ::= Z.div_mod_to_equations.

(** ** The list *)
Definition slot (inp : bytes) (i : nat) : bytes := skipn (64 * i) inp.
Definition ports_of (inp : bytes) (q : nat) : list Port := map (fun i => port_of (slot inp i)) (seq 0 q).

Lemma ports_of_S (inp : bytes) q : ports_of inp (S q) = port_of inp :: ports_of (skipn 64 inp) q.
Proof.
  unfold ports_of. cbn [seq map]. f_equal.
  rewrite <- seq_shift, map_map. apply map_ext. intro i. unfold slot. f_equal.
  rewrite skipn_skipn'. f_equal. lia.
Qed.

Lemma ports_loop_S fuel acc (inp : bytes) : ports_loop (S fuel) acc inp =
  match fail (dec_Port zero_Port inp) with
  | Some EOF => Res acc (cnt (dec_Port zero_Port inp)) None (rest (dec_Port zero_Port inp))
  | Some e => Res (acc ++ [val (dec_Port zero_Port inp)]) (cnt (dec_Port zero_Port inp)) (Some e)
                (rest (dec_Port zero_Port inp))
  | None =>
      let r' := ports_loop fuel (acc ++ [val (dec_Port zero_Port inp)]) (rest (dec_Port zero_Port inp)) in
      Res (val r') (cnt (dec_Port zero_Port inp) + cnt r') (fail r') (rest r')
  end.
Proof. reflexivity. Qed.

(** The list ends where the input does: with the last whole port, or inside a
    further one. *)
Lemma ports_loop_eq : forall q fuel acc (inp : bytes),
  q < fuel -> 64 * q <= length inp -> length inp < 64 * q + 64 ->
  (boundary port_members (length inp - 64 * q) = true ->
     ports_loop fuel acc inp = Res (acc ++ ports_of inp q) (length inp) None [])
  /\ (boundary port_members (length inp - 64 * q) = false ->
     exists p, ports_loop fuel acc inp
               = Res (acc ++ ports_of inp q ++ [p]) (length inp) (Some UnexpectedEOF) []).
Proof.
  induction q as [|q IH]; intros [|fuel] acc inp F L1 L2; try lia; rewrite ports_loop_S.
  - assert (Lt : length inp < total port_members) by (cbn [total port_members]; lia).
    pose proof (cuts_Port zero_Port inp Logic.I Lt) as E.
    destruct (proj1 (fixed_Port zero_Port inp)) as (_ & F2 & F3); [lia|].
    rewrite E, F2, F3. unfold cut_error.
    replace (length inp - 64 * 0) with (length inp) by lia.
    split; intros ->.
    + cbn [ports_of seq map]. rewrite app_nil_r. reflexivity.
    + eexists. reflexivity.
  - assert (D : dec_Port zero_Port inp = Res (port_of inp) 64 None (skipn 64 inp))
      by (apply any_Port; [exact Logic.I|lia]).
    rewrite D. cbn [fail val cnt rest]. cbv zeta.
    destruct (IH fuel (acc ++ [port_of inp]) (skipn 64 inp)) as [A B];
      [lia|rewrite skipn_length; lia|rewrite skipn_length; lia|].
    rewrite skipn_length in A, B.
    replace (length inp - 64 - 64 * q) with (length inp - 64 * S q) in A, B by lia.
    rewrite ports_of_S. split; intro H.
    + rewrite (A H). cbn [val cnt fail rest]. rewrite <- app_assoc. f_equal. lia.
    + destruct (B H) as [p ->]. exists p. cbn [val cnt fail rest]. rewrite <- app_assoc. f_equal. lia.
Qed.
