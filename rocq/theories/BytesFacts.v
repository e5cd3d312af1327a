(** Lemmas about bytes and big-endian integers. *)
From Coq Require Import ZifyBool ZifyNat ZifyN.
From Verif Require Export Bytes.
Ltac Zify.zify_post_hook ::= Z.div_mod_to_equations.

Lemma to_N_byte_of_N n : Byte.to_N (byte_of_N n) = (n mod 256)%N.
Proof.
  unfold byte_of_N. destruct (Byte.of_N (n mod 256)) as [b|] eqn:E.
  - apply Byte.to_of_N_iff in E. exact E.
  - apply Byte.of_N_None_iff in E. assert (n mod 256 < 256)%N by (apply N.mod_lt; lia). lia.
Qed.

Lemma byte_of_N_to_N b : byte_of_N (Byte.to_N b) = b.
Proof.
  unfold byte_of_N. pose proof (Byte.to_N_bounded b) as Hb.
  rewrite N.mod_small by lia. rewrite Byte.of_to_N. reflexivity.
Qed.

Lemma to_N_lt b : (Byte.to_N b < 256)%N.
Proof. pose proof (Byte.to_N_bounded b); lia. Qed.

Lemma to_N_inj a b : Byte.to_N a = Byte.to_N b -> a = b.
Proof. intro H. rewrite <- (byte_of_N_to_N a), <- (byte_of_N_to_N b), H. reflexivity. Qed.

Lemma be_enc_length k n : length (be_enc k n) = k.
Proof. induction k as [|k IH]; cbn [be_enc length]; congruence. Qed.

Lemma be_dec_acc l acc :
  fold_left (fun acc b => acc * 256 + Byte.to_N b)%N l acc
  = (acc * 256 ^ N.of_nat (length l) + be_dec l)%N.
Proof.
  revert acc; induction l as [|b l IH]; intros acc.
  - cbn. lia.
  - unfold be_dec. cbn [fold_left length]. rewrite IH.
    rewrite (IH (0 * 256 + Byte.to_N b)%N).
    rewrite Nat2N.inj_succ, N.pow_succ_r'. lia.
Qed.

Lemma be_dec_cons b l :
  be_dec (b :: l) = (Byte.to_N b * 256 ^ N.of_nat (length l) + be_dec l)%N.
Proof.
  unfold be_dec at 1. cbn [fold_left]. rewrite be_dec_acc. lia.
Qed.

Lemma be_dec_bound l : (be_dec l < 256 ^ N.of_nat (length l))%N.
Proof.
  induction l as [|b l IH].
  - cbn. lia.
  - rewrite be_dec_cons. cbn [length]. rewrite Nat2N.inj_succ, N.pow_succ_r'.
    pose proof (to_N_lt b). nia.
Qed.

Lemma be_dec_enc k n : be_dec (be_enc k n) = uwrap k n.
Proof.
  unfold uwrap. induction k as [|k IH].
  - cbn. rewrite N.mod_1_r. reflexivity.
  - cbn [be_enc]. rewrite be_dec_cons, be_enc_length, to_N_byte_of_N, IH.
    rewrite Nat2N.inj_succ, N.pow_succ_r'.
    set (p := (256 ^ N.of_nat k)%N).
    assert (p <> 0)%N by (unfold p; apply N.pow_nonzero; lia).
    rewrite (N.mul_comm 256 p). rewrite N.mod_mul_r by lia. lia.
Qed.

Lemma be_dec_enc_fits k n : fits k n -> be_dec (be_enc k n) = n.
Proof. intro H. rewrite be_dec_enc. unfold uwrap. apply N.mod_small. exact H. Qed.

Lemma be_enc_wrap k n m : (n mod 256 ^ N.of_nat k = m mod 256 ^ N.of_nat k)%N ->
  be_enc k n = be_enc k m.
Proof.
  revert n m; induction k as [|k IH]; intros n m H; [reflexivity|].
  cbn [be_enc]. rewrite Nat2N.inj_succ, N.pow_succ_r' in H.
  set (p := (256 ^ N.of_nat k)%N) in *.
  assert (p <> 0)%N by (unfold p; apply N.pow_nonzero; lia).
  rewrite (N.mul_comm 256 p) in H.
  rewrite !N.mod_mul_r in H by lia.
  assert (Hn := N.mod_lt n p ltac:(lia)).
  assert (Hm := N.mod_lt m p ltac:(lia)).
  assert (E1 : (n mod p = m mod p)%N).
  { transitivity ((n mod p + p * ((n / p) mod 256)) mod p)%N.
    - rewrite N.mul_comm, N.mod_add, N.mod_mod by lia. reflexivity.
    - rewrite H. rewrite N.mul_comm, N.mod_add, N.mod_mod by lia. reflexivity. }
  f_equal.
  - apply to_N_inj. rewrite !to_N_byte_of_N. nia.
  - apply IH. exact E1.
Qed.

Lemma be_enc_dec l : be_enc (length l) (be_dec l) = l.
Proof.
  induction l as [|b l IH]; [reflexivity|].
  cbn [length be_enc]. rewrite be_dec_cons. f_equal.
  - apply to_N_inj. rewrite to_N_byte_of_N.
    rewrite N.div_add_l by (apply N.pow_nonzero; lia).
    rewrite N.div_small by apply be_dec_bound.
    rewrite N.add_0_r. apply N.mod_small. apply to_N_lt.
  - transitivity (be_enc (length l) (be_dec l)); [|exact IH]. apply be_enc_wrap.
    rewrite N.add_comm, N.mod_add by (apply N.pow_nonzero; lia). reflexivity.
Qed.

Lemma be_enc_uwrap k n : be_enc k (uwrap k n) = be_enc k n.
Proof.
  apply be_enc_wrap. unfold uwrap. rewrite N.mod_mod; [reflexivity|].
  apply N.pow_nonzero; lia.
Qed.

Lemma uwrap_fits k n : fits k (uwrap k n).
Proof. unfold fits, uwrap. apply N.mod_lt. apply N.pow_nonzero; lia. Qed.

Lemma uwrap_small k n : fits k n -> uwrap k n = n.
Proof. intro H. apply N.mod_small. exact H. Qed.

Lemma be_dec_fits l k : length l = k -> fits k (be_dec l).
Proof. intros <-. apply be_dec_bound. Qed.

Lemma fitsb_spec k n : fitsb k n = true <-> fits k n.
Proof. unfold fitsb, fits. apply N.ltb_lt. Qed.

Lemma zeros_length k : length (zeros k) = k.
Proof. apply repeat_length. Qed.

Lemma firstn_app_exact {A} (a b : list A) : firstn (length a) (a ++ b) = a.
Proof. rewrite firstn_app, Nat.sub_diag, firstn_all, firstn_O, app_nil_r. reflexivity. Qed.

Lemma skipn_app_exact {A} (a b : list A) : skipn (length a) (a ++ b) = b.
Proof. rewrite skipn_app, Nat.sub_diag, skipn_all, skipn_O. reflexivity. Qed.

Lemma firstn_app_len {A} n (a b : list A) : length a = n -> firstn n (a ++ b) = a.
Proof. intros <-. apply firstn_app_exact. Qed.

Lemma skipn_app_len {A} n (a b : list A) : length a = n -> skipn n (a ++ b) = b.
Proof. intros <-. apply skipn_app_exact. Qed.

Lemma be_enc_inj k n m : fits k n -> fits k m -> be_enc k n = be_enc k m -> n = m.
Proof.
  intros Hn Hm H. rewrite <- (be_dec_enc_fits k n Hn), <- (be_dec_enc_fits k m Hm), H.
  reflexivity.
Qed.

Lemma lenN_app a b : lenN (a ++ b) = (lenN a + lenN b)%N.
Proof. unfold lenN. rewrite app_length. lia. Qed.

Global Opaque byte_of_N.
