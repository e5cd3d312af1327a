(** C88: matches read from any sender and written again. *)
From Coq Require Import ZifyBool ZifyNat ZifyN.
From Verif Require Import MatchRelayFacts.
Ltac Zify.zify_post_hook ::= Z.div_mod_to_equations.

(** A complete entry is written back byte for byte exactly if value and mask
    have the same, positive length. *)
Theorem C88_entry : forall x seg old tl, represents x seg ->
  dec_XM old (seg ++ tl) = Res x (length seg) None tl
  /\ (enc_XM x = seg <-> regular seg).
Proof. intros x seg old tl R. split; [apply (rt_represents _ _ R)|apply rewritten_same, R]. Qed.
Print Assumptions C88_entry.

(** A mask flag with an odd payload: the last byte disappears and the length
    says so; with at most one byte of payload the mask flag disappears too. *)
Theorem C88_irregular : forall x c1 c2 f l p, represents x (c1 :: c2 :: f :: l :: p) ->
  N.odd (Byte.to_N f) = true ->
  let n := 2 * (length p / 2) in
  enc_XM x = c1 :: c2 :: byte_of_N (Byte.to_N f - (if length p <? 2 then 1 else 0))
                :: byte_of_N (N.of_nat n) :: firstn n p.
Proof.
  intros x c1 c2 f l p R O. cbv zeta. rewrite (rewritten _ _ _ _ _ _ R).
  rewrite odd_even in O. destruct (N.even (Byte.to_N f)) eqn:EV; [discriminate O|]. cbv zeta.
  assert (OD : N.odd (Byte.to_N f) = true) by (rewrite odd_even, EV; reflexivity).
  apply N.odd_spec in OD. destruct OD as [k Hk].
  replace (2 * (Byte.to_N f / 2) + (if (length p <? 2)%nat then 0 else 1))%N
    with (Byte.to_N f - (if (length p <? 2)%nat then 1 else 0))%N; [reflexivity|].
  destruct (length p <? 2); lia.
Qed.
Print Assumptions C88_irregular.

(** Reading what was written gives the same entry: only the wire form changes,
    and only once. *)
Theorem C88_stable : forall x seg old tl, represents x seg ->
  dec_XM old (enc_XM x ++ tl) = Res x (length (enc_XM x)) None tl /\ length (enc_XM x) <= length seg.
Proof.
  intros x seg old tl R. split; [apply (rt_XM x (represents_wf _ _ R))|apply represents_len, R].
Qed.
Print Assumptions C88_stable.

(** A match whose announced bytes are complete entries and fewer than four
    stray bytes: it is read without complaint; writing it reproduces the
    announced bytes (and zero padding) exactly if every entry is regular and
    there is no stray byte. *)
Theorem C88_match : forall old inp xs segs stray,
  4 <= declared inp -> up8 (declared inp) <= length inp ->
  region inp = concat segs ++ stray -> Forall2 represents xs segs -> length stray < 4 ->
  let d := declared inp in
  let m := val (dec_Match old inp) in
  fail (dec_Match old inp) = None /\ rest (dec_Match old inp) = skipn (up8 d) inp
  /\ Match_Fields m = xs
  /\ (enc_Match m = firstn d inp ++ zeros (up8 d - d) <-> Forall regular segs /\ stray = []).
Proof.
  intros old inp xs segs stray D4 DL RG F LS.
  destruct (match_rewritten old inp xs segs stray D4 DL RG F LS) as (E & _ & I). cbv zeta in *. rewrite E.
  cbn [val fail rest Match_Fields]. auto.
Qed.
Print Assumptions C88_match.

(** Writing what was read and reading it again gives the same match. *)
Theorem C88_match_stable : forall old old' inp xs segs stray tl,
  4 <= declared inp -> up8 (declared inp) <= length inp ->
  region inp = concat segs ++ stray -> Forall2 represents xs segs -> length stray < 4 ->
  let m := val (dec_Match old inp) in
  dec_Match old' (enc_Match m ++ tl) = Res m (length (enc_Match m)) None tl.
Proof.
  intros old old' inp xs segs stray tl D4 DL RG F LS.
  destruct (match_rewritten old inp xs segs stray D4 DL RG F LS) as (E & W & _). cbv zeta in *. rewrite E.
  cbn [val]. apply (rt_Match _ W).
Qed.
Print Assumptions C88_match_stable.

(** A match accepted by the decoder that a relay changes: its masked entry has an
    odd payload. *)
Theorem C88_relay_refuted : exists inp,
  fail (dec_Match zero_Match inp) = None /\ rest (dec_Match zero_Match inp) = []
  /\ length (enc_Match (val (dec_Match zero_Match inp))) = length inp
  /\ enc_Match (val (dec_Match zero_Match inp)) <> inp.
Proof.
  exists ([x00; x01; x00; x0b; x80; x00; x0d; x03; x0a; x0b; x0c] ++ zeros 5).
  vm_compute. repeat split; discriminate.
Qed.
Print Assumptions C88_relay_refuted.

Example C88_ex :
  let odd := [x80; x00; x0d; x03; x0a; x0b; x0c] in
  let none := [x80; x00; x0d; x00] in
  let good := [x80; x00; x0d; x02; x0a; x0b] in
  represents (MkXM 32768 6 [x0a] [x0b]) odd /\ enc_XM (MkXM 32768 6 [x0a] [x0b]) = good
  /\ represents (MkXM 32768 6 [] []) none /\ enc_XM (MkXM 32768 6 [] []) = [x80; x00; x0c; x00]
  /\ regular good /\ ~ regular odd /\ ~ regular none
  /\ let inp := [x00; x01; x00; x0e] ++ good ++ none ++ [xaa; xbb] in
     declared inp = 14 /\ region inp = concat [good; none] ++ []
     /\ enc_Match (val (dec_Match zero_Match inp))
        = [x00; x01; x00; x0e] ++ good ++ [x80; x00; x0c; x00] ++ [x00; x00].
Proof.
  cbv zeta. split; [repeat eexists; vm_compute; reflexivity|]. split; [vm_compute; reflexivity|].
  split; [repeat eexists; vm_compute; reflexivity|]. split; [vm_compute; reflexivity|].
  split; [intros _; split; [reflexivity|discriminate]|].
  split; [intro H; destruct (H eq_refl) as [E _]; vm_compute in E; discriminate E|].
  split; [intro H; destruct (H eq_refl) as [_ E]; vm_compute in E; congruence|].
  vm_compute. auto.
Qed.
