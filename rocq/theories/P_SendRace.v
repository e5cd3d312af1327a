(** C120: a request value sent by several goroutines at the same time. *)
From Verif Require Import WireSpec RequestSpec RequestFacts SendRaceModel.
From Coq Require Import Lia NArith.

(** Like [is_frame], with any number in the length field. *)
Definition frame_with (e : bytes) (v t x len : N) (b : bytes) : Prop :=
  laid_out e (8 + length b)
    [(0, Num 1 v); (1, Num 1 t); (2, Num 2 len); (4, Num 4 x); (8, Raw (length b) b)].

Lemma frame_with_intro v t x len b : frame_with (enc_Header (MkHeader v t len x) ++ b) v t x len b.
Proof.
  unfold frame_with. apply laid_out_intro.
  - repeat constructor; exact I.
  - cbn [tiles width Nat.eqb andb]. apply Nat.eqb_eq. lia.
  - cbn [map snd render concat]. unfold enc_Header. cbn [concat Header_Version Header_Type Header_Length Header_Transaction].
    rewrite !app_nil_r, <- !app_assoc. reflexivity.
Qed.

Definition stored (p : spc) : nat := match p with SHeader | SWrite _ | SDone => 1 | _ => 0 end.
Definition stores (l : list spc) : nat := list_sum (map stored l).

Lemma stores_put l : forall i p q, nth_error l i = Some q -> stores (put i p l) + stored q = stores l + stored p.
Proof.
  induction l as [|y l IH]; intros [|i] p q H; try discriminate H; unfold stores, list_sum in *; cbn [map put fold_right] in *.
  - injection H as ->. lia.
  - specialize (IH i p q H). lia.
Qed.
Lemma stores_le l : stores l <= length l.
Proof. unfold stores, list_sum. induction l as [|[] l IH]; cbn in *; lia. Qed.
Lemma length_put l : forall i p, length (put i p l) = length l.
Proof. induction l as [|y l IH]; intros [|i] p; cbn; auto. Qed.
Lemma Forall_put (P : spc -> Prop) l : forall i p, P p -> Forall P l -> Forall P (put i p l).
Proof. induction l as [|y l IH]; intros [|i] p Hp H; inversion H; subst; constructor; auto. Qed.
Lemma nth_put l : forall i p, i < length l -> nth_error (put i p l) i = Some p.
Proof. induction l as [|y l IH]; intros [|i] p H; cbn in *; try lia; [reflexivity|]. apply IH. lia. Qed.
Lemma put_put l : forall i p q, put i p (put i q l) = put i p l.
Proof. induction l as [|y l IH]; intros [|i] p q; cbn; congruence. Qed.

(** Lengths that can come about when [a] additions were made. *)
Definition len_ok (b : bytes) (a : nat) (z : N) : Prop :=
  exists k, k <= a /\ z = ((8 + N.of_nat k * lenN b) mod 65536)%N.
Definition frame_ok (h : Header) (b : bytes) (a : nat) (f : bytes) : Prop :=
  exists z, len_ok b a z /\ f = enc_Header (MkHeader (Header_Version h) (Header_Type h) z (Header_Transaction h)) ++ b.
Definition pc_ok (h : Header) (b : bytes) (a : nat) (p : spc) : Prop :=
  match p with SStore v => len_ok b a v | SWrite f => frame_ok h b a f | _ => True end.

Record inv (h : Header) (b : bytes) (s : race) : Prop := MkInv {
  iv_hdr : exists z, rhdr s = MkHeader (Header_Version h) (Header_Type h) z (Header_Transaction h);
  iv_len : Forall (eq SBegin) (rpcs s) \/ len_ok b (stores (rpcs s)) (Header_Length (rhdr s));
  iv_pcs : Forall (pc_ok h b (stores (rpcs s))) (rpcs s);
  iv_out : Forall (fun x => frame_ok h b (stores (rpcs s)) (snd x)) (rout s) }.

Lemma len_ok_mono b a a' z : a <= a' -> len_ok b a z -> len_ok b a' z.
Proof. intros L (k & K & E). exists k. split; [lia|exact E]. Qed.
Lemma frame_ok_mono h b a a' f : a <= a' -> frame_ok h b a f -> frame_ok h b a' f.
Proof. intros L (z & K & E). exists z. split; [eapply len_ok_mono; eassumption|exact E]. Qed.
Lemma pc_ok_mono h b a a' p : a <= a' -> pc_ok h b a p -> pc_ok h b a' p.
Proof. intros L. destruct p; cbn; auto; [apply len_ok_mono|apply frame_ok_mono]; exact L. Qed.

Lemma uwrap2 n : uwrap 2 n = (n mod 65536)%N. Proof. reflexivity. Qed.

Lemma inv_move h b i s : inv h b s -> inv h b (rmove b s i).
Proof.
  intros [HH HL HP HO]. unfold rmove. destruct (nth_error (rpcs s) i) as [p|] eqn:E; [|constructor; assumption].
  assert (Hi : In p (rpcs s)) by (eapply nth_error_In; exact E).
  assert (Hp : pc_ok h b (stores (rpcs s)) p) by (rewrite Forall_forall in HP; auto).
  assert (L : p <> SBegin -> len_ok b (stores (rpcs s)) (Header_Length (rhdr s))).
  { intro N. destruct HL as [A|A]; [|exact A]. rewrite Forall_forall in A. destruct N. symmetry. auto. }
  assert (G : forall q z o, stores (rpcs s) <= stores (put i q (rpcs s)) -> len_ok b (stores (put i q (rpcs s))) z ->
    pc_ok h b (stores (put i q (rpcs s))) q ->
    Forall (fun x => frame_ok h b (stores (put i q (rpcs s))) (snd x)) o ->
    inv h b (MkRace (set_Header_Length z (rhdr s)) (put i q (rpcs s)) o)).
  { intros q z o M Z Q O. destruct HH as [z0 HH]. constructor; cbn [rhdr rpcs rout].
    - exists z. rewrite HH. reflexivity.
    - right. rewrite HH. exact Z.
    - apply Forall_put; [exact Q|]. eapply Forall_impl; [|exact HP]. intros y. apply pc_ok_mono, M.
    - exact O. }
  assert (O : forall q, stores (rpcs s) <= stores (put i q (rpcs s)) ->
    Forall (fun x => frame_ok h b (stores (put i q (rpcs s))) (snd x)) (rout s)).
  { intros q M. eapply Forall_impl; [|exact HO]. intros y. apply frame_ok_mono, M. }
  assert (Same : rhdr s = set_Header_Length (Header_Length (rhdr s)) (rhdr s)) by (destruct HH as [z ->]; reflexivity).
  destruct p as [| | |v| |f|].
  - pose proof (stores_put _ _ SCopy _ E) as T. cbn [stored] in T. apply G; [lia| |exact I|apply O; lia].
    exists 0. split; [lia|reflexivity].
  - destruct (65535 <? lenN b + 8)%N.
    + pose proof (stores_put _ _ SDone _ E) as T. cbn [stored] in T. rewrite Same.
      apply G; [lia| |exact I|apply O; lia]. eapply len_ok_mono; [|apply L; discriminate]. lia.
    + pose proof (stores_put _ _ SLoad _ E) as T. cbn [stored] in T. rewrite Same.
      apply G; [lia| |exact I|apply O; lia]. eapply len_ok_mono; [|apply L; discriminate]. lia.
  - pose proof (stores_put _ _ (SStore (Header_Length (rhdr s))) _ E) as T. cbn [stored] in T.
    assert (X : inv h b (MkRace (set_Header_Length (Header_Length (rhdr s)) (rhdr s)) (put i (SStore (Header_Length (rhdr s))) (rpcs s)) (rout s))).
    { assert (Y : len_ok b (stores (put i (SStore (Header_Length (rhdr s))) (rpcs s))) (Header_Length (rhdr s)))
        by (eapply len_ok_mono; [|apply L; discriminate]; lia).
      apply G; [lia|exact Y|exact Y|apply O; lia]. }
    rewrite <- Same in X. exact X.
  - pose proof (stores_put _ _ SHeader _ E) as T. cbn [stored] in T. apply G; [lia| |exact I|apply O; lia].
    destruct Hp as (k & K & ->). exists (S k). split; [lia|]. rewrite !uwrap2.
    rewrite <- N.add_mod by discriminate. f_equal. lia.
  - set (f := enc_Header (rhdr s) ++ b).
    pose proof (stores_put _ _ (SWrite f) _ E) as T. cbn [stored] in T.
    assert (Z : len_ok b (stores (put i (SWrite f) (rpcs s))) (Header_Length (rhdr s)))
      by (eapply len_ok_mono; [|apply L; discriminate]; lia).
    assert (X : inv h b (MkRace (set_Header_Length (Header_Length (rhdr s)) (rhdr s)) (put i (SWrite f) (rpcs s)) (rout s))).
    { apply G; [lia|exact Z| |apply O; lia]. cbn. exists (Header_Length (rhdr s)). split; [exact Z|].
      unfold f. destruct HH as [z ->]. reflexivity. }
    rewrite <- Same in X. exact X.
  - pose proof (stores_put _ _ SDone _ E) as T. cbn [stored] in T. rewrite Same.
    assert (F : frame_ok h b (stores (put i SDone (rpcs s))) f) by (eapply frame_ok_mono; [|exact Hp]; lia).
    apply G; [lia| |exact I|apply Forall_app; split; [apply O; lia|constructor; [exact F|constructor]]].
    eapply len_ok_mono; [|apply L; discriminate]. lia.
  - constructor; assumption.
Qed.

Lemma inv_run h b sch : forall s, inv h b s -> inv h b (rrun b sch s).
Proof. induction sch as [|i l IH]; intros s H; [exact H|]. apply IH, inv_move, H. Qed.
Lemma inv_start h b m : inv h b (rstart h m).
Proof.
  constructor; cbn [rstart rhdr rpcs rout].
  - exists (Header_Length h). destruct h; reflexivity.
  - left. apply Forall_forall. intros p H. symmetry. eapply repeat_spec. exact H.
  - apply Forall_forall. intros p H. apply repeat_spec in H. subst p. exact I.
  - constructor.
Qed.
Lemma length_run b sch : forall s, length (rpcs (rrun b sch s)) = length (rpcs s).
Proof.
  induction sch as [|i l IH]; intro s; [reflexivity|]. cbn [rrun fold_left]. fold (rrun b l (rmove b s i)). rewrite IH.
  unfold rmove. destruct (nth_error (rpcs s) i) as [[]|]; cbn [rpcs]; rewrite ?length_put; try reflexivity.
  destruct (65535 <? lenN b + 8)%N; cbn [rpcs]; apply length_put.
Qed.

(** C120: whatever the schedule, every message written by one of [m] senders has the
    right version, type, transaction and body, and the length field says that the
    body occurs [k] times, for some [k] from 0 to [m]. *)
Theorem C120_lengths : forall h b m sch i f, In (i, f) (rout (rrun b sch (rstart h m))) ->
  exists k, k <= m
    /\ frame_with f (Header_Version h) (Header_Type h) (Header_Transaction h) ((8 + N.of_nat k * lenN b) mod 65536) b.
Proof.
  intros h b m sch i f H. pose proof (inv_run h b sch _ (inv_start h b m)) as [_ _ _ O]. rewrite Forall_forall in O.
  destruct (O _ H) as (z & (k & K & ->) & E). cbn [snd] in E. exists k. split; [|rewrite E; apply frame_with_intro].
  pose proof (stores_le (rpcs (rrun b sch (rstart h m)))) as S. rewrite length_run in S. cbn [rstart rpcs] in S.
  rewrite repeat_length in S. lia.
Qed.
Print Assumptions C120_lengths.

(** C120: so requests without body can be shared. *)
Theorem C120_empty : forall h m sch i f, In (i, f) (rout (rrun [] sch (rstart h m))) ->
  is_frame f (Header_Version h) (Header_Type h) (Header_Transaction h) [].
Proof.
  intros h m sch i f H. destruct (C120_lengths h [] m sch i f H) as (k & _ & F).
  replace ((8 + N.of_nat k * lenN []) mod 65536)%N with (8 + lenN [])%N in F; [exact F|].
  change (lenN []) with 0%N. rewrite N.mul_0_r. reflexivity.
Qed.
Print Assumptions C120_empty.

Lemma uwrap_body b : (lenN b <= 65527)%N -> uwrap 2 (8 + uwrap 2 (lenN b)) = (8 + lenN b)%N.
Proof. intro H. rewrite !uwrap2, (N.mod_small (lenN b)) by lia. apply N.mod_small. lia. Qed.

(** C120: a sender whose call does not overlap with others writes the message, and
    it is what the call writes with a request of its own. *)
Theorem C120_alone : forall b s i, (lenN b <= 65527)%N -> nth_error (rpcs s) i = Some SBegin ->
  let h := rhdr s in
  exists f, rout (rrun b [i; i; i; i; i; i] s) = rout s ++ [(i, f)]
    /\ nth_error (rpcs (rrun b [i; i; i; i; i; i] s)) i = Some SDone
    /\ is_frame f (Header_Version h) (Header_Type h) (Header_Transaction h) b
    /\ forall r, Request_Header r = h -> content (Request_Body r) = (b, None) -> wcalls (write_to sink r) = [f].
Proof.
  intros b s i L H h.
  assert (I : i < length (rpcs s)) by (apply nth_error_Some; congruence).
  exists (enc_Header (MkHeader (Header_Version h) (Header_Type h) (8 + lenN b) (Header_Transaction h)) ++ b).
  assert (R : rrun b [i; i; i; i; i; i] s
    = MkRace (set_Header_Length (8 + lenN b) (set_Header_Length 8 (rhdr s))) (put i SDone (rpcs s))
        (rout s ++ [(i, enc_Header (set_Header_Length (8 + lenN b) (set_Header_Length 8 (rhdr s))) ++ b)])).
  { unfold rrun. cbn [fold_left]. unfold rmove at 6. rewrite H.
    unfold rmove at 5. cbn [rpcs rhdr rout]. rewrite nth_put by exact I.
    destruct (N.ltb_spec 65535 (lenN b + 8)) as [X|_]; [lia|].
    unfold rmove at 4. cbn [rpcs rhdr rout]. rewrite put_put, nth_put by exact I.
    unfold rmove at 3. cbn [rpcs rhdr rout]. rewrite put_put, nth_put by exact I.
    unfold rmove at 2. cbn [rpcs rhdr rout]. rewrite put_put, nth_put by exact I.
    unfold rmove at 1. cbn [rpcs rhdr rout]. rewrite put_put, nth_put by exact I.
    rewrite put_put. cbn [set_Header_Length Header_Length]. rewrite uwrap_body by exact L. reflexivity. }
  rewrite R. cbn [rout rpcs]. split; [reflexivity|]. split; [apply nth_put; exact I|]. split; [apply frame_intro|].
  intros r Hr Hc. destruct (write_sink r b Hc L) as (e & E & _ & _ & F). rewrite E. f_equal.
  apply frame_eq in F. rewrite F, Hr. reflexivity.
Qed.
Print Assumptions C120_alone.

(** C120: of two senders, both can write a length that counts the body twice ... *)
Theorem C120_twice : forall h b, (0 < lenN b <= 65527)%N ->
  exists sch f, rout (rrun b sch (rstart h 2)) = [(0, f); (1, f)]
    /\ frame_with f (Header_Version h) (Header_Type h) (Header_Transaction h) ((8 + 2 * lenN b) mod 65536) b.
Proof.
  intros h b L. exists [0; 1; 0; 1; 0; 0; 1; 1; 0; 0; 1; 1].
  exists (enc_Header (MkHeader (Header_Version h) (Header_Type h) ((8 + 2 * lenN b) mod 65536) (Header_Transaction h)) ++ b).
  split; [|apply frame_with_intro].
  assert (C : (65535 <? lenN b + 8)%N = false) by (apply N.ltb_ge; lia).
  assert (A : uwrap 2 (uwrap 2 (8 + uwrap 2 (lenN b)) + uwrap 2 (lenN b)) = ((8 + 2 * lenN b) mod 65536)%N).
  { rewrite uwrap_body by lia. rewrite !uwrap2, (N.mod_small (lenN b)) by lia. f_equal. lia. }
  unfold rrun, rstart. cbn [fold_left rmove repeat rpcs nth_error put rhdr rout].
  rewrite C. cbn [rmove rpcs nth_error put rhdr rout]. rewrite C. cbn [rmove rpcs nth_error put rhdr rout app].
  rewrite <- A. reflexivity.
Qed.
Print Assumptions C120_twice.

(** ... and one can write a length that does not count it at all. *)
Theorem C120_not_at_all : forall h b, (0 < lenN b <= 65527)%N ->
  exists sch f g, rout (rrun b sch (rstart h 2)) = [(0, f); (1, g)]
    /\ frame_with f (Header_Version h) (Header_Type h) (Header_Transaction h) 8 b
    /\ is_frame g (Header_Version h) (Header_Type h) (Header_Transaction h) b.
Proof.
  intros h b L. exists [0; 0; 0; 0; 1; 0; 0; 1; 1; 1; 1; 1].
  exists (enc_Header (MkHeader (Header_Version h) (Header_Type h) 8 (Header_Transaction h)) ++ b).
  exists (enc_Header (MkHeader (Header_Version h) (Header_Type h) (8 + lenN b) (Header_Transaction h)) ++ b).
  split; [|split; [apply frame_with_intro|apply frame_intro]].
  assert (C : (65535 <? lenN b + 8)%N = false) by (apply N.ltb_ge; lia).
  unfold rrun, rstart. cbn [fold_left rmove repeat rpcs nth_error put rhdr rout].
  rewrite C. cbn [rmove rpcs nth_error put rhdr rout]. rewrite C. cbn [rmove rpcs nth_error put rhdr rout app].
  cbn [set_Header_Length Header_Length Header_Version Header_Type Header_Transaction]. rewrite uwrap_body by lia. reflexivity.
Qed.
Print Assumptions C120_not_at_all.

Lemma frame_with_eq e v t x len b : frame_with e v t x len b -> e = enc_Header (MkHeader v t len x) ++ b.
Proof. intro H. eapply laid_out_unique; [exact H|apply frame_with_intro]. Qed.

(** C120: the peer of a sender that counted the body twice takes as many bytes of what
    follows on the connection for the end of the body. *)
Theorem C120_swallows : forall f v t x b tl s, ranges v t x -> (8 + 2 * lenN b <= 65535)%N ->
  frame_with f v t x (8 + 2 * lenN b) b -> length b <= length tl ->
  exists q r', receive (MkReader (f ++ tl) s EOF false) = (inl q, r')
    /\ received v t x (b ++ firstn (length b) tl) q /\ data r' = skipn (length b) tl.
Proof.
  intros f v t x b tl s R L F T. apply frame_with_eq in F.
  assert (Lb : lenN (b ++ firstn (length b) tl) = (2 * lenN b)%N).
  { unfold lenN. rewrite app_length, firstn_length, Nat.min_l by exact T. lia. }
  assert (G : is_frame (f ++ firstn (length b) tl) v t x (b ++ firstn (length b) tl)).
  { apply frame_eq. rewrite Lb, F, <- app_assoc. reflexivity. }
  assert (E : f ++ tl = (f ++ firstn (length b) tl) ++ skipn (length b) tl) by (rewrite <- app_assoc, firstn_skipn; reflexivity).
  rewrite E. assert (L2 : (lenN (b ++ firstn (length b) tl) <= 65527)%N) by lia.
  destruct (receive_frame _ _ _ _ _ G R L2 zero_Request (skipn (length b) tl) s EOF false (or_introl eq_refl)) as (A & _ & B & C & _).
  unfold receive. rewrite A. do 2 eexists. split; [reflexivity|]. split; [exact B|exact C].
Qed.
Print Assumptions C120_swallows.

(** C120: the peer of a sender that did not count it receives the message without its
    body and then reads the body as further messages. *)
Theorem C120_spills : forall f v t x b tl s, ranges v t x -> frame_with f v t x 8 b ->
  exists q r', receive (MkReader (f ++ tl) s EOF false) = (inl q, r')
    /\ received v t x [] q /\ data r' = b ++ tl.
Proof.
  intros f v t x b tl s R F. apply frame_with_eq in F.
  assert (G : is_frame (enc_Header (MkHeader v t 8 x)) v t x []).
  { apply frame_eq. rewrite app_nil_r. reflexivity. }
  rewrite F, <- app_assoc.
  destruct (receive_frame _ _ _ _ _ G R ltac:(cbn; lia) zero_Request (b ++ tl) s EOF false (or_introl eq_refl)) as (A & _ & B & C & _).
  unfold receive. rewrite A. do 2 eexists. split; [reflexivity|]. split; [exact B|exact C].
Qed.
Print Assumptions C120_spills.

(** C120: one request value cannot be sent from several goroutines. *)
Theorem C120_share_refuted : exists h b sch i f, In (i, f) (rout (rrun b sch (rstart h 2)))
  /\ ~ is_frame f (Header_Version h) (Header_Type h) (Header_Transaction h) b.
Proof.
  exists (MkHeader 4 2 0 7), [xaa], [0; 1; 0; 1; 0; 0; 1; 1; 0; 0; 1; 1], 0. eexists. split; [left; reflexivity|].
  rewrite frame_eq. vm_compute. discriminate.
Qed.
Print Assumptions C120_share_refuted.

(** ** Concrete cases *)
Example C120_ex :
  let h := MkHeader 4 2 0 7 in
  rout (rrun [xaa; xbb] [0; 1; 0; 1; 0; 0; 1; 1; 0; 0; 1; 1] (rstart h 2))
    = [(0, [x04; x02; x00; x0c; x00; x00; x00; x07; xaa; xbb]); (1, [x04; x02; x00; x0c; x00; x00; x00; x07; xaa; xbb])]
  /\ rout (rrun [xaa; xbb] [0; 0; 0; 0; 0; 0; 1; 1; 1; 1; 1; 1] (rstart h 2))
    = [(0, [x04; x02; x00; x0a; x00; x00; x00; x07; xaa; xbb]); (1, [x04; x02; x00; x0a; x00; x00; x00; x07; xaa; xbb])]
  /\ rout (rrun [] [0; 1; 0; 1; 0; 0; 1; 1; 0; 0; 1; 1] (rstart h 2))
    = [(0, [x04; x02; x00; x08; x00; x00; x00; x07]); (1, [x04; x02; x00; x08; x00; x00; x00; x07])].
Proof. vm_compute. repeat split; reflexivity. Qed.

(** The two bytes of the next message that are taken for the body. *)
Example C120_swallows_ex :
  let f := [x04; x02; x00; x0c; x00; x00; x00; x07; xaa; xbb] in
  let next := [x04; x03; x00; x08; x00; x00; x00; x08] in
  ranges 4 2 7 /\ frame_with f 4 2 7 (8 + 2 * lenN [xaa; xbb]) [xaa; xbb]
  /\ match fst (receive (MkReader (f ++ next) [] EOF false)) with
     | inl q => Request_Body q = BBuf [xaa; xbb; x04; x03] | inr _ => False end.
Proof.
  split; [repeat split; vm_compute; reflexivity|]. split; [exact (frame_with_intro 4 2 7 12 [xaa; xbb])|vm_compute; reflexivity].
Qed.

Example C120_spills_ex :
  let f := [x04; x02; x00; x08; x00; x00; x00; x07; x04; x14; x00; x08; x00; x00; x00; x09] in
  frame_with f 4 2 7 8 [x04; x14; x00; x08; x00; x00; x00; x09]
  /\ map (fun q => Header_Type (Request_Header q)) (fst (fst (receive_all 3 (MkReader f [] EOF false)))) = [2; 20]%N.
Proof. split; [exact (frame_with_intro 4 2 7 8 [x04; x14; x00; x08; x00; x00; x00; x09])|vm_compute; reflexivity]. Qed.
