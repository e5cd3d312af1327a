(** C130: what every byte string is read as, for descriptions of queues. *)
From Verif Require Import QueueModel EncodingFacts StepFacts InstructionFacts P_InstrList MeterBytesSpec QueueBytesSpec.
Ltac Zify.zify_post_hook ::= Z.div_mod_to_equations.

Definition prop_of (t : N) : QueueProp :=
  (if t =? 1 then PropMinRate 0 else if t =? 2 then PropMaxRate 0 else PropQueueExperimenter 0 [])%N.

Lemma make_known_prop t : In t known_props -> make_queue_prop t = MkOk (prop_of t).
Proof. cbn. intros [<-|[<-|[<-|[]]]]; reflexivity. Qed.
Lemma make_unknown_prop t : ~ In t known_props -> make_queue_prop t = MkUnknown.
Proof.
  intro H. unfold make_queue_prop. destruct (N.eqb_spec t 1) as [->|]; [destruct H; cbn; auto|]. destruct (N.eqb_spec t 2) as [->|]; [destruct H; cbn; auto|].
  destruct (N.eqb_spec t 65535) as [->|]; [destruct H; cbn; auto|reflexivity].
Qed.

Lemma room16 n : Z.to_nat (Z.of_N (sub16 n 16)) = beyond16 n.
Proof.
  unfold beyond16, sub16. change (uwrap 2) with (fun x : N => (x mod 65536)%N). cbv beta.
  replace (n + 65536 - 16)%N with (n + 65520)%N by lia. now rewrite <- Z_N_nat, N2Z.id.
Qed.

Lemma experimenter_read b : 16 <= length b -> let r := dec_QueueProp (PropQueueExperimenter 0 []) b in
  fail r = None /\ rest r = skipn (beyond16 (num 2 2 b)) (skipn 16 b).
Proof.
  intro L. do 16 (destruct b as [|? b]; [cbn in L; lia|]). cbv zeta. cbn [skipn].
  change (num 2 2 _) with (be_dec [b2; b3]).
  unfold dec_QueueProp. erewrite with_local_eq.
  2:{ eapply andthen_both; [cbn -[be_dec]; reflexivity|]. apply limited_eq. apply sub_eq. cbn [fst snd]. reflexivity. }
  cbn [fail rest fst]. rewrite room16. split; reflexivity.
Qed.

Lemma prop_whole b : In (num 0 2 b) known_props -> 16 <= length b ->
  fail (dec_QueueProp (prop_of (num 0 2 b)) b) = None /\ rest (dec_QueueProp (prop_of (num 0 2 b)) b) = skipn (prop_size b) b.
Proof.
  intros K L. unfold prop_size. destruct K as [K|[K|[K|[]]]]; rewrite <- K.
  - do 16 (destruct b as [|? b]; [cbn in L; lia|]). split; reflexivity.
  - do 16 (destruct b as [|? b]; [cbn in L; lia|]). split; reflexivity.
  - cbn [prop_of N.eqb Pos.eqb]. destruct (experimenter_read b L) as [F R]. split; [exact F|]. change (prop_of 65535) with (PropQueueExperimenter 0 []). rewrite R.
    generalize (beyond16 (num 2 2 b)). intro n. clear - L. do 16 (destruct b as [|? b]; [cbn in L; lia|]). reflexivity.
Qed.

Lemma prop_cut t b : In t known_props -> 2 <= length b < 16 -> fail (dec_QueueProp (prop_of t) b) <> None
  /\ skip_eof (fail (dec_QueueProp (prop_of t) b)) = if existsb (Nat.eqb (length b)) (prop_stops t) then None else Some UnexpectedEOF.
Proof.
  intros K [L H]. do 2 (destruct b as [|? b]; [cbn in L; lia|]). clear L.
  cbn in K. destruct K as [<-|[<-|[<-|[]]]];
    (do 14 (destruct b as [|? b]; [split; [discriminate|reflexivity]|])); cbn in H; lia.
Qed.

Lemma prop_size_min b : 16 <= prop_size b.
Proof. unfold prop_size. destruct (num 0 2 b =? 65535)%N; lia. Qed.
Lemma prop_size_firstn n b : 4 <= n -> prop_size (firstn n b) = prop_size b.
Proof. intro L. unfold prop_size. rewrite !num_firstn by lia. reflexivity. Qed.
Lemma prop_size_app seg x : 4 <= length seg -> prop_size (seg ++ x) = prop_size seg.
Proof. intro L. do 4 (destruct seg as [|? seg]; [cbn in L; lia|]). reflexivity. Qed.

Lemma scan_nothing {A} (mk : N -> made A) rd fuel acc : fail (scan_loop (S fuel) mk rd acc []) = None.
Proof. reflexivity. Qed.

Lemma props_said : forall fuel acc b, length b < fuel -> props_report b (fail (scan_loop fuel make_queue_prop dec_QueueProp acc b)).
Proof.
  induction fuel as [|fuel IH]; intros acc b H; [lia|]. rewrite scan_S. destruct (Nat.ltb_spec (length b) 2) as [L|L].
  { exists [], b. split; [reflexivity|]. split; [constructor|]. left. auto. }
  change (be_dec (firstn 2 b)) with (num 0 2 b). destruct (in_dec N.eq_dec (num 0 2 b) known_props) as [K|K].
  2:{ rewrite make_unknown_prop by exact K. exists [], b. split; [reflexivity|]. split; [constructor|]. right. left. auto. }
  rewrite make_known_prop by exact K. cbv zeta. destruct (Nat.lt_ge_cases (length b) 16) as [S|S].
  - destruct (prop_cut _ b K (conj L S)) as [F V]. destruct (fail (dec_QueueProp (prop_of (num 0 2 b)) b)) as [e|]; [|congruence].
    cbn [fail]. exists [], b. split; [reflexivity|]. split; [constructor|]. right. right. left. rewrite V. auto.
  - destruct (prop_whole b K S) as [F R]. rewrite F, R. cbn [fail]. pose proof (prop_size_min b) as M.
    destruct (Nat.lt_ge_cases (length b) (prop_size b)) as [T|T].
    { rewrite skipn_all2 by lia. destruct fuel as [|fuel]; [lia|]. rewrite scan_nothing.
      exists [], b. split; [reflexivity|]. split; [constructor|]. right. right. right. auto. }
    destruct (IH (acc ++ [val (dec_QueueProp (prop_of (num 0 2 b)) b)]) (skipn (prop_size b) b) ltac:(rewrite skipn_length; lia)) as (segs & t & E & Fa & C).
    exists (firstn (prop_size b) b :: segs), t. cbn [concat]. rewrite <- app_assoc, <- E, firstn_skipn. split; [reflexivity|]. split; [|exact C].
    constructor; [|exact Fa]. unfold whole_prop. rewrite firstn_length, num_firstn, prop_size_firstn by lia. split; [lia|]. split; [exact K|lia].
Qed.

Lemma props_once b v : props_report b v -> forall fuel acc, length b < fuel -> fail (scan_loop fuel make_queue_prop dec_QueueProp acc b) = v.
Proof.
  intros (segs & t & -> & F & C). induction F as [|seg segs (L & K & Z) _ IH]; intros fuel acc H; (destruct fuel as [|fuel]; [lia|]); rewrite scan_S.
  - cbn [concat app] in *. change (be_dec (firstn 2 t)) with (num 0 2 t). destruct (Nat.ltb_spec (length t) 2) as [L|L].
    { destruct C as [[_ ->]|[C|[[C _]|[C _]]]]; [reflexivity|lia|lia|lia]. }
    destruct C as [[C _]|[(_ & U & ->)|[(C & K & ->)|(C & K & ->)]]]; [lia|now rewrite make_unknown_prop by exact U| |].
    + rewrite make_known_prop by exact K. cbv zeta. destruct (prop_cut _ t K C) as [Fl V].
      destruct (fail (dec_QueueProp (prop_of (num 0 2 t)) t)) as [e|]; [|congruence]. exact V.
    + rewrite make_known_prop by exact K. cbv zeta. destruct (prop_whole t K ltac:(lia)) as [Fl R]. rewrite Fl, R. cbn [fail].
      rewrite skipn_all2 by lia. destruct fuel as [|fuel]; [lia|]. apply scan_nothing.
  - cbn [concat] in *. rewrite <- app_assoc in *. set (x := concat segs ++ t) in *. rewrite app_length in H.
    destruct (Nat.ltb_spec (length (seg ++ x)) 2) as [S|S]; [rewrite app_length in S; lia|].
    change (be_dec (firstn 2 (seg ++ x))) with (num 0 2 (seg ++ x)). assert (N2 : num 0 2 (seg ++ x) = num 0 2 seg) by (apply num_app2; lia).
    rewrite make_known_prop by (rewrite N2; exact K). cbv zeta.
    destruct (prop_whole (seg ++ x)) as [Fl R]; [rewrite N2; exact K|rewrite app_length; lia|].
    rewrite Fl, R. cbn [fail]. rewrite prop_size_app by lia.
    rewrite skipn_app, skipn_all2, <- Z, Nat.sub_diag by lia. cbn [app skipn]. apply IH. lia.
Qed.

Lemma props_read old b : val (dec_QueueProps old b) = old /\ rest (dec_QueueProps old b) = [].
Proof. split; [reflexivity|]. unfold dec_QueueProps, lost. cbn [rest]. apply scan_rest. Qed.
Lemma props_fail old b : fail (dec_QueueProps old b) = fail (scan_loop (S (length b)) make_queue_prop dec_QueueProp old b).
Proof. reflexivity. Qed.

Lemma queue_eq old inp : 16 <= length inp ->
  let n := beyond16 (num 8 2 inp) in
  let r := dec_QueueProps (PacketQueue_Properties old) (firstn n (skipn 16 inp)) in
  dec_PacketQueue old inp = Res (MkPacketQueue (num 0 4 inp) (num 4 4 inp) (PacketQueue_Properties old)) (16 + cnt r) (fail r) (skipn n (skipn 16 inp)).
Proof.
  intro L. do 16 (destruct inp as [|? inp]; [cbn in L; lia|]). cbv zeta. cbn [skipn].
  repeat match goal with |- context [num ?o ?w (b :: ?l)] => let x := eval cbn [firstn skipn] in (be_dec (firstn w (skipn o (b :: l)))) in change (num o w (b :: l)) with x end.
  match goal with |- context [beyond16 ?x] => set (len := x); pose proof (room16 len) as Q; set (room := beyond16 len) in * end.
  destruct (props_read (PacketQueue_Properties old) (firstn room inp)) as [V R].
  destruct (dec_QueueProps (PacketQueue_Properties old) (firstn room inp)) as [v n e r] eqn:E. cbn [val rest] in V, R. subst v r.
  unfold dec_PacketQueue. erewrite with_local_eq.
  2:{ eapply andthen_both.
      - instantiate (1 := inp). instantiate (1 := 16). instantiate (1 := (len, MkPacketQueue (be_dec [b; b0; b1; b2]) (be_dec [b3; b4; b5; b6]) (PacketQueue_Properties old))). reflexivity.
      - apply limited_eq. apply sub_eq. apply sub_eq. cbn [fst snd PacketQueue_Properties]. rewrite Q. exact E. }
  cbn [fst snd app]. rewrite Q. reflexivity.
Qed.

(** C130: a byte string read as the description of a queue. *)
Theorem C130_queue : forall old inp, let r := dec_PacketQueue old inp in
  val r = MkPacketQueue (member inp 0 4 (PacketQueue_Queue old)) (member inp 4 4 (PacketQueue_Port old)) (PacketQueue_Properties old)
  /\ (16 <= length inp -> let n := beyond16 (num 8 2 inp) in
      rest r = skipn n (skipn 16 inp) /\ forall v, props_report (firstn n (skipn 16 inp)) v <-> v = fail r)
  /\ (length inp < 16 -> fail r = head_report [0; 4; 8; 10] inp).
Proof.
  intros old inp. cbv zeta. destruct (Nat.lt_ge_cases (length inp) 16) as [H|H].
  - split; [|split; [lia|intros _]]; (do 16 (destruct inp as [|? inp]; [destruct old; reflexivity|])); cbn in H; lia.
  - rewrite (queue_eq old inp H). cbn [val rest fail]. split.
    { unfold member. repeat (match goal with |- context [?a <=? length inp] => destruct (Nat.leb_spec a (length inp)); [|lia] end). reflexivity. }
    split; [|lia]. intros _. split; [reflexivity|]. intro v. rewrite props_fail. split.
    + intro R. symmetry. apply (props_once _ _ R). lia.
    + intros ->. apply props_said. lia.
Qed.
Print Assumptions C130_queue.

Example C130_queue_ex :
  let hd n := [x00; x00; x00; x05; x00; x00; x00; x06; x00; n] ++ zeros 6 in
  let rate := [x00; x01; x00; xff; x00; x00; x00; x00; x00; x09] ++ zeros 6 in
  let exp := [xff; xff; x00; x14; x00; x00; x00; x00; x00; x00; x00; x07; x00; x00; x00; x00] in
  let old := MkPacketQueue 1 2 [PropMinRate 3] in
  props_report (rate ++ exp ++ [xab; xcd]) None
  /\ dec_PacketQueue old (hd x40 ++ rate ++ exp ++ [xab; xcd]) = Res (MkPacketQueue 5 6 [PropMinRate 3]) 50 None []
  /\ fail (dec_PacketQueue old (hd x40 ++ rate ++ firstn 9 rate)) = Some UnexpectedEOF
  /\ fail (dec_PacketQueue old (hd x40 ++ rate ++ firstn 10 rate)) = None
  /\ fail (dec_PacketQueue old (hd x40 ++ rate ++ [x00; x03])) = Some (EUnknown 3)
  (* the next queue begins where the length field says *)
  /\ rest (dec_PacketQueue old (hd x20 ++ rate ++ hd x10)) = hd x10
  /\ fail (dec_PacketQueue old (firstn 9 (hd x20))) = Some UnexpectedEOF.
Proof.
  cbv zeta. split; [|vm_compute; repeat split].
  exists [[x00; x01; x00; xff; x00; x00; x00; x00; x00; x09] ++ zeros 6], ([xff; xff; x00; x14; x00; x00; x00; x00; x00; x00; x00; x07; x00; x00; x00; x00] ++ [xab; xcd]).
  split; [reflexivity|]. split.
  - constructor; [|constructor]. split; [cbn; lia|]. split; [cbn; auto|reflexivity].
  - right. right. right. split; [|split; [cbn; auto|reflexivity]]. change (prop_size _) with 20. cbn. lia.
Qed.
