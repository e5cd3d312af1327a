(** Proofs about lists that are given up in the middle of buffered data. *)
From Verif Require Export ReadAheadModel FlowFacts.
From Verif Require Import StepFacts LoopFacts.
Ltac Zify.zify_post_hook ::= Z.div_mod_to_equations.

Lemma ahead_S {A} k fuel' (mk : N -> made A) rd acc inp :
  scan_ahead_loop k (S fuel') mk rd acc inp =
  if length inp <? 2 then Res acc 0 None []
  else
    match mk (be_dec (firstn 2 inp)) with
    | MkUnknown => Res acc 0 (Some (EUnknown (be_dec (firstn 2 inp)))) (skipn k inp)
    | MkPanic => Res acc 0 (Some EPanic) (skipn k inp)
    | MkOk a =>
        match fail (rd (length acc) a inp) with
        | Some e => Res (acc ++ [val (rd (length acc) a inp)]) (cnt (rd (length acc) a inp)) (skip_eof (Some e))
                      (skipn k (rest (rd (length acc) a inp)))
        | None =>
            let r' := scan_ahead_loop k fuel' mk rd (acc ++ [val (rd (length acc) a inp)]) (rest (rd (length acc) a inp)) in
            Res (val r') (cnt (rd (length acc) a inp) + cnt r') (fail r') (rest r')
        end
    end.
Proof. reflexivity. Qed.

(** What is read ahead shows in nothing but the bytes left. *)
Lemma ahead_same {A} k (mk : N -> made A) rd : forall fuel acc inp,
  let r := scan_ahead_loop k fuel mk (fun _ => rd) acc inp in let q := scan_loop fuel mk rd acc inp in
  val r = val q /\ cnt r = cnt q /\ fail r = fail q.
Proof.
  induction fuel as [|fuel IH]; intros acc inp; cbv zeta; [auto|]. rewrite ahead_S, scan_S.
  destruct (length inp <? 2); [auto|]. destruct (mk (be_dec (firstn 2 inp))) as [| |a]; [auto..|].
  destruct (fail (rd a inp)) as [e|]; [auto|]. cbv zeta. cbn [val cnt fail].
  destruct (IH (acc ++ [val (rd a inp)]) (rest (rd a inp))) as (-> & -> & ->). auto.
Qed.

(** Reading a whole buffer ahead is [scan]. *)
Lemma ahead_all {A} k (mk : N -> made A) rd : suffixing rd -> forall fuel acc inp, length inp <= k ->
  scan_ahead_loop k fuel mk (fun _ => rd) acc inp = scan_loop fuel mk rd acc inp.
Proof.
  intro S. induction fuel as [|fuel IH]; intros acc inp L; [reflexivity|]. rewrite ahead_S, scan_S.
  destruct (length inp <? 2); [reflexivity|]. rewrite (skipn_all2 inp) by exact L.
  destruct (mk (be_dec (firstn 2 inp))) as [| |a]; try reflexivity.
  pose proof (suffixing_len rd S a inp) as R.
  destruct (fail (rd a inp)) as [e|]; [rewrite skipn_all2 by lia; reflexivity|]. rewrite IH by lia. reflexivity.
Qed.

(** The readers of actions leave a tail. *)
Lemma suffixing_one_Action : suffixing dec_Action.
Proof.
  intros a i.
  destruct a; try (refine (suffixing_seqr _ _ _ i); repeat constructor; apply suffixing_take).
  refine (suffixing_with_local _ _ _ _ i). apply suffixing_andthen.
  - apply suffixing_seqr. repeat constructor; apply suffixing_take.
  - intros. apply suffixing_limited, suffixing_sub, suffixing_andthen; intros;
      [apply suffixing_sub, suffixing_xm|apply suffixing_readall].
Qed.

(** Complete elements one after the other. *)
Lemma ahead_list {A} k (mk : N -> made A) (rd : nat -> step A) l segs :
  Forall2 (fun a seg => exists z, mk (be_dec (firstn 2 seg)) = MkOk z /\ 2 <= length seg
             /\ forall i tl, rd i z (seg ++ tl) = Res a (length seg) None tl) l segs ->
  forall fuel acc b, length (concat segs ++ b) < fuel ->
  exists fuel', length b < fuel' /\
  let r := scan_ahead_loop k fuel' mk rd (acc ++ l) b in
  scan_ahead_loop k fuel mk rd acc (concat segs ++ b)
  = Res (val r) (length (concat segs) + cnt r) (fail r) (rest r).
Proof.
  induction 1 as [|a seg l segs (z & M & L & D) _ IH]; intros fuel acc b F; cbn [concat].
  - exists fuel. cbn [app] in *. split; [exact F|]. rewrite app_nil_r. cbv zeta. apply res_eta.
  - cbn [concat] in F. rewrite <- app_assoc in F. rewrite <- app_assoc.
    destruct fuel as [|fuel]; [lia|]. rewrite app_length in F.
    destruct (IH fuel (acc ++ [a]) b ltac:(lia)) as (fuel' & F' & E).
    exists fuel'. split; [exact F'|]. cbv zeta in *. rewrite <- app_assoc in E. cbn [app] in E.
    rewrite ahead_S. destruct (Nat.ltb_spec (length (seg ++ concat segs ++ b)) 2) as [S|_];
      [rewrite app_length in S; lia|].
    assert (FN : firstn 2 (seg ++ concat segs ++ b) = firstn 2 seg).
    { rewrite firstn_app. replace (2 - length seg) with 0 by lia. rewrite firstn_O, app_nil_r. reflexivity. }
    rewrite FN, M, D. cbn [fail val rest cnt]. rewrite E.
    cbn [fail val rest cnt]. rewrite app_length, Nat.add_assoc. reflexivity.
Qed.

Lemma denotes_reads l segs : Forall2 denotes l segs ->
  Forall2 (fun a seg => exists z, make_action (be_dec (firstn 2 seg)) = MkOk z /\ 2 <= length seg
             /\ forall (i : nat) tl, dec_Action z (seg ++ tl) = Res a (length seg) None tl) l segs.
Proof.
  induction 1 as [|a seg l segs D _ IH]; constructor; [|exact IH].
  destruct (make_known a) as (z & M & SK & SF). exists z. pose proof (num_tag a seg [] D) as T. rewrite app_nil_r in T.
  rewrite T. split; [exact M|]. split; [pose proof (denotes_len a seg D); lia|]. intros _ tl. apply dec_denotes; assumption.
Qed.

(** A list of actions read to its end leaves nothing. *)
Lemma ahead_actions_end k l segs b old : Forall2 denotes l segs -> length b < 2 ->
  dec_Actions_ahead k old (concat segs ++ b) = Res l (length (concat segs)) None [].
Proof.
  intros F L. unfold dec_Actions_ahead, pre, scan_ahead.
  destruct (ahead_list k make_action (fun _ => dec_Action) l segs (denotes_reads l segs F)
    (S (length (concat segs ++ b))) [] b ltac:(lia)) as (fuel' & F' & E).
  cbv zeta in E. cbn [app] in E. rewrite E. destruct fuel' as [|fuel']; [lia|]. rewrite ahead_S.
  destruct (Nat.ltb_spec (length b) 2); [|lia]. cbn [val cnt fail rest]. rewrite Nat.add_0_r. reflexivity.
Qed.

Lemma field_without_room (f0 : XM) (more : bytes) :
  dec_Action (ASetField f0) ([x00; x19; x00; x04] ++ more) = Res (ASetField f0) 4 (Some EOF) more.
Proof. cbn [app dec_Action]. rewrite (dec_set_field_eq x00 x19 x00 x04 more f0). reflexivity. Qed.

(** A set field action without room for a field ends the list: what was not read
    ahead is left. *)
Lemma ahead_actions_cut k l segs more old : Forall2 denotes l segs ->
  dec_Actions_ahead k old (concat segs ++ [x00; x19; x00; x04] ++ more)
  = Res (l ++ [ASetField zero_XM]) (length (concat segs) + 4) None (skipn k more).
Proof.
  intros F. unfold dec_Actions_ahead, pre, scan_ahead.
  destruct (ahead_list k make_action (fun _ => dec_Action) l segs (denotes_reads l segs F)
    (S (length (concat segs ++ [x00; x19; x00; x04] ++ more))) [] ([x00; x19; x00; x04] ++ more) ltac:(lia)) as (fuel' & F' & E).
  cbv zeta in E. cbn [app] in E, F'. change ([x00; x19; x00; x04] ++ more) with (x00 :: x19 :: x00 :: x04 :: more) in *. rewrite E.
  destruct fuel' as [|fuel']; [lia|]. rewrite ahead_S. cbn [length Nat.ltb Nat.leb firstn].
  change (make_action (be_dec [x00; x19])) with (MkOk (ASetField zero_XM)). cbv iota.
  pose proof (field_without_room zero_XM more) as D. cbn [app] in D. rewrite D. reflexivity.
Qed.

(** ** Packet-out *)
Definition packet_out_header (b p : N) (n : nat) : bytes :=
  be_enc 4 b ++ be_enc 4 p ++ be_enc 2 (N.of_nat n) ++ zeros 6.

Lemma ahead_packet_out k old b p region tl v c left : fits 4 b -> fits 4 p -> (N.of_nat (length region) < 65536)%N ->
  dec_Actions_ahead k [] region = Res v c None left ->
  let r := dec_PacketOut_ahead k old (packet_out_header b p (length region) ++ region ++ tl) in
  val r = MkPacketOut b p v (left ++ tl) /\ fail r = None /\ rest r = [] /\ cnt r = 16 + (c + (length left + length tl)).
Proof.
  intros F1 F2 L D. cbv zeta. unfold packet_out_header. rewrite <- !app_assoc.
  assert (HD : forall x, rt (seqr [sub snd (fun m s => (fst s, m)) (fu 4 set_PacketOut_Buffer);
             sub snd (fun m s => (fst s, m)) (fu 4 set_PacketOut_InPort);
             fu 2 (fun v (s : N * PacketOut) => (v, snd s)); fpad 6])
      (be_enc 4 b ++ be_enc 4 p ++ be_enc 2 (uwrap 2 x) ++ zeros 6 ++ [])
      (fun s => (uwrap 2 x, set_PacketOut_InPort p (set_PacketOut_Buffer b (snd s))))).
  { intro x. eapply rt_ext; cycle 1.
    - eapply rt_cons; [apply rt_sub, rt_fu, F1|]. eapply rt_cons; [apply rt_sub, rt_fu, F2|].
      eapply rt_cons; [apply rt_fu, uwrap_fits|]. eapply rt_cons; [apply rt_zeros|]. apply rt_nil.
    - reflexivity. }
  specialize (HD (N.of_nat (length region)) (0%N, old) (region ++ tl)).
  rewrite be_enc_uwrap, app_nil_r, <- !app_assoc in HD.
  unfold dec_PacketOut_ahead. rewrite (with_local_eq _ _ _ _ _ _ _ _ (andthen_ok _ _ _ _ _ _ _ HD)). cbn [fst snd].
  rewrite uwrap_small by exact L. set (n := N.of_nat (length region)) in *.
  assert (K : Z.to_nat (Z.of_N n) = length region) by (unfold n; lia). clearbody n.
  set (st := (n, set_PacketOut_InPort p (set_PacketOut_Buffer b old))) in *.
  assert (LD : limited (Z.of_N n) (pre (fun s : N * PacketOut => (fst s, set_PacketOut_Actions [] (snd s)))
      (sub snd (fun m s => (fst s, m)) (sub PacketOut_Actions set_PacketOut_Actions (dec_Actions_ahead k)))) st (region ++ tl)
    = Res (n, MkPacketOut b p v (PacketOut_Data old)) c None (left ++ tl)).
  { rewrite (limited_eq (Z.of_N n) _ st (region ++ tl) (n, MkPacketOut b p v (PacketOut_Data old)) c None left).
    - rewrite K, skipn_app, skipn_all, Nat.sub_diag. reflexivity.
    - rewrite K, firstn_app, firstn_all, Nat.sub_diag, firstn_O, app_nil_r. unfold pre, sub, st. cbn [fst snd].
      cbn [set_PacketOut_Actions set_PacketOut_InPort set_PacketOut_Buffer PacketOut_Actions]. rewrite D. reflexivity. }
  rewrite (andthen_ok _ _ _ _ _ _ _ LD). unfold sub, readall. cbn [val cnt fail rest fst snd].
  rewrite app_length, !be_enc_length. cbn [length Nat.add]. repeat split; try reflexivity.
  rewrite app_length. unfold zeros. rewrite !app_length, !be_enc_length, repeat_length. lia.
Qed.

(** ** Instructions *)
Lemma ahead_instruction k t n inner tl z l0 v c e left :
  length inner = n -> (N.of_nat n < 65536)%N -> (z = IApplyActions l0 \/ z = IWriteActions l0) ->
  dec_Actions_ahead k l0 inner = Res v c e left ->
  dec_Instruction_ahead k z (be_enc 2 t ++ be_enc 2 (N.of_nat (8 + n)) ++ zeros 4 ++ inner ++ tl)
  = Res (set_actions v z) (8 + c) e (left ++ tl).
Proof.
  intros Hn L Hz DA.
  assert (HD : rt (seqr [fpad 2; fu 2 (fun v (s : N * Instruction) => (v, snd s)); fpad 4])
      (be_enc 2 t ++ be_enc 2 (uwrap 2 (N.of_nat (8 + n))) ++ zeros 4 ++ [])
      (fun s => (uwrap 2 (N.of_nat (8 + n)), snd s))).
  { exact (rt_cons _ _ _ _ _ _ (rt_fpad 2 _ (be_enc_length 2 t))
       (rt_cons _ _ _ _ _ _ (rt_fu 2 _ (uwrap 2 (N.of_nat (8 + n))) (uwrap_fits 2 _))
         (rt_cons _ _ _ _ _ _ (rt_zeros 4) rt_nil))). }
  specialize (HD (0%N, z) (inner ++ tl)). rewrite be_enc_uwrap, app_nil_r, <- !app_assoc in HD.
  assert (EZ : forall i, dec_Instruction_ahead k z i = dec_instruction_actions_ahead k z i) by (destruct Hz as [->| ->]; reflexivity).
  rewrite EZ. unfold dec_instruction_actions_ahead.
  rewrite (with_local_eq _ _ _ _ _ _ _ _ (andthen_ok _ _ _ _ _ _ _ HD)). cbn [fst snd].
  assert (K : Z.to_nat (Z.of_N (uwrap 2 (uwrap 2 (N.of_nat (8 + n)) + 65528))) = n).
  { unfold uwrap. change (256 ^ N.of_nat 2)%N with 65536%N. lia. }
  set (h := uwrap 2 (N.of_nat (8 + n))) in *. clearbody h.
  assert (HS : sub get_actions set_actions (dec_Actions_ahead k) z inner = Res (set_actions v z) c e left).
  { rewrite (sub_eq get_actions set_actions (dec_Actions_ahead k) z inner v c e left); [reflexivity|].
    destruct Hz as [->| ->]; exact DA. }
  pose proof (sub_eq (snd (A:=N)) (fun x s => (fst s, x)) _ (h, z) _ _ _ _ _ HS) as HB.
  rewrite <- (firstn_app_len n inner tl Hn), <- K in HB.
  apply limited_eq in HB. rewrite HB. cbn [val cnt fail rest snd].
  rewrite K, skipn_app_len by exact Hn. reflexivity.
Qed.

Lemma ahead_instruction_rt k z i : wf_Instruction i -> instruction_type z = instruction_type i ->
  forall tl, dec_Instruction_ahead k z (enc_Instruction i ++ tl) = Res i (length (enc_Instruction i)) None tl.
Proof.
  intros W K tl. destruct i as [x|x y|l|l| |x]; destruct z as [x'|x' y'|l'|l'| |x']; try discriminate;
    try (exact (dec_Instruction_rt _ _ W K tl));
    pose proof (instruction_length _ W) as LI; destruct W as [W1 W2]; rewrite LI; cbn [enc_Instruction instruction_size];
    rewrite instruction_actions_eq by assumption; rewrite <- !app_assoc;
    pose proof (ahead_actions_end k l _ [] l' (denotes_enc_all l W1) ltac:(cbn; lia)) as D;
    rewrite app_nil_r, <- concat_enc, actions_length in D by exact W1;
    [ apply (ahead_instruction k 4 _ _ tl (IApplyActions l') l' _ _ _ _ (actions_length l W1) W2 (or_introl eq_refl) D)
    | apply (ahead_instruction k 3 _ _ tl (IWriteActions l') l' _ _ _ _ (actions_length l W1) W2 (or_intror eq_refl) D) ].
Qed.

Lemma instruction_reads ks l : Forall wf_Instruction l ->
  Forall2 (fun a seg => exists z, make_instruction (be_dec (firstn 2 seg)) = MkOk z /\ 2 <= length seg
             /\ forall (i : nat) tl, dec_Instruction_ahead (ks i) z (seg ++ tl) = Res a (length seg) None tl)
    l (map enc_Instruction l).
Proof.
  induction 1 as [|i l W _ IH]; constructor; [|exact IH].
  destruct (make_instruction_tag i []) as (z & M & K). rewrite app_nil_r in M. exists z. split; [exact M|]. split.
  - rewrite instruction_length by exact W. pose proof (instruction_size_8 i). lia.
  - intros n tl. apply ahead_instruction_rt; assumption.
Qed.

Lemma ahead_instructions_end k ks l acc fuel : Forall wf_Instruction l -> length (enc_Instructions l) < fuel ->
  scan_ahead_loop k fuel make_instruction (fun i => dec_Instruction_ahead (ks i)) acc (enc_Instructions l)
  = Res (acc ++ l) (length (enc_Instructions l)) None [].
Proof.
  intros W L. pose proof (ahead_list k make_instruction (fun i => dec_Instruction_ahead (ks i)) _ _ (instruction_reads ks l W) fuel acc []) as A.
  rewrite app_nil_r in A. fold (enc_Instructions l) in A. destruct (A L) as (fuel' & F & E). cbv zeta in E. rewrite E.
  destruct fuel' as [|fuel']; [lia|]. rewrite ahead_S. cbn. rewrite Nat.add_0_r. reflexivity.
Qed.

(** An instruction whose actions are given up: what was not read ahead is read
    as instructions. *)
Lemma ahead_instructions_cut k ks old before acts more z after hidden :
  Forall wf_Instruction before -> Forall wf_Action acts -> (z = IApplyActions [] \/ z = IWriteActions []) ->
  let inner := enc_Actions acts ++ [x00; x19; x00; x04] ++ more in
  (N.of_nat (length inner) < 65536)%N ->
  skipn (ks (length (old ++ before))) more ++ after = enc_Instructions hidden -> Forall wf_Instruction hidden ->
  let r := dec_Instructions_ahead k ks old (enc_Instructions before
     ++ be_enc 2 (instruction_type z) ++ be_enc 2 (N.of_nat (8 + length inner)) ++ zeros 4 ++ inner ++ after) in
  val r = old ++ before ++ [set_actions (acts ++ [ASetField zero_XM]) z] ++ hidden /\ fail r = None /\ rest r = [].
Proof.
  intros WB WA Hz inner L HH WH. cbv zeta. unfold dec_Instructions_ahead, scan_ahead.
  set (body := be_enc 2 (instruction_type z) ++ be_enc 2 (N.of_nat (8 + length inner)) ++ zeros 4 ++ inner ++ after).
  destruct (ahead_list k make_instruction (fun i => dec_Instruction_ahead (ks i)) _ _ (instruction_reads ks before WB)
    (S (length (enc_Instructions before ++ body))) old body (Nat.lt_succ_diag_r _)) as (fuel' & F & E).
  fold (enc_Instructions before) in E. cbv zeta in E. rewrite E. cbn [val fail rest]. clear E.
  destruct fuel' as [|fuel']; [lia|]. rewrite ahead_S.
  assert (LB : 8 + length inner + length after = length body).
  { unfold body. rewrite !app_length, !be_enc_length. unfold zeros. rewrite repeat_length. lia. }
  destruct (Nat.ltb_spec (length body) 2) as [B|_]; [lia|].
  assert (T : make_instruction (be_dec (firstn 2 body)) = MkOk z) by (unfold body; destruct Hz as [->| ->]; reflexivity).
  rewrite T.
  pose proof (ahead_actions_cut (ks (length (old ++ before))) acts _ more [] (denotes_enc_all acts WA)) as D.
  rewrite <- concat_enc in D. fold inner in D.
  pose proof (ahead_instruction _ (instruction_type z) _ _ after z [] _ _ _ _ eq_refl L Hz D) as DI.
  fold body in DI. rewrite DI. cbn [fail val rest cnt]. rewrite HH.
  rewrite ahead_instructions_end; [|exact WH|].
  - cbn [val fail rest]. rewrite <- !app_assoc. repeat split.
  - rewrite <- HH, app_length, skipn_length. unfold inner in LB. rewrite !app_length in LB. cbn [length] in LB. lia.
Qed.
