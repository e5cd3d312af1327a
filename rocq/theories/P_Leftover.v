(** C100: what a read that fails leaves in the value. *)
From Coq Require Import ZifyBool ZifyNat ZifyN.
From Verif Require Import LeftoverFacts LeftoverLists.

(** Fixed-size messages, a stream broken off after [n] bytes: the members that
    were complete hold what reading the whole message would have given, all
    others what was there before, except in port descriptions. *)
Theorem C100_blend : forall k, k <> KDescription ->
  forall (old : msg k) full n, length full = size k -> n < size k ->
  fail (dec k old (firstn n full)) <> None
  /\ layout k (val (dec k old (firstn n full)))
     = blend (members k) n (layout k (val (dec k old full))) (layout k (remainder k n old)).
Proof.
  intros k K old full n L H. split; [|exact (leftover_all k K old full n L H)].
  destruct (proj1 (fixed_all k old (firstn n full))) as ([F|F] & _); rewrite ?F; try discriminate.
  rewrite firstn_length. lia.
Qed.
Print Assumptions C100_blend.

Example C100_blend_ex :
  let stats := zeros 7 ++ [x01] ++ zeros 7 ++ [x02] in
  let old := MkBucketCounter 70 80 in
  val (dec KBucketCounter old (firstn 15 stats)) = MkBucketCounter 1 80
  /\ val (dec KBucketCounter old (firstn 7 stats)) = old /\ val (dec KBucketCounter old stats) = MkBucketCounter 1 2.
Proof. vm_compute. auto. Qed.

(** The description of a switch is all or nothing. *)
Theorem C100_description : forall old inp, length inp < 1056 ->
  fail (dec_Description old inp) <> None /\ val (dec_Description old inp) = old.
Proof.
  intros old inp H. split; [|exact (leftover_description old inp H)].
  destruct (proj1 (fixed_all KDescription old inp) H) as (F & _).
  intro E. change (dec KDescription old inp) with (dec_Description old inp) in F.
  destruct F as [F|F]; refine (eq_ind (Some _) (fun o => o <> None) ltac:(discriminate) _ (eq_trans (eq_sym F) E) eq_refl).
Qed.
Print Assumptions C100_description.

Example C100_description_ex :
  let old := MkDescription [x41] [x42] [] [] [] in val (dec_Description old (repeat x43 1000)) = old.
Proof. vm_compute. reflexivity. Qed.

(** Reading a port description that does not even begin destroys the hardware
    address and the name. *)
Theorem C100_port_wiped : forall old, fail (dec_Port old []) = Some EOF
  /\ val (dec_Port old []) = MkPort (Port_PortNo old) (zeros 6) (zeros 16) (Port_Config old) (Port_State old)
       (Port_Curr old) (Port_Advertised old) (Port_Supported old) (Port_Peer old) (Port_CurrSpeed old) (Port_MaxSpeed old).
Proof. intros []. split; reflexivity. Qed.
Print Assumptions C100_port_wiped.

(** "What could not be read keeps its value", "a failed read changes nothing". *)
Theorem C100_kept_refuted : exists old, fail (dec_Port old []) <> None /\ Port_Name (val (dec_Port old [])) <> Port_Name old.
Proof. exists zero_Port. split; vm_compute; discriminate. Qed.
Print Assumptions C100_kept_refuted.

Theorem C100_unchanged_refuted : exists (old : msg KHeader) inp,
  fail (dec KHeader old inp) <> None /\ val (dec KHeader old inp) <> old.
Proof. exists zero_Header, [x04; x0a; x00]. split; vm_compute; discriminate. Qed.
Print Assumptions C100_unchanged_refuted.

(** A list of actions broken off inside an action of fixed size ends with an
    action of that type: parameters that were not complete are zero. *)
Theorem C100_action : forall l old b, Forall wf_Action l ->
  2 <= length b < (if (num 0 2 b =? 0)%N then 16 else 8) -> In (num 0 2 b) known_types -> num 0 2 b <> 25%N ->
  exists a, val (dec_Actions old (enc_Actions l ++ b)) = l ++ [a] /\ ofpat a = num 0 2 b
    /\ arguments a = map (fun p => if fst p + snd p <=? length b then num (fst p) (snd p) b else 0%N)
                         (parameters (num 0 2 b)).
Proof. intros l old b W [L S] K N25. exact (cut_actions l old b W L K N25 S). Qed.
Print Assumptions C100_action.

Example C100_action_ex :
  val (dec_Actions [] (enc_Actions [APopVLAN] ++ firstn 9 (enc_Action (AOutput 7 65535)))) = [APopVLAN; AOutput 7 0]
  /\ val (dec_Actions [] (firstn 7 (enc_Action (AOutput 7 65535)))) = [AOutput 0 0].
Proof. vm_compute. split; reflexivity. Qed.

(** Table features that break off inside the header of a property: reported,
    and the list ends with a property without content, never one for table-miss. *)
Theorem C100_property : forall h l b old tl, length h = 64 -> Forall wf_TableProp l -> 2 <= length b < 4 ->
  num 0 2 h = N.of_nat (64 + length (concat (map enc_TableProp l) ++ b)) -> In (num 0 2 b) known_props ->
  let r := dec_TableFeatures old (h ++ (concat (map enc_TableProp l) ++ b) ++ tl) in
  fail r = Some UnexpectedEOF /\ rest r = tl
  /\ exists p, TableFeatures_Properties (val r) = map prop_arrives l ++ [p]
     /\ blank p /\ prop_type p = (2 * (num 0 2 b / 2))%N.
Proof.
  intros h l b old tl H W L E K. destruct (make_prop_known _ K) as (z & M & B & T).
  destruct (prop_header_cut z b L) as [V F].
  destruct (features_fail h l b old tl z UnexpectedEOF H W (proj1 L) E M F) as (F' & P & R).
  rewrite V in P. cbv zeta. split; [exact F'|]. split; [exact R|]. exists z. auto.
Qed.
Print Assumptions C100_property.

Example C100_property_ex :
  let r := dec_TableFeatures zero_TableFeatures ([x00; x42] ++ zeros 62 ++ [x00; x0d]) in
  TableFeatures_Properties (val r) = [TWriteSetField false []] /\ fail r = Some UnexpectedEOF.
Proof. vm_compute. split; reflexivity. Qed.

(** Table features that break off inside the list of a next-tables property: the
    list has the declared length (modulo 65536) and only zeros, and when nothing
    of it was there no error is reported. *)
Theorem C100_next_tables : forall h l t0 t1 n0 n1 more old tl, length h = 64 -> Forall wf_TableProp l ->
  (be_dec [t0; t1] = 2 \/ be_dec [t0; t1] = 3)%N ->
  let k := N.to_nat ((be_dec [n0; n1] + 65532) mod 65536) in
  let b := t0 :: t1 :: n0 :: n1 :: more in
  length more < k ->
  num 0 2 h = N.of_nat (64 + length (concat (map enc_TableProp l) ++ b)) ->
  let r := dec_TableFeatures old (h ++ (concat (map enc_TableProp l) ++ b) ++ tl) in
  TableFeatures_Properties (val r)
  = map prop_arrives l ++ [TNextTables (be_dec [t0; t1] =? 3)%N (repeat 0%N k)]
  /\ fail r = (if length more =? 0 then None else Some UnexpectedEOF) /\ rest r = tl.
Proof.
  intros h l t0 t1 n0 n1 more old tl H W T k b L E.
  assert (K : In (num 0 2 b) known_props) by (change (num 0 2 b) with (be_dec [t0; t1]); cbn; destruct T; auto).
  destruct (make_prop_known _ K) as (z & M & _ & _). change (num 0 2 b) with (be_dec [t0; t1]) in M.
  assert (Q : k = N.to_nat (sub16 (be_dec [n0; n1]) 4)).
  { unfold k, sub16, uwrap. f_equal.
    replace (be_dec [n0; n1] + 65536 - 4)%N with (be_dec [n0; n1] + 65532)%N by lia. reflexivity. }
  destruct (tables_cut t0 t1 n0 n1 more z T M) as [V F]; [rewrite <- Q; exact L|]. rewrite <- Q in V.
  destruct (features_fail h l b old tl z _ H W ltac:(cbn; lia) E M F) as (F' & P & R).
  unfold b in P. rewrite V in P. cbv zeta. split; [exact P|]. split; [|exact R].
  refine (eq_trans F' _). destruct (length more =? 0); reflexivity.
Qed.
Print Assumptions C100_next_tables.

Example C100_next_tables_ex :
  let r := dec_TableFeatures zero_TableFeatures ([x00; x44] ++ zeros 62 ++ [x00; x03; x00; x08]) in
  TableFeatures_Properties (val r) = [TNextTables true [0; 0; 0; 0]%N] /\ fail r = None.
Proof. vm_compute. split; reflexivity. Qed.

(** Sixty-eight bytes are read without an error as a table from which 65532
    tables can be reached, all of them table 0. *)
Theorem C100_invented_refuted : exists inp, length inp = 68
  /\ fail (dec_TableFeatures zero_TableFeatures inp) = None
  /\ exists l, TableFeatures_Properties (val (dec_TableFeatures zero_TableFeatures inp)) = [TNextTables false l]
     /\ N.of_nat (length l) = 65532%N /\ Forall (fun t => t = 0%N) l.
Proof.
  set (h := [x00; x44] ++ zeros 62).
  destruct (C100_next_tables h [] x00 x02 x00 x00 [] zero_TableFeatures []) as (P & F & _);
    [reflexivity|constructor|left; reflexivity|idtac|reflexivity|].
  { cbn [length]. change (be_dec [x00; x00]) with 0%N. lia. }
  cbn [map concat app] in P, F.
  exists (h ++ [x00; x02; x00; x00]). split; [reflexivity|]. split; [exact F|].
  eexists. split; [exact P|]. split.
  - rewrite repeat_length. change (be_dec [x00; x00]) with 0%N. lia.
  - apply Forall_forall. intros t I. apply repeat_spec in I. exact I.
Qed.
Print Assumptions C100_invented_refuted.
