(** C117: what the declared length of an element governs, and what a length
    below the fixed part of the element does. *)
From Verif Require Import TruncFacts LowFacts MatchSpec MatchFacts FlowModel FlowFacts TableModel HelloModel FeatCutSpec.
Ltac Zify.zify_post_hook ::= Z.div_mod_to_equations.

Lemma span_sub k n : (n < 65536)%N ->
  N.to_nat (sub16 n (N.of_nat (fixed_part k))) = N.to_nat (span (fixed_part k) n) - fixed_part k.
Proof.
  intro H. unfold sub16, span, uwrap. change (256 ^ N.of_nat 2)%N with 65536%N.
  assert (F : fixed_part k <= 40) by (destruct k; cbn; lia).
  destruct (N.ltb_spec n (N.of_nat (fixed_part k))); lia.
Qed.

(** C117: an element is read from its fixed part and as many bytes as its span
    leaves; the bytes behind it have no influence and are left. *)
Theorem C117_within : forall k old h n a b, length h = fixed_part k -> receives k old -> (n < 65536)%N ->
  N.of_nat (fixed_part k + length a) = span (fixed_part k) n ->
  wdec k old (declare (length_at k) n h ++ a ++ b)
  = let r := wdec k old (declare (length_at k) n h ++ a) in
    Res (val r) (cnt r) (fail r) (rest r ++ b).
Proof.
  intros k old h n a b H R Hn L. destruct (governed_all k old h H R) as (r & _ & G). cbv zeta.
  rewrite !G by exact Hn. cbv zeta. rewrite (span_sub k n Hn).
  replace (N.to_nat (span (fixed_part k) n) - fixed_part k) with (length a) by lia.
  rewrite firstn_app_len, skipn_app_len by reflexivity. rewrite firstn_all, skipn_all. cbn [val cnt fail rest].
  rewrite app_nil_r. reflexivity.
Qed.
Print Assumptions C117_within.

Example C117_within_ex : let h := enc_Bucket (MkBucket 3 1 2 []) in
  wdec WBucket zero_Bucket (declare 0 24 h ++ enc_Action APopVLAN ++ [x00; x11])
    = Res (MkBucket 3 1 2 [APopVLAN]) 24 None [x00; x11]
  /\ N.of_nat (fixed_part WBucket + length (enc_Action APopVLAN)) = span (fixed_part WBucket) 24.
Proof. split; vm_compute; reflexivity. Qed.

(** C117: a length below the fixed part is not refused: the element is read as if
    it declared everything that follows. *)
Theorem C117_below : forall k old h n tl, length h = fixed_part k -> receives k old ->
  (n < N.of_nat (fixed_part k))%N -> (N.of_nat (fixed_part k + length tl) < 65536)%N ->
  wdec k old (declare (length_at k) n h ++ tl)
  = wdec k old (declare (length_at k) (N.of_nat (fixed_part k + length tl)) h ++ tl).
Proof.
  intros k old h n tl H R Hn L. destruct (governed_all k old h H R) as (r & _ & G).
  assert (F : fixed_part k <= 40) by (destruct k; cbn; lia).
  rewrite !G by lia. cbv zeta. rewrite !span_sub by lia. unfold span.
  destruct (N.ltb_spec n (N.of_nat (fixed_part k))) as [_|]; [|lia].
  destruct (N.ltb_spec (N.of_nat (fixed_part k + length tl)) (N.of_nat (fixed_part k))) as [|_]; [lia|].
  rewrite !firstn_all2, !skipn_all2 by lia. reflexivity.
Qed.
Print Assumptions C117_below.

(** C117: and when such an element is accepted, nothing is left for the elements
    behind it. *)
Theorem C117_swallows : forall k old h n tl, length h = fixed_part k -> receives k old ->
  (n < N.of_nat (fixed_part k))%N -> length tl <= 4096 ->
  fail (wdec k old (declare (length_at k) n h ++ tl)) = None ->
  rest (wdec k old (declare (length_at k) n h ++ tl)) = [].
Proof.
  intros k old h n tl H R Hn L. destruct (governed_all k old h H R) as (r & D & G).
  assert (F : fixed_part k <= 40) by (destruct k; cbn; lia).
  rewrite !G by lia. cbv zeta. rewrite !span_sub by lia. unfold span.
  destruct (N.ltb_spec n (N.of_nat (fixed_part k))) as [_|]; [|lia].
  assert (length tl <= N.to_nat (65536 + n) - fixed_part k).
  { apply (Nat.le_trans _ _ _ L). clear -F. replace (N.to_nat (65536 + n)) with (N.to_nat 65536 + N.to_nat n) by lia.
    assert (4096 <= N.to_nat 65536 - 40) by (apply Nat.leb_le; vm_compute; reflexivity). lia. }
  rewrite !firstn_all2, !skipn_all2 by assumption. cbn [fail rest]. intro E. rewrite (D _ E). reflexivity.
Qed.
Print Assumptions C117_swallows.

(** C117: two buckets, the first with a length below 16: one bucket is read,
    with two actions nobody sent. *)
Theorem C117_refused_refuted :
  let one := MkBucket 5 7 8 [] in let two := MkBucket 0 4294967295 4294967295 [] in
  exists n, (n < 16)%N
  /\ dec_Bucket zero_Bucket (declare 0 n (enc_Bucket one) ++ enc_Bucket two)
     = Res (MkBucket 5 7 8 [ADecMPLSTTL; AExperimenter 0]) 32 None []
  /\ dec_Bucket zero_Bucket (enc_Bucket one ++ enc_Bucket two) = Res one 16 None (enc_Bucket two).
Proof. exists 0%N. split; [reflexivity|]. split; vm_compute; reflexivity. Qed.
Print Assumptions C117_refused_refuted.

(** C117: a set-field action that declares no field (length 4) ends the list: it
    is delivered as an empty field and the actions behind it are dropped, without
    an error. *)
Theorem C117_set_field_ends : forall l tl old, Forall wf_Action l ->
  dec_Actions old (enc_Actions l ++ [x00; x19; x00; x04] ++ tl)
  = Res (l ++ [ASetField zero_XM]) (length (enc_Actions l) + 4) None [].
Proof.
  intros l tl old W. unfold enc_Actions.
  destruct (dec_Actions_at l (map enc_Action l) ([x00; x19; x00; x04] ++ tl) old (denotes_enc_all _ W)) as (f & E & _).
  cbv zeta in E. rewrite E. reflexivity.
Qed.
Print Assumptions C117_set_field_ends.

(** The decoders that compute the limit without wraparound. *)
Lemma features_declared old h : length h = 64 -> exists nm m, forall n tl, (n < 65536)%N ->
  seqr [fu 2 (fun v s => ((v, snd (fst s)), snd s));
        sub snd (fun m s => (fst s, m)) (fu 1 set_TableFeatures_Table); fpad 5;
        fbytes 32 (fun b s => ((fst (fst s), b), snd s));
        sub snd (fun m s => (fst s, m)) (fu 8 set_TableFeatures_MetadataMatch);
        sub snd (fun m s => (fst s, m)) (fu 8 set_TableFeatures_MetadataWrite);
        sub snd (fun m s => (fst s, m)) (fu 4 set_TableFeatures_Config);
        sub snd (fun m s => (fst s, m)) (fu 4 set_TableFeatures_MaxEntries)] ((0%N, [] : bytes), old) (declare 0 n h ++ tl)
  = Res ((n, nm), m) 64 None tl.
Proof. intro H. open_front h H. do 2 eexists. front_reads. Qed.

(** C117: where the limit is computed without wraparound, such a length means an
    empty list: the description of a table gets no properties and everything
    behind its fixed part is left. *)
Theorem C117_features_empty : forall old h, length h = 64 ->
  exists m, TableFeatures_Properties m = []
  /\ forall n tl, (n <= 64)%N -> dec_TableFeatures old (declare 0 n h ++ tl) = Res m 64 None tl.
Proof.
  intros old h H. destruct (features_declared old h H) as (nm & m & E).
  exists (set_TableFeatures_Properties [] (set_TableFeatures_Properties [] (set_TableFeatures_Name nm m))).
  split; [reflexivity|]. intros n tl Hn.
  apply (with_local_eq _ _ _ _ ((n, nm), set_TableFeatures_Properties [] (set_TableFeatures_Properties [] (set_TableFeatures_Name nm m)))).
  etransitivity; [eapply (andthen_both _ _ _ _ _ 64); [apply E; lia|]|reflexivity].
  cbn [fst]. unfold pre, limited. replace (Z.to_nat (Z.of_N n - Z.of_nat 64)) with 0 by lia. reflexivity.
Qed.
Print Assumptions C117_features_empty.

Lemma flowstats_declared old h : length h = 48 -> exists m, forall n tl, (n < 65536)%N ->
  seqr [fu 2 (fun v s => (v, snd s)); sub snd (fun m s => (fst s, m)) (fu 1 set_FlowStats_Table); fpad 1; sub snd (fun m s => (fst s, m)) (fu 4 set_FlowStats_DurationSec); sub snd (fun m s => (fst s, m)) (fu 4 set_FlowStats_DurationNSec); sub snd (fun m s => (fst s, m)) (fu 2 set_FlowStats_Priority); sub snd (fun m s => (fst s, m)) (fu 2 set_FlowStats_IdleTimeout); sub snd (fun m s => (fst s, m)) (fu 2 set_FlowStats_HardTimeout); sub snd (fun m s => (fst s, m)) (fu 2 set_FlowStats_Flags); fpad 4; sub snd (fun m s => (fst s, m)) (fu 8 set_FlowStats_Cookie); sub snd (fun m s => (fst s, m)) (fu 8 set_FlowStats_PacketCount); sub snd (fun m s => (fst s, m)) (fu 8 set_FlowStats_ByteCount)]
    (0%N, old) (declare 0 n h ++ tl)
  = Res (n, m) 48 None tl.
Proof. intro H. open_front h H. eexists. front_reads. Qed.

(** C117: a flow entry gets no instructions. *)
Theorem C117_flow_empty : forall old h mt, length h = 48 -> wf_Match mt ->
  exists m, FlowStats_Match m = mt /\ FlowStats_Instructions m = []
  /\ forall n tl, (n < 65536)%N -> (n <= N.of_nat (48 + match_size mt))%N ->
     dec_FlowStats old (declare 0 n h ++ enc_Match mt ++ tl) = Res m (48 + match_size mt) None tl.
Proof.
  intros old h mt H W. destruct (flowstats_declared old h H) as (m & E).
  destruct (match_size_ok mt W) as [Ls _].
  set (m' := set_FlowStats_Instructions [] (set_FlowStats_Instructions [] (set_FlowStats_Match mt m))).
  exists m'. split; [reflexivity|]. split; [reflexivity|]. intros n tl Hn Hl.
  apply (with_local_eq _ _ _ _ (n, m')).
  etransitivity; [eapply (andthen_both _ _ _ _ _ (48 + match_size mt))|rewrite Nat.add_0_r; reflexivity].
  - match goal with |- seqr ?l _ _ = _ => change l with (removelast l ++ [last l (fpad 0)]) end.
    rewrite seqr_app_eq. cbn [removelast last].
    etransitivity; [eapply (andthen_both _ _ _ _ _ 48); [apply E, Hn|]|reflexivity].
    etransitivity; [eapply (seqr_ok _ [] _ _ (n, set_FlowStats_Match mt m) (match_size mt)); [|reflexivity]|rewrite Nat.add_0_r; reflexivity].
    assert (X : dec_Match (FlowStats_Match m) (enc_Match mt ++ tl) = Res mt (match_size mt) None tl)
      by (rewrite <- Ls; apply (rt_Match mt W)).
    unfold sub. cbn [fst snd]. rewrite X. reflexivity.
  - cbn [fst]. unfold pre, limited. replace (Z.to_nat (Z.of_N n - Z.of_nat (48 + match_size mt))) with 0 by lia. reflexivity.
Qed.
Print Assumptions C117_flow_empty.

(** C117: a hello element with such a length is reported, its bitmaps being
    allocated beforehand. *)
Theorem C117_hello_reported : forall old h n tl, length h = 4 -> (n < 4)%N -> length tl <= 4096 ->
  fail (dec_HelloElem old (declare 2 n h ++ tl)) = Some (match tl with [] => EOF | _ => UnexpectedEOF end).
Proof.
  intros old h n tl H Hn L. open_front h H. unfold declare. cbn [firstn skipn app Nat.add].
  rewrite be_enc_2. cbn [app].
  assert (K : 4097 <= 4 * N.to_nat (sub16 n 4 / 4) /\ 4097 <= N.to_nat (sub16 n 4)).
  { assert (X : (65532 <= sub16 n 4)%N) by (unfold sub16, uwrap; change (256 ^ N.of_nat 2)%N with 65536%N; lia).
    assert (4097 <= N.to_nat 65532) by (apply Nat.leb_le; vm_compute; reflexivity). lia. }
  unfold dec_HelloElem, with_local. cbn [fail].
  etransitivity; [apply (f_equal fail); eapply (andthen_both _ _ _ _ (n, old) 4); [|]|].
  - etransitivity; [eapply (seqr_ok _ [] _ _ (n, old) 4); [|reflexivity]|reflexivity].
    unfold fbytes, take_full. cbn [length Nat.ltb Nat.leb firstn skipn]. rewrite (LowFacts.declared n) by lia. reflexivity.
  - cbn [fst]. cbv zeta. unfold limited. rewrite zn_nat, firstn_all2 by lia. unfold pre, fus.
    rewrite take_short by lia. reflexivity.
  - reflexivity.
Qed.
Print Assumptions C117_hello_reported.

Lemma prop_body_at f p a b c d n tl : (n < 65536)%N ->
  prop_body f p (declare 2 n [a; b; c; d] ++ tl)
  = let p' := set_miss (N.testbit (be_dec [a; b]) 0) p in
    let j := N.to_nat (sub16 n 4) in let q := f p' (firstn j tl) in
    match fail q with
    | Some _ => Res (val q) (4 + cnt q) (fail q) (rest q ++ skipn j tl)
    | None => let t := fpad (pad_len (N.to_nat n)) tt (rest q ++ skipn j tl) in
              Res (val q) (4 + (cnt q + cnt t)) (fail t) (rest t)
    end.
Proof.
  intro Hn. unfold declare. cbn [firstn skipn app Nat.add]. rewrite be_enc_2. cbn [app]. cbv zeta.
  set (p' := set_miss (N.testbit (be_dec [a; b]) 0) p). set (q := f p' (firstn (N.to_nat (sub16 n 4)) tl)).
  set (u := rest q ++ skipn (N.to_nat (sub16 n 4)) tl).
  assert (HD : prop_head (0%N, p) (a :: b :: byte_of_N (n / 256) :: byte_of_N n :: tl) = Res (n, p') 4 None tl).
  { unfold prop_head, fbytes, take_full. cbn [length Nat.ltb Nat.leb firstn skipn snd].
    rewrite (LowFacts.declared n Hn). reflexivity. }
  assert (LM : limited (Z.of_N (sub16 n 4)) (sub snd (fun x s => (fst s, x)) f) (n, p') tl
               = Res (n, val q) (cnt q) (fail q) u).
  { unfold limited. rewrite zn_nat. reflexivity. }
  unfold prop_body. destruct (fail q) eqn:F.
  - apply (with_local_eq _ _ _ _ (n, val q)). eapply (andthen_both _ _ _ _ (n, p') 4); [exact HD|]. cbn [fst].
    eapply andthen_err. exact LM.
  - apply (with_local_eq _ _ _ _ (n, val q)). eapply (andthen_both _ _ _ _ (n, p') 4); [exact HD|]. cbn [fst].
    eapply andthen_both; [exact LM|]. unfold fpad, take_full. destruct (length u <? _); reflexivity.
Qed.

Lemma drains_readfunc {A S} (zero : A) (rd : step A) (fn : A -> S -> S) : spent rd -> drains (readfunc zero rd fn).
Proof.
  intros H s inp. unfold readfunc. generalize (Datatypes.S (length inp)). intro fuel.
  revert s inp. induction fuel as [|fuel IH]; intros s inp; cbn [readfunc_loop]; [discriminate|].
  destruct (fail (rd zero inp)) as [e|] eqn:E; cbn [fail rest]; [|apply IH].
  intro X. apply H. destruct e; try discriminate X. exact E.
Qed.

Lemma drains_fields pl : drains (read_all_xm pl).
Proof. intros s inp _. unfold read_all_xm. destruct (xm_loop _ _ _ _). reflexivity. Qed.

(** C117: a property of a table that lists types or fields and declares less than
    its header takes everything that follows; it is accepted if it declares 0, and
    ends the properties of the table silently (EOF) if it declares 1 to 3. *)
Theorem C117_property : forall p h tl, length h = 4 -> length tl <= 4096 ->
  (exists c l, p = c l /\ lists_types c) \/ (exists c l, p = c l /\ lists_fields c) ->
  let r n := dec_TableProp p (declare 2 n h ++ tl) in
  ((4 + length tl) mod 8 = 0 -> r 0%N = r (N.of_nat (4 + length tl)))
  /\ (fail (r 0%N) = None -> rest (r 0%N) = [])
  /\ forall n, (0 < n < 4)%N -> val (r n) = val (r 0%N)
     /\ fail (r n) = match fail (r 0%N) with Some e => Some e | None => Some EOF end.
Proof.
  intros p h tl H L K. cbv zeta.
  assert (B : exists f, dec_TableProp p = prop_body f p /\ drains f).
  { destruct K as [(c & l & -> & miss & [-> | [-> | ->]])|(c & l & -> & [-> | [-> | (miss & [-> | ->])]])];
      (eexists; split; [reflexivity|]); apply drains_pre;
      first [apply drains_readfunc, spent_seqr; spent_all|apply drains_sub, drains_fields]. }
  destruct B as (f & -> & D). open_front h H.
  assert (J : forall n, (n < 4)%N -> length tl <= N.to_nat (sub16 n 4)).
  { intros n Hn. assert (X : (65532 <= sub16 n 4)%N) by (unfold sub16, uwrap; change (256 ^ N.of_nat 2)%N with 65536%N; lia).
    assert (4097 <= N.to_nat 65532) by (apply Nat.leb_le; vm_compute; reflexivity). lia. }
  set (q := f (set_miss (N.testbit (be_dec [b; b0]) 0) p) tl).
  assert (DQ : fail q = None -> rest q = []) by apply D.
  assert (R : forall n, (n < 4)%N -> prop_body f p (declare 2 n [b; b0; b1; b2] ++ tl)
    = match fail q with
      | Some _ => Res (val q) (4 + cnt q) (fail q) (rest q)
      | None => let t := fpad (pad_len (N.to_nat n)) tt [] in Res (val q) (4 + (cnt q + cnt t)) (fail t) (rest t)
      end).
  { intros n Hn. rewrite prop_body_at by lia. cbv zeta. rewrite !firstn_all2, !skipn_all2 by (apply J, Hn).
    fold q. destruct (fail q) eqn:F; rewrite app_nil_r; [reflexivity|]. rewrite (DQ eq_refl). reflexivity. }
  split; [|split].
  - intro M. rewrite (R 0%N) by lia. rewrite prop_body_at by lia. cbv zeta.
    replace (N.to_nat (sub16 (N.of_nat (4 + length tl)) 4)) with (length tl)
      by (unfold sub16, uwrap; change (256 ^ N.of_nat 2)%N with 65536%N; lia).
    rewrite firstn_all, skipn_all. fold q. rewrite Nat2N.id.
    replace (pad_len (4 + length tl)) with 0 by (unfold pad_len; lia).
    destruct (fail q) eqn:F; rewrite app_nil_r; [reflexivity|]. rewrite (DQ eq_refl). reflexivity.
  - rewrite (R 0%N) by lia. destruct (fail q) eqn:F; [cbn [fail]; discriminate|reflexivity].
  - intros n Hn. rewrite (R n), (R 0%N) by lia. destruct (fail q) eqn:F; [split; reflexivity|].
    assert (C : n = 1%N \/ n = 2%N \/ n = 3%N) by lia.
    destruct C as [-> | [-> | ->]]; split; reflexivity.
Qed.
Print Assumptions C117_property.

(** Cases meeting the hypotheses: a meter with bands behind a length of 3, a
    set-field of length 4 between two actions, a table declaring 12, a property
    declaring 0 and 2, and a hello element declaring 1. *)
Example C117_below_ex :
  let h := enc_MeterConfig (MkMeterConfig 1 2 []) in let b := enc_Action APopVLAN in
  length h = 8 /\ dec_MeterConfig zero_MeterConfig (declare 0 3 h ++ b)
                  = dec_MeterConfig zero_MeterConfig (declare 0 16 h ++ b).
Proof. split; vm_compute; reflexivity. Qed.

Example C117_swallows_ex :
  let h := enc_QueueProp (PropQueueExperimenter 9 []) in
  length h = 16
  /\ dec_QueueProp (PropQueueExperimenter 0 []) (declare 2 15 h ++ [x01; x02]) = Res (PropQueueExperimenter 9 [x01; x02]) 18 None [].
Proof. split; vm_compute; reflexivity. Qed.

Example C117_set_field_ends_ex :
  dec_Actions [] (enc_Actions [APopVLAN] ++ [x00; x19; x00; x04] ++ enc_Actions [AOutput 1 2])
  = Res [APopVLAN; ASetField zero_XM] 12 None [].
Proof. vm_compute. reflexivity. Qed.

Example C117_features_empty_ex :
  let h := [x00; x40; x05] ++ zeros 61 in
  fail (dec_TableFeatures zero_TableFeatures (declare 0 12 h ++ enc_TableProp (TInstructions false [1%N]))) = None
  /\ TableFeatures_Table (val (dec_TableFeatures zero_TableFeatures (declare 0 12 h ++ enc_TableProp (TInstructions false [1%N])))) = 5%N
  /\ rest (dec_TableFeatures zero_TableFeatures (declare 0 12 h ++ enc_TableProp (TInstructions false [1%N])))
     = enc_TableProp (TInstructions false [1%N]).
Proof. split; [|split]; vm_compute; reflexivity. Qed.

Example C117_flow_empty_ex :
  let r := dec_FlowStats zero_FlowStats (declare 0 0 ([x00; x00; x07] ++ zeros 45) ++ enc_Match zero_Match ++ [xaa]) in
  FlowStats_Table (val r) = 7%N /\ FlowStats_Instructions (val r) = [] /\ rest r = [xaa].
Proof. split; [|split]; vm_compute; reflexivity. Qed.

Example C117_hello_reported_ex :
  fail (dec_HelloElem zero_HelloElem (declare 2 1 [x00; x01; x00; x08] ++ [x00; x00; x00; x12])) = Some UnexpectedEOF.
Proof. vm_compute. reflexivity. Qed.

Example C117_property_ex :
  let tl := [x00; x01; x00; x04; x00; x02; x00; x04; x00; x03; x00; x04] in
  let r n := dec_TableProp (TInstructions false []) (declare 2 n [x00; x00; x00; x08] ++ tl) in
  r 0%N = Res (TInstructions false [1%N; 2%N; 3%N]) 16 None []
  /\ r 2%N = Res (TInstructions false [1%N; 2%N; 3%N]) 16 (Some EOF) []
  /\ val (r 8%N) = TInstructions false [1%N].
Proof. split; [|split]; vm_compute; reflexivity. Qed.
