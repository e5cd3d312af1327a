(** C44, C45: action lists. *)
From Verif Require Import ActionFacts.

(** C44: every list of actions survives the wire and replaces what the
    receiver held. *)
Theorem C44_actions_roundtrip : forall l old, Forall wf_Action l ->
  dec_Actions old (enc_Actions l) = Res l (actions_size l) None [].
Proof. intros l old W. rewrite (whole_Actions l W old), actions_length by exact W. reflexivity. Qed.
Print Assumptions C44_actions_roundtrip.

Example C44_actions_roundtrip_ex :
  let l := [APushVLAN 33024; ASetField (MkXM 32768 6 [x10; x05] []); ADecNetworkTTL; AOutput 7 65535] in
  Forall wf_Action l
  /\ dec_Actions [AGroup 3] (enc_Actions l) = Res l 48 None [].
Proof. split; [|vm_compute; reflexivity]. repeat constructor; cbn; auto; lia. Qed.

(** C44: type, true length, parameters, zero padding; a multiple of eight. *)
Theorem C44_action_layout : forall a, wf_Action a ->
  laid_out (enc_Action a) (action_size a) (action_layout a)
  /\ action_size a mod 8 = 0 /\ 8 <= action_size a.
Proof. intros a W. split; [apply action_layout_ok, W|apply action_size_8]. Qed.
Print Assumptions C44_action_layout.

Example C44_action_layout_ex :
  enc_Action (ASetField (MkXM 32768 6 [x10; x05] []))
  = [x00; x19; x00; x10; x80; x00; x0c; x02; x10; x05; x00; x00; x00; x00; x00; x00].
Proof. vm_compute. reflexivity. Qed.

(** C45: what happens to every byte string.  It starts with complete actions,
    which are decoded; then come fewer than two bytes (accepted), an unknown type
    (reported), type 27 (panic), or an incomplete action. *)
Theorem C45_classification : forall old inp, exists l segs b,
  inp = concat segs ++ b /\ Forall2 denotes l segs /\
  let r := dec_Actions old inp in
  ((length b < 2 /\ val r = l /\ fail r = None)
   \/ (2 <= length b /\ ~ In (num 0 2 b) known_types /\ num 0 2 b <> 27%N
       /\ val r = l /\ fail r = Some (EUnknown (num 0 2 b)))
   \/ (2 <= length b /\ num 0 2 b = 27%N /\ val r = l /\ fail r = Some EPanic)
   \/ (2 <= length b /\ In (num 0 2 b) known_types
       /\ ~ (exists a seg tl, b = seg ++ tl /\ denotes a seg)
       /\ exists a, ofpat a = num 0 2 b /\ val r = l ++ [a]
          /\ fail r = if accepted_cut b then None else Some UnexpectedEOF)).
Proof. exact classification. Qed.
Print Assumptions C45_classification.

Example C45_classification_ex :
  val (dec_Actions [] [x00; x12; x00; x08; x00; x00; x00; x00; x00; x10; x00]) = [APopVLAN; ADecMPLSTTL]
  /\ fail (dec_Actions [] [x00; x12; x00; x08; x00; x00; x00; x00; x00; x10; x00]) = Some UnexpectedEOF.
Proof. vm_compute. split; reflexivity. Qed.

(** C45: an unknown type after any list of actions is always reported. *)
Theorem C45_unknown_reported : forall l old b, Forall wf_Action l -> 2 <= length b ->
  ~ In (num 0 2 b) known_types -> num 0 2 b <> 27%N ->
  fail (dec_Actions old (enc_Actions l ++ b)) = Some (EUnknown (num 0 2 b))
  /\ val (dec_Actions old (enc_Actions l ++ b)) = l.
Proof.
  intros l old b W L U U27. rewrite concat_enc.
  rewrite (decode_unknown l _ b old (denotes_enc_all l W) L U U27). split; reflexivity.
Qed.
Print Assumptions C45_unknown_reported.

Example C45_unknown_reported_ex :
  fail (dec_Actions [] (enc_Actions [APopVLAN] ++ [x00; x01; x00; x08; x00; x00; x00; x00])) = Some (EUnknown 1).
Proof. vm_compute. reflexivity. Qed.

(** C45: decoding ends on every input. *)
Theorem C45_terminates : forall old inp, fail (dec_Actions old inp) <> Some EFuel.
Proof. exact never_fuel. Qed.
Print Assumptions C45_terminates.

Example C45_terminates_ex : dec_Actions [] (zeros 43) = Res [AOutput 0 0; AOutput 0 0; AOutput 0 0] 43 (Some UnexpectedEOF) [].
Proof. vm_compute. reflexivity. Qed.

(** C45: it panics exactly when type 27 follows complete actions. *)
Theorem C45_panic_iff : forall old inp,
  fail (dec_Actions old inp) = Some EPanic <->
  exists l segs b, inp = concat segs ++ b /\ Forall2 denotes l segs /\ 2 <= length b /\ num 0 2 b = 27%N.
Proof. exact panic_iff. Qed.
Print Assumptions C45_panic_iff.

(** The panic a peer can cause with eight bytes (a pop PBB action). *)
Theorem C45_no_panic_refuted : exists inp, fail (dec_Actions [] inp) = Some EPanic.
Proof. exists [x00; x1b; x00; x08; x00; x00; x00; x00]. vm_compute. reflexivity. Qed.
Print Assumptions C45_no_panic_refuted.

(** C45: a list that breaks off inside an action: always one value too many, and
    an error only if the end is not between two fields of the action. *)
Theorem C45_cut : forall l old b, Forall wf_Action l -> 2 <= length b -> In (num 0 2 b) known_types ->
  ~ (exists a seg tl, b = seg ++ tl /\ denotes a seg) ->
  let r := dec_Actions old (enc_Actions l ++ b) in
  (exists a, ofpat a = num 0 2 b /\ val r = l ++ [a])
  /\ fail r = if accepted_cut b then None else Some UnexpectedEOF.
Proof. exact reported_cut. Qed.
Print Assumptions C45_cut.

Example C45_cut_ex :
  fail (dec_Actions [] (enc_Actions [APopVLAN] ++ [x00; x00; x00; x10; x00; x00])) = Some UnexpectedEOF
  /\ accepted_cut [x00; x00; x00; x10; x00; x00] = false.
Proof. vm_compute. split; reflexivity. Qed.

(** An output action cut after its port is accepted. *)
Theorem C45_truncation_unreported_refuted : exists l n,
  Forall wf_Action l /\ n < length (enc_Actions l)
  /\ fail (dec_Actions [] (firstn n (enc_Actions l))) = None
  /\ val (dec_Actions [] (firstn n (enc_Actions l))) <> l
  /\ length (val (dec_Actions [] (firstn n (enc_Actions l)))) = length l.
Proof.
  exists [APopVLAN; AOutput 7 65535], 16.
  split; [repeat constructor; cbn; auto; lia|]. split; [cbn; lia|].
  split; [vm_compute; reflexivity|]. split; [vm_compute; discriminate|vm_compute; reflexivity].
Qed.
Print Assumptions C45_truncation_unreported_refuted.

(** C45: a set field action with length 4 makes the decoder drop everything
    that follows, without an error. *)
Theorem C45_short_field_drops_rest : forall l old more, Forall wf_Action l ->
  let r := dec_Actions old (enc_Actions l ++ [x00; x19; x00; x04] ++ more) in
  val r = l ++ [ASetField zero_XM] /\ fail r = None.
Proof. exact short_field_drops_rest. Qed.
Print Assumptions C45_short_field_drops_rest.

Example C45_short_field_drops_rest_ex :
  val (dec_Actions [] (enc_Actions [APopVLAN] ++ [x00; x19; x00; x04] ++ enc_Actions [AOutput 1 0]))
  = [APopVLAN; ASetField zero_XM].
Proof. vm_compute. reflexivity. Qed.
