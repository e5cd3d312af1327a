(** C56: the length fields of variable-size elements. *)
From Verif Require Import LengthFacts.
Ltac Zify.zify_post_hook ::= Z.div_mod_to_equations.

(** [says off e n] is: the two bytes of [e] at [off] are [n] modulo 65536.
    For these elements [n] is the number of bytes they occupy.  Nothing is
    assumed about the elements. *)
Theorem C56_whole_lengths :
  (forall a, num 2 2 (enc_Action a) = (N.of_nat (length (enc_Action a)) mod 65536)%N)
  /\ (forall i, num 2 2 (enc_Instruction i) = (N.of_nat (length (enc_Instruction i)) mod 65536)%N)
  /\ (forall m, num 0 2 (enc_Bucket m) = (N.of_nat (length (enc_Bucket m)) mod 65536)%N)
  /\ (forall m, num 0 2 (enc_FlowStats m) = (N.of_nat (length (enc_FlowStats m)) mod 65536)%N)
  /\ (forall m, num 0 2 (enc_GroupDescStats m) = (N.of_nat (length (enc_GroupDescStats m)) mod 65536)%N)
  /\ (forall m, num 0 2 (enc_GroupStats m) = (N.of_nat (length (enc_GroupStats m)) mod 65536)%N)
  /\ (forall m, num 0 2 (enc_MeterConfig m) = (N.of_nat (length (enc_MeterConfig m)) mod 65536)%N)
  /\ (forall m, num 4 2 (enc_MeterStats m) = (N.of_nat (length (enc_MeterStats m)) mod 65536)%N)
  /\ (forall x, num 2 2 (enc_MeterBand x) = (N.of_nat (length (enc_MeterBand x)) mod 65536)%N)
  /\ (forall x, num 2 2 (enc_QueueProp x) = (N.of_nat (length (enc_QueueProp x)) mod 65536)%N)
  /\ (forall m, num 8 2 (enc_PacketQueue m) = (N.of_nat (length (enc_PacketQueue m)) mod 65536)%N)
  /\ (forall m, num 2 2 (enc_HelloElem m) = (N.of_nat (length (enc_HelloElem m)) mod 65536)%N)
  /\ (forall m, num 0 2 (enc_TableFeatures m) = (N.of_nat (length (enc_TableFeatures m)) mod 65536)%N).
Proof.
  exact (conj says_action (conj says_instruction (conj says_Bucket (conj says_FlowStats (conj says_GroupDescStats
    (conj says_GroupStats (conj says_MeterConfig (conj says_MeterStats (conj says_MeterBand (conj says_QueueProp
    (conj says_PacketQueue (conj says_HelloElem says_TableFeatures)))))))))))).
Qed.
Print Assumptions C56_whole_lengths.

(** Matches and table properties do not count their padding to eight bytes. *)
Theorem C56_match_length : forall m,
  let n := 4 + list_sum (map (fun x => length (enc_XM x)) (Match_Fields m)) in
  num 2 2 (enc_Match m) = (N.of_nat n mod 65536)%N /\ length (enc_Match m) = up8 n.
Proof. intro m. rewrite <- concat_map_length. apply says_Match. Qed.
Print Assumptions C56_match_length.

Theorem C56_property_length : forall p,
  (forall x, In x (get_xms p) -> XM_Value x = [] /\ XM_Mask x = []) ->
  num 2 2 (enc_TableProp p) = (N.of_nat (prop_len p) mod 65536)%N
  /\ length (enc_TableProp p) = up8 (prop_len p).
Proof. intros p H. apply says_TableProp, Forall_forall, H. Qed.
Print Assumptions C56_property_length.

(** Match entries have a one byte length of the payload. *)
Theorem C56_entry_length : forall x,
  num 3 1 (enc_XM x) = (N.of_nat (length (XM_Value x) + length (XM_Mask x)) mod 256)%N
  /\ length (enc_XM x) = 4 + (length (XM_Value x) + length (XM_Mask x)).
Proof. exact says_XM. Qed.
Print Assumptions C56_entry_length.

(** Below the limit the field is the truth; at 65536 bytes it is not: an element
    of that size declares itself empty. *)
Theorem C56_exact : forall off e n, num off 2 e = (N.of_nat n mod 65536)%N -> (N.of_nat n < 65536)%N ->
  num off 2 e = N.of_nat n.
Proof. intros off e n -> H. apply N.mod_small, H. Qed.
Print Assumptions C56_exact.

Theorem C56_truth_refuted : exists m, num 0 2 (enc_Bucket m) = 0%N /\ N.of_nat (length (enc_Bucket m)) = 65536%N.
Proof.
  set (k := N.to_nat 8190).
  set (m := MkBucket 0 0 0 (repeat APopVLAN k)). exists m.
  assert (L : N.of_nat (length (enc_Bucket m)) = 65536%N).
  { unfold enc_Bucket. cbv zeta. assert (E : length (enc_Actions (Bucket_Actions m)) = 8 * k).
    { cbn [m Bucket_Actions]. generalize k. clear. induction k as [|k IH]; [reflexivity|].
      cbn [repeat]. unfold enc_Actions in *. cbn [map]. cbn [concat]. rewrite app_length, IH. cbn [length enc_Action].
      change (length (concat [action_header (action_type APopVLAN) 8; pad 4])) with 8. lia. }
    set (b := enc_Actions (Bucket_Actions m)) in *. clearbody b. cbn [concat].
    rewrite !app_length. unfold u16, u32, pad. rewrite !be_enc_length, zeros_length. cbn [length]. unfold k in E. lia. }
  split; [|exact L]. pose proof (says_Bucket m) as S. unfold says in S. rewrite S, L. reflexivity.
Qed.
Print Assumptions C56_truth_refuted.

Example C56_ex :
  let b := MkBucket 1 2 3 [AOutput 4 5; ASetField (MkXM 32768 3 [x01; x02; x03; x04; x05; x06] [])] in
  num 0 2 (enc_Bucket b) = 48%N /\ length (enc_Bucket b) = 48
  /\ num 2 2 (enc_Match (MkMatch 1 [MkXM 32768 0 [x00; x00; x00; x01] []])) = 12%N
  /\ num 2 2 (enc_HelloElem (MkHelloElem [1; 2]%N)) = 16%N
  /\ num 2 2 (enc_TableProp (TNextTables false [1]%N)) = 5%N.
Proof. vm_compute. repeat split; reflexivity. Qed.
