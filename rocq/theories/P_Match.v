(** C41, C42, C43: match entries and matches. *)
From Verif Require Import MatchFacts.

(** C41: every expressible entry survives the wire into any receiver. *)
Theorem C41_xm_roundtrip : forall x old tl, wf_XM x ->
  dec_XM old (enc_XM x ++ tl) = Res x (xm_size x) None tl.
Proof. intros x old tl W. rewrite (rt_XM x W). rewrite xm_length by exact W. reflexivity. Qed.
Print Assumptions C41_xm_roundtrip.

Example C41_xm_roundtrip_ex :
  let x := MkXM 32768 11 [x0a; x00; x00; x01] [xff; xff; x00; x00] in
  wf_XM x
  /\ dec_XM (MkXM 1 1 [x01] [x02]) (enc_XM x ++ [x99]) = Res x 12 None [x99].
Proof. split; [|vm_compute; reflexivity]. repeat split; cbn; auto; lia. Qed.

(** C41: class, field and mask flag, length, value, mask. *)
Theorem C41_xm_layout : forall x, wf_XM x -> laid_out (enc_XM x) (xm_size x) (xm_layout x).
Proof. exact xm_layout_ok. Qed.
Print Assumptions C41_xm_layout.

Example C41_xm_layout_ex :
  enc_XM (MkXM 32768 11 [x0a; x00; x00; x01] [xff; xff; x00; x00])
  = [x80; x00; x17; x08; x0a; x00; x00; x01; xff; xff; x00; x00].
Proof. vm_compute. reflexivity. Qed.

(** C42: every match survives the wire into any receiver, whatever follows. *)
Theorem C42_match_roundtrip : forall m old tl, wf_Match m ->
  dec_Match old (enc_Match m ++ tl) = Res m (match_size m) None tl.
Proof.
  intros m old tl W. rewrite (rt_Match m W). destruct (match_size_ok m W) as [-> _]. reflexivity.
Qed.
Print Assumptions C42_match_roundtrip.

Example C42_match_roundtrip_ex :
  let m := MkMatch 1 [MkXM 32768 0 [x00; x00; x00; x07] []; MkXM 32768 5 [x08; x00] []] in
  wf_Match m /\ match_size m = 24
  /\ dec_Match (MkMatch 9 [zero_XM]) (enc_Match m ++ [xaa; xbb]) = Res m 24 None [xaa; xbb].
Proof.
  split; [|split; vm_compute; reflexivity].
  repeat split; try reflexivity. repeat constructor; cbn; auto; lia.
Qed.

(** C42: header, entries in order, zero padding to a multiple of eight; the
    length field counts header and entries. *)
Theorem C42_match_layout : forall m, wf_Match m ->
  match_laid_out m (enc_Match m) /\ length (enc_Match m) = match_size m /\ match_size m mod 8 = 0.
Proof. intros m W. split; [apply match_layout_ok, W|apply match_size_ok, W]. Qed.
Print Assumptions C42_match_layout.

Example C42_match_layout_ex :
  enc_Match (MkMatch 1 [MkXM 32768 0 [x00; x00; x00; x07] []])
  = [x00; x01; x00; x0c; x80; x00; x00; x04; x00; x00; x00; x07; x00; x00; x00; x00].
Proof. vm_compute. reflexivity. Qed.

(** C66: looking up a field gives the first entry of that type. *)
Theorem C66_field_lookup : forall m t, first_of_type (Match_Fields m) t (match_field m t).
Proof. exact match_field_spec. Qed.
Print Assumptions C66_field_lookup.

Example C66_field_lookup_ex :
  match_field (MkMatch 1 [MkXM 32768 3 [x01] []; MkXM 32768 5 [x02] []; MkXM 1 5 [x03] []]) 5
  = Some (MkXM 32768 5 [x02] []).
Proof. reflexivity. Qed.

(** C43: every byte string is a sequence of complete entries with fewer than
    four stray bytes, or one that breaks off inside the payload of an entry. *)
Theorem C43_two_kinds : forall b, (exists xs, parses xs b) \/ (exists xs, broken xs b).
Proof. exact parse_total. Qed.
Print Assumptions C43_two_kinds.

Example C43_two_kinds_ex :
  broken [] [x80; x00; x00; x04; x01] /\ parses [MkXM 32768 0 [x01] []] [x80; x00; x00; x01; x01; xee].
Proof.
  split; [constructor; cbn; auto with arith|].
  apply (ParsesEntry (MkXM 32768 0 [x01] []) [x80; x00; x00; x01; x01] [] [xee]).
  - exists x80, x00, x00, x01, [x01]. vm_compute. repeat split; reflexivity.
  - constructor. cbn. auto with arith.
Qed.

(** C43: in the first case exactly those entries are decoded, and it is a
    success if and only if the padding is there. *)
Theorem C43_complete : forall old inp xs, 4 <= length inp -> parses xs (region inp) ->
  Match_Fields (val (dec_Match old inp)) = xs
  /\ Match_Type (val (dec_Match old inp)) = be_dec (firstn 2 inp)
  /\ (fail (dec_Match old inp) = None
      <-> length (region inp) + (up8 (declared inp) - declared inp) <= length (skipn 4 inp))
  /\ (fail (dec_Match old inp) <> None ->
        fail (dec_Match old inp) = Some EOF \/ fail (dec_Match old inp) = Some UnexpectedEOF).
Proof. exact match_parsed. Qed.
Print Assumptions C43_complete.

Example C43_complete_ex :
  let inp := [x00; x01; x00; x0a; x80; x00; x00; x01; x07; xee; x00; x00; x00; x00; x00; x00] in
  region inp = [x80; x00; x00; x01; x07; xee]
  /\ dec_Match zero_Match inp = Res (MkMatch 1 [MkXM 32768 0 [x07] []]) 16 None [].
Proof. vm_compute. split; reflexivity. Qed.

(** C43: in the second case an error is reported. *)
Theorem C43_broken : forall old inp xs, 4 <= length inp -> broken xs (region inp) ->
  Match_Fields (val (dec_Match old inp)) = xs
  /\ (fail (dec_Match old inp) = Some EOF \/ fail (dec_Match old inp) = Some UnexpectedEOF).
Proof. exact match_broken. Qed.
Print Assumptions C43_broken.

Example C43_broken_ex :
  let inp := [x00; x01; x00; x0a; x80; x00; x00; x04; x07; xee; x00; x00; x00; x00; x00; x00] in
  fail (dec_Match zero_Match inp) = Some UnexpectedEOF.
Proof. vm_compute. reflexivity. Qed.

(** C43: so is a match without its four byte header. *)
Theorem C43_no_header : forall old inp, length inp < 4 ->
  Match_Fields (val (dec_Match old inp)) = []
  /\ (fail (dec_Match old inp) = Some EOF \/ fail (dec_Match old inp) = Some UnexpectedEOF).
Proof. exact match_short. Qed.
Print Assumptions C43_no_header.

Example C43_no_header_ex : fail (dec_Match zero_Match [x00; x01; x00]) = Some UnexpectedEOF.
Proof. reflexivity. Qed.

(** C43: nothing beyond the declared length rounded up to eight is read, and
    on success the reported count is what was read. *)
Theorem C43_bound : forall old inp, 4 <= declared inp ->
  exists used, inp = used ++ rest (dec_Match old inp) /\ length used <= up8 (declared inp)
               /\ (fail (dec_Match old inp) = None -> length used = cnt (dec_Match old inp)).
Proof. exact match_bound. Qed.
Print Assumptions C43_bound.

Example C43_bound_ex :
  rest (dec_Match zero_Match [x00; x01; x00; x04; x00; x00; x00; x00; xab]) = [xab].
Proof. vm_compute. reflexivity. Qed.

(** C43: for every match, one to three stray bytes counted by the length field
    are dropped without an error. *)
Theorem C43_stray_dropped : forall m old stray tl, wf_Match m -> length stray < 4 ->
  let n := 4 + fields_size (Match_Fields m) + length stray in
  (N.of_nat n < 65536)%N ->
  dec_Match old (be_enc 2 (Match_Type m) ++ be_enc 2 (N.of_nat n)
                 ++ concat (map enc_XM (Match_Fields m)) ++ stray ++ zeros (up8 n - n) ++ tl)
  = Res m (up8 n) None tl.
Proof. exact stray_dropped. Qed.
Print Assumptions C43_stray_dropped.

(** C43: a message that ends after a complete entry although its length field
    (a multiple of eight) announces more is accepted. *)
Theorem C43_truncated_accepted : forall m old n, wf_Match m -> (n < 65536)%N -> (n mod 8 = 0)%N ->
  4 + fields_size (Match_Fields m) <= N.to_nat n ->
  let r := dec_Match old (be_enc 2 (Match_Type m) ++ be_enc 2 n ++ concat (map enc_XM (Match_Fields m))) in
  val r = m /\ fail r = None.
Proof. exact truncated_accepted. Qed.
Print Assumptions C43_truncated_accepted.

(** C43, witness: a match cut after its first entry decodes without an error as
    a different match. *)
Theorem C43_truncation_unreported_refuted : exists m k old,
  wf_Match m /\ k < length (enc_Match m)
  /\ fail (dec_Match old (firstn k (enc_Match m))) = None
  /\ val (dec_Match old (firstn k (enc_Match m))) <> m.
Proof.
  exists (MkMatch 1 [MkXM 32768 0 [x00; x00; x00; x07] []; MkXM 32768 5 [x08; x00; x01; x01; x01; x01; x01; x01] []]), 12, zero_Match.
  split; [|vm_compute; repeat split; auto 30; discriminate].
  repeat split; try reflexivity. repeat constructor; cbn; auto; lia.
Qed.
Print Assumptions C43_truncation_unreported_refuted.

(** C43, witness for the stray bytes. *)
Theorem C43_stray_refuted : exists inp, parses [] [xde; xad; xbe] /\ region inp = [xde; xad; xbe]
  /\ dec_Match zero_Match inp = Res (MkMatch 1 []) 8 None [].
Proof.
  exists [x00; x01; x00; x07; xde; xad; xbe; x00]. split; [constructor; cbn; auto|].
  vm_compute. split; reflexivity.
Qed.
Print Assumptions C43_stray_refuted.
