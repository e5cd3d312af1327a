(** C01, C38, C39, C40 and the fixed-size part of C57. *)
From Verif Require Import FixedFacts.

(** C01: any header survives the wire, into any receiver, whatever follows. *)
Theorem C01_header_roundtrip : forall h old tl, wf_Header h ->
  dec_Header old (enc_Header h ++ tl) = Res h 8 None tl.
Proof. exact header_roundtrip. Qed.
Print Assumptions C01_header_roundtrip.

Example C01_header_roundtrip_ex :
  let h := MkHeader 4 14 80 3735928559 in
  wf_Header h /\ enc_Header h = [x04; x0e; x00; x50; xde; xad; xbe; xef]
  /\ dec_Header (MkHeader 255 255 65535 1) (enc_Header h ++ [xaa]) = Res h 8 None [xaa].
Proof. vm_compute. repeat split; reflexivity. Qed.

(** C01: every 8-byte string is the encoding of exactly the header it decodes to. *)
Theorem C01_header_reverse : forall old bs, length bs = 8 ->
  exists h, wf_Header h /\ dec_Header old bs = Res h 8 None [] /\ enc_Header h = bs.
Proof. exact header_reverse. Qed.
Print Assumptions C01_header_reverse.

Example C01_header_reverse_ex :
  dec_Header zero_Header [xff; xfe; x01; x02; x03; x04; x05; x06]
  = Res (MkHeader 255 254 258 50595078) 8 None [].
Proof. vm_compute. reflexivity. Qed.

(** C01: position and byte order of every field. *)
Theorem C01_header_bytes : forall h, wf_Header h ->
  map Byte.to_N (enc_Header h)
  = [Header_Version h; Header_Type h;
     Header_Length h / 256; Header_Length h mod 256;
     Header_Transaction h / 16777216; Header_Transaction h / 65536 mod 256;
     Header_Transaction h / 256 mod 256; Header_Transaction h mod 256]%N.
Proof. exact header_bytes. Qed.
Print Assumptions C01_header_bytes.

Example C01_header_bytes_ex :
  map Byte.to_N (enc_Header (MkHeader 1 2 772 84281096)) = [1; 2; 3; 4; 5; 6; 7; 8]%N.
Proof. vm_compute. reflexivity. Qed.

(** C38: every fixed-size message survives the wire into any receiver. *)
Theorem C38_fixed_roundtrip : forall k (m old : msg k) tl, wf k m ->
  dec k old (enc k m ++ tl) = Res (normal k m) (size k) None tl.
Proof. exact roundtrip_all. Qed.
Print Assumptions C38_fixed_roundtrip.

Example C38_fixed_roundtrip_ex :
  let p := MkPort 7 [x02; x00; x5e; x10; x00; xff] [x65; x74; x68; x30] 1 4 2 8 16 32 1000 2000 in
  let q := MkPort 9 [] [x7a] 9 9 9 9 9 9 9 9 in
  wf KPortStatus (MkPortStatus 2 p)
  /\ dec KPortStatus (MkPortStatus 1 q) (enc KPortStatus (MkPortStatus 2 p) ++ [x01; x02])
     = Res (MkPortStatus 2 (MkPort 7 [x02; x00; x5e; x10; x00; xff]
              [x65; x74; x68; x30; x00; x00; x00; x00; x00; x00; x00; x00; x00; x00; x00; x00]
              1 4 2 8 16 32 1000 2000)) 72 None [x01; x02].
Proof. vm_compute. repeat split; reflexivity. Qed.

(** C39: every fixed-size message has its OpenFlow 1.3 layout. *)
Theorem C39_fixed_layout : forall k (m : msg k), wf k m -> laid_out (enc k m) (size k) (layout k m).
Proof. exact layout_all. Qed.
Print Assumptions C39_fixed_layout.

Example C39_fixed_layout_ex :
  let m := MkSwitchFeatures 1 256 254 3 79 0 in
  wf KSwitchFeatures m /\ In (13, Num 1 3) (layout KSwitchFeatures m)
  /\ nth_error (enc KSwitchFeatures m) 13 = Some x03.
Proof. vm_compute. repeat split; auto 10. Qed.

(** C40: fewer bytes than the message needs are always rejected. *)
Theorem C40_fixed_truncated : forall k (old : msg k) inp, length inp < size k ->
  (fail (dec k old inp) = Some EOF \/ fail (dec k old inp) = Some UnexpectedEOF)
  /\ cnt (dec k old inp) = length inp.
Proof. exact truncated_all. Qed.
Print Assumptions C40_fixed_truncated.

Example C40_fixed_truncated_ex :
  let r := dec KTableMod zero_TableMod (firstn 6 (enc KTableMod (MkTableMod 3 77))) in
  length (firstn 6 (enc KTableMod (MkTableMod 3 77))) < size KTableMod
  /\ fail r = Some UnexpectedEOF /\ cnt r = 6.
Proof. vm_compute. repeat split; auto. Qed.

(** C57: fixed-size decoders report exactly what they consumed, which is a
    prefix of the input not longer than the message. *)
Theorem C57_fixed_counts : forall k (old : msg k) inp,
  cnt (dec k old inp) + length (rest (dec k old inp)) = length inp
  /\ exists used, inp = used ++ rest (dec k old inp) /\ length used = cnt (dec k old inp)
     /\ length used <= size k.
Proof. exact counted_all. Qed.
Print Assumptions C57_fixed_counts.

Example C57_fixed_counts_ex :
  let r := dec KSwitchConfig zero_SwitchConfig [x00; x01; x00; x02; x99] in
  cnt r = 4 /\ rest r = [x99].
Proof. vm_compute. split; reflexivity. Qed.
