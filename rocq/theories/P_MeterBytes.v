(** C128: what every byte string is read as, for meter modifications and configurations. *)
From Verif Require Import MeterModel EncodingFacts StepFacts InstructionFacts P_InstrList MeterBytesSpec.
Ltac Zify.zify_post_hook ::= Z.div_mod_to_equations.

Definition band_of (t : N) : MeterBand :=
  (if t =? 1 then BandDrop 0 0 else if t =? 2 then BandDSCPRemark 0 0 0 else BandExperimenter 0 0 0)%N.

Lemma make_known_band t : In t known_bands -> make_band t = MkOk (band_of t).
Proof. cbn. intros [<-|[<-|[<-|[]]]]; reflexivity. Qed.
Lemma make_unknown_band t : ~ In t known_bands -> make_band t = MkUnknown.
Proof.
  intro H. unfold make_band. destruct (N.eqb_spec t 1) as [->|]; [destruct H; cbn; auto|]. destruct (N.eqb_spec t 2) as [->|]; [destruct H; cbn; auto|].
  destruct (N.eqb_spec t 65535) as [->|]; [destruct H; cbn; auto|reflexivity].
Qed.

Lemma band_whole t b : 16 <= length b -> fail (dec_MeterBand (band_of t) b) = None /\ rest (dec_MeterBand (band_of t) b) = skipn 16 b.
Proof.
  intro L. do 16 (destruct b as [|? b]; [cbn in L; lia|]). unfold band_of.
  destruct (t =? 1)%N; [split; reflexivity|]. destruct (t =? 2)%N; split; reflexivity.
Qed.

Lemma band_cut t b : In t known_bands -> 2 <= length b < 16 -> fail (dec_MeterBand (band_of t) b) <> None
  /\ skip_eof (fail (dec_MeterBand (band_of t) b)) = if existsb (Nat.eqb (length b)) (band_stops t) then None else Some UnexpectedEOF.
Proof.
  intros K [L H]. do 2 (destruct b as [|? b]; [cbn in L; lia|]). clear L.
  cbn in K. destruct K as [<-|[<-|[<-|[]]]];
    (do 14 (destruct b as [|? b]; [split; [discriminate|reflexivity]|])); cbn in H; lia.
Qed.

Lemma bands_said : forall fuel acc b, length b < fuel -> bands_report b (fail (scan_loop fuel make_band dec_MeterBand acc b)).
Proof.
  induction fuel as [|fuel IH]; intros acc b H; [lia|]. rewrite scan_S. destruct (Nat.ltb_spec (length b) 2) as [L|L].
  { exists [], b. split; [reflexivity|]. split; [constructor|]. left. auto. }
  change (be_dec (firstn 2 b)) with (num 0 2 b). destruct (in_dec N.eq_dec (num 0 2 b) known_bands) as [K|K].
  2:{ rewrite make_unknown_band by exact K. exists [], b. split; [reflexivity|]. split; [constructor|]. right. left. auto. }
  rewrite make_known_band by exact K. cbv zeta. destruct (Nat.lt_ge_cases (length b) 16) as [S|S].
  - destruct (band_cut _ b K (conj L S)) as [F V]. destruct (fail (dec_MeterBand (band_of (num 0 2 b)) b)) as [e|]; [|congruence].
    cbn [fail]. exists [], b. split; [reflexivity|]. split; [constructor|]. right. right. rewrite V. auto.
  - destruct (band_whole (num 0 2 b) b S) as [F R]. rewrite F, R. cbn [fail].
    destruct (IH (acc ++ [val (dec_MeterBand (band_of (num 0 2 b)) b)]) (skipn 16 b) ltac:(rewrite skipn_length; lia)) as (segs & t & E & Fa & C).
    exists (firstn 16 b :: segs), t. cbn [concat]. rewrite <- app_assoc, <- E, firstn_skipn. split; [reflexivity|]. split; [|exact C].
    constructor; [|exact Fa]. split; [rewrite firstn_length; lia|]. rewrite num_firstn by lia. exact K.
Qed.

Lemma bands_once b v : bands_report b v -> forall fuel acc, length b < fuel -> fail (scan_loop fuel make_band dec_MeterBand acc b) = v.
Proof.
  intros (segs & t & -> & F & C). induction F as [|seg segs [L K] _ IH]; intros fuel acc H; (destruct fuel as [|fuel]; [lia|]); rewrite scan_S.
  - cbn [concat app] in *. change (be_dec (firstn 2 t)) with (num 0 2 t). destruct (Nat.ltb_spec (length t) 2) as [L|L].
    { destruct C as [[_ ->]|[C|[C _]]]; [reflexivity|lia|lia]. }
    destruct C as [[C _]|[(_ & U & ->)|(C & K & ->)]]; [lia|now rewrite make_unknown_band by exact U|].
    rewrite make_known_band by exact K. cbv zeta. destruct (band_cut _ t K C) as [Fl V].
    destruct (fail (dec_MeterBand (band_of (num 0 2 t)) t)) as [e|]; [|congruence]. exact V.
  - cbn [concat] in *. rewrite <- app_assoc in *. set (x := concat segs ++ t) in *. rewrite app_length in H.
    destruct (Nat.ltb_spec (length (seg ++ x)) 2) as [S|S]; [rewrite app_length in S; lia|].
    change (be_dec (firstn 2 (seg ++ x))) with (num 0 2 (seg ++ x)). rewrite num_app2 by lia. rewrite make_known_band by exact K. cbv zeta.
    destruct (band_whole (num 0 2 seg) (seg ++ x) ltac:(rewrite app_length; lia)) as [Fl R]. rewrite Fl, R. cbn [fail].
    rewrite skipn_app, skipn_all2, L, Nat.sub_diag by lia. cbn [app skipn]. apply IH. lia.
Qed.

Lemma bands_read old b : val (dec_MeterBands old b) = old /\ rest (dec_MeterBands old b) = [].
Proof. split; [reflexivity|]. unfold dec_MeterBands, lost. cbn [rest]. apply scan_rest. Qed.
Lemma bands_fail old b : fail (dec_MeterBands old b) = fail (scan_loop (S (length b)) make_band dec_MeterBand old b).
Proof. reflexivity. Qed.

Lemma meter_mod_eq old inp : 8 <= length inp ->
  let r := dec_MeterBands (MeterMod_Bands old) (skipn 8 inp) in
  val (dec_MeterMod old inp) = MkMeterMod (num 0 2 inp) (num 2 2 inp) (num 4 4 inp) (MeterMod_Bands old) /\ fail (dec_MeterMod old inp) = fail r.
Proof.
  intro L. do 8 (destruct inp as [|? inp]; [cbn in L; lia|]). cbv zeta. cbn [skipn].
  unfold dec_MeterMod. set (D := dec_MeterBands).
  assert (V : val (D (MeterMod_Bands old) inp) = MeterMod_Bands old) by apply (bands_read (MeterMod_Bands old) inp). clearbody D.
  destruct old as [c f m l]. cbn [MeterMod_Bands] in *. destruct (D l inp) as [v n e r] eqn:E. cbn [val] in V. subst v.
  match goal with |- val ?x = _ /\ _ => assert (X : x = Res (MkMeterMod (be_dec [b; b0]) (be_dec [b1; b2]) (be_dec [b3; b4; b5; b6]) l) (8 + n) e r) end.
  { cbn -[be_dec]. unfold set_MeterMod_Bands, set_MeterMod_Meter, set_MeterMod_Flags, set_MeterMod_Command. cbn -[be_dec]. rewrite E. destruct e; cbn -[be_dec]; unfold sub; cbn -[be_dec]; rewrite ?E; cbn -[be_dec]; rewrite ?Nat.add_0_r; reflexivity. }
  rewrite X. split; reflexivity.
Qed.

(** C128: a byte string read as a meter modification: the fixed members that are complete,
    the bands the value had before, and the report about the bands in the bytes. *)
Theorem C128_meter_mod : forall old inp, let r := dec_MeterMod old inp in
  val r = MkMeterMod (member inp 0 2 (MeterMod_Command old)) (member inp 2 2 (MeterMod_Flags old)) (member inp 4 4 (MeterMod_Meter old)) (MeterMod_Bands old)
  /\ (8 <= length inp -> forall v, bands_report (skipn 8 inp) v <-> v = fail r)
  /\ (length inp < 8 -> fail r = head_report [0; 2; 4] inp).
Proof.
  intros old inp. cbv zeta. destruct (Nat.lt_ge_cases (length inp) 8) as [H|H].
  - split; [|split; [lia|intros _]]; (do 8 (destruct inp as [|? inp]; [destruct old; reflexivity|])); cbn in H; lia.
  - destruct (meter_mod_eq old inp H) as [V F]. rewrite V, F. split.
    { unfold member. repeat (match goal with |- context [?a <=? length inp] => destruct (Nat.leb_spec a (length inp)); [|lia] end). reflexivity. }
    split; [|lia]. intros _ v. rewrite bands_fail. split.
    + intro R. symmetry. apply (bands_once _ _ R). lia.
    + intros ->. apply bands_said. lia.
Qed.
Print Assumptions C128_meter_mod.

Lemma meter_config_eq old inp : 8 <= length inp ->
  let n := bands_room (num 0 2 inp) in
  let r := dec_MeterBands (MeterConfig_Bands old) (firstn n (skipn 8 inp)) in
  dec_MeterConfig old inp = Res (MkMeterConfig (num 2 2 inp) (num 4 4 inp) (MeterConfig_Bands old)) (8 + cnt r) (fail r) (skipn n (skipn 8 inp)).
Proof.
  intro L. do 8 (destruct inp as [|? inp]; [cbn in L; lia|]). cbv zeta. cbn [skipn].
  change (num 0 2 (b :: b0 :: b1 :: b2 :: b3 :: b4 :: b5 :: b6 :: inp)) with (be_dec [b; b0]).
  change (num 2 2 (b :: b0 :: b1 :: b2 :: b3 :: b4 :: b5 :: b6 :: inp)) with (be_dec [b1; b2]).
  change (num 4 4 (b :: b0 :: b1 :: b2 :: b3 :: b4 :: b5 :: b6 :: inp)) with (be_dec [b3; b4; b5; b6]).
  assert (Q : Z.to_nat (Z.of_N (sub16 (be_dec [b; b0]) 8)) = bands_room (be_dec [b; b0])).
  { unfold bands_room, sub16. change (uwrap 2) with (fun x : N => (x mod 65536)%N). cbv beta.
    replace (be_dec [b; b0] + 65536 - 8)%N with (be_dec [b; b0] + 65528)%N by lia. now rewrite <- Z_N_nat, N2Z.id. }
  set (room := bands_room _) in *. destruct (bands_read (MeterConfig_Bands old) (firstn room inp)) as [V R].
  destruct (dec_MeterBands (MeterConfig_Bands old) (firstn room inp)) as [v n e r] eqn:E. cbn [val rest] in V, R. subst v r.
  unfold dec_MeterConfig.
  erewrite with_local_eq.
  2:{ eapply andthen_both.
      - instantiate (1 := inp). instantiate (1 := 8). instantiate (1 := (be_dec [b; b0], MkMeterConfig (be_dec [b1; b2]) (be_dec [b3; b4; b5; b6]) (MeterConfig_Bands old))). reflexivity.
      - apply limited_eq. apply sub_eq. apply sub_eq. cbn [fst snd MeterConfig_Bands].
        rewrite Q.
        exact E. }
  cbn [fst snd app]. rewrite Q. reflexivity.
Qed.

(** C128: a byte string read as a meter configuration: bands are read only within the
    length field, and decoding goes on behind them whatever is reported. *)
Theorem C128_meter_config : forall old inp, let r := dec_MeterConfig old inp in
  val r = MkMeterConfig (member inp 2 2 (MeterConfig_Flags old)) (member inp 4 4 (MeterConfig_Meter old)) (MeterConfig_Bands old)
  /\ (8 <= length inp -> let n := bands_room (num 0 2 inp) in
      rest r = skipn n (skipn 8 inp) /\ forall v, bands_report (firstn n (skipn 8 inp)) v <-> v = fail r)
  /\ (length inp < 8 -> fail r = head_report [0; 2; 4] inp).
Proof.
  intros old inp. cbv zeta. destruct (Nat.lt_ge_cases (length inp) 8) as [H|H].
  - split; [|split; [lia|intros _]]; (do 8 (destruct inp as [|? inp]; [destruct old; reflexivity|])); cbn in H; lia.
  - rewrite (meter_config_eq old inp H). cbn [val rest fail]. split.
    { unfold member. repeat (match goal with |- context [?a <=? length inp] => destruct (Nat.leb_spec a (length inp)); [|lia] end). reflexivity. }
    split; [|lia]. intros _. split; [reflexivity|]. intro v. rewrite bands_fail. split.
    + intro R. symmetry. apply (bands_once _ _ R). lia.
    + intros ->. apply bands_said. lia.
Qed.
Print Assumptions C128_meter_config.

Definition sample_band : bytes := [x00; x01; x00; x63; x00; x00; x00; x07; x00; x00; x00; x08; x00; x00; x00; x00].
Definition sample_meter : bytes := [x00; x01; x00; x04; x00; x00; x00; x09].

Example C128_meter_mod_ex :
  let old := MkMeterMod 5 6 7 [BandDrop 1 2] in
  bands_report (sample_band ++ [x00; x02; x00; x10; x00; x00; x00; x01; x00; x00; x00; x02; x03]) None
  /\ dec_MeterMod old (sample_meter ++ sample_band ++ [x00; x02; x00; x10; x00; x00; x00; x01; x00; x00; x00; x02; x03]) = Res (MkMeterMod 1 4 9 [BandDrop 1 2]) 37 None []
  /\ fail (dec_MeterMod old (sample_meter ++ sample_band ++ [x00; x01; x00; x10; x00; x00; x00; x01; x00; x00; x00; x02; x03])) = Some UnexpectedEOF
  /\ fail (dec_MeterMod old (sample_meter ++ sample_band ++ [x00; x03])) = Some (EUnknown 3)
  /\ dec_MeterMod old [x00; x01; x00; x04; x00] = Res (MkMeterMod 1 4 7 [BandDrop 1 2]) 5 (Some UnexpectedEOF) [].
Proof.
  split; [|vm_compute; repeat split]. exists [sample_band], [x00; x02; x00; x10; x00; x00; x00; x01; x00; x00; x00; x02; x03]. split; [reflexivity|]. split.
  - constructor; [split; [reflexivity|cbn; auto]|constructor].
  - right. right. split; [cbn; lia|]. split; [cbn; auto|reflexivity].
Qed.

Example C128_meter_config_ex :
  let old := MkMeterConfig 6 7 [BandDrop 1 2] in
  (* a length that leaves one byte of the second band's type inside *)
  dec_MeterConfig old ([x00; x19; x00; x04; x00; x00; x00; x09] ++ sample_band ++ sample_band) = Res (MkMeterConfig 4 9 [BandDrop 1 2]) 24 None (skipn 1 sample_band)
  (* a length below eight wraps around: bands are read up to the end *)
  /\ fail (dec_MeterConfig old ([x00; x00; x00; x04; x00; x00; x00; x09] ++ sample_band ++ [x00; x03])) = Some (EUnknown 3).
Proof. vm_compute. split; reflexivity. Qed.
