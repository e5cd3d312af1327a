(** Lemmas about the fixed-size messages. *)
From Coq Require Import ZifyBool ZifyNat ZifyN.
From Verif Require Export EncodingFacts FixedModel WireSpec FixedSpec.
Ltac Zify.zify_post_hook ::= Z.div_mod_to_equations.

(** ** Remaining combinators *)
Lemma rt_assign {S} (g : S -> S) : rt (assign g) [] g.
Proof. intros s tl. reflexivity. Qed.

Lemma rt_finally {S} (g0 : S -> S) f bs g : rt f bs g -> rt (finally g0 f) bs (fun s => g0 (g s)).
Proof. intros H s tl. unfold finally. rewrite !H. reflexivity. Qed.

Lemma fixed_assign {S} (g : S -> S) : fixed 0 (assign g).
Proof. intros s inp. cbn. split; intro H; [lia|auto]. Qed.

Lemma fixed_finally {S} (g : S -> S) f k : fixed k f -> fixed k (finally g f).
Proof. intros H s inp. unfold finally. cbn [fail cnt rest]. apply H. Qed.

Lemma fixed_fu {S} k (set : N -> S -> S) : fixed k (fu k set).
Proof. apply fixed_take. Qed.
Lemma fixed_fbytes {S} k (set : bytes -> S -> S) : fixed k (fbytes k set).
Proof. apply fixed_take. Qed.
Lemma fixed_fpad {S} k : fixed k (fpad (S:=S) k).
Proof. apply fixed_take. Qed.
Lemma fixed_fus {S} w k (set : list N -> S -> S) : fixed (w * k) (fus w k set).
Proof. apply fixed_take. Qed.

Lemma fixed_andthen {S} (a : step S) b k1 k2 :
  fixed k1 a -> (forall n s, fixed k2 (b n s)) -> fixed (k1 + k2) (andthen a b).
Proof.
  intros Hf Hs s inp. unfold andthen. destruct (Hf s inp) as [Hf1 Hf2].
  destruct (Nat.ltb_spec (length inp) k1) as [L|L].
  - destruct (Hf1 L) as (He & Hc & Hr). split; intro H; [|lia].
    destruct He as [He|He]; rewrite He; rewrite He, Hc, Hr; auto.
  - destruct (Hf2 L) as (He & Hc & Hr). rewrite He.
    destruct (Hs (cnt (a s inp)) (val (a s inp)) (val (a s inp)) (rest (a s inp))) as [Hs1 Hs2].
    assert (Hlen : length (rest (a s inp)) = length inp - k1) by (rewrite Hr, skipn_length; lia).
    cbn [fail cnt rest]. split; intro H.
    + destruct (Hs1 ltac:(lia)) as (He' & Hc' & Hr'). split; [exact He'|]. split; [lia|exact Hr'].
    + destruct (Hs2 ltac:(lia)) as (He' & Hc' & Hr'). split; [exact He'|]. split; [lia|]. rewrite Hr', Hr. apply skipn_skipn_add.
Qed.

Lemma fixtext_wire w s : fixtext w s = wire_text w s.
Proof.
  unfold fixtext, wire_text. revert w. induction s as [|b s IH]; intro w.
  - rewrite firstn_nil, Nat.sub_0_r. cbn [app].
    rewrite (map_ext _ (fun _ => x00)) by (intros [|p]; reflexivity).
    generalize 0. induction w as [|w IHw]; intro a; [reflexivity|]. cbn. rewrite <- IHw. reflexivity.
  - destruct w as [|w]; [reflexivity|]. cbn [firstn length Nat.sub seq map app nth].
    f_equal. rewrite IH, <- seq_shift, map_map. reflexivity.
Qed.

(** ** Round trips *)
Arguments fits : simpl never.

Ltac rt_elem :=
  first [ apply rt_fu; assumption
        | apply rt_zeros
        | apply rt_fus; assumption
        | apply rt_take; first [assumption | apply fixtext_length] ].

Ltac rt_seq :=
  repeat first [ apply rt_concat_nil
               | eapply rt_concat_cons; [ solve [ rt_elem | apply rt_sub; rt_elem ] | ] ].

Ltac rt_msg :=
  eapply rt_ext; cycle 1; [ rt_seq | ]; let o := fresh "o" in intro o; cbn [msg] in o; destruct o; reflexivity.

Ltac simple_rt :=
  match goal with
  | |- rt ?d (?e ?m) _ => destruct m; unfold d, e
  end.

(** Round trip under a condition on the receiver. *)
Definition rti {S} (P : S -> Prop) (f : step S) (bs : bytes) (g : S -> S) : Prop :=
  forall s tl, P s -> f s (bs ++ tl) = Res (g s) (length bs) None tl.

Lemma rti_cons {S} (P Q : S -> Prop) (f : step S) fs b bs g h :
  rti P f b g -> (forall s, P s -> Q (g s)) -> rti Q (seqr fs) (concat bs) h ->
  rti P (seqr (f :: fs)) (concat (b :: bs)) (fun s => h (g s)).
Proof.
  intros Hf HQ Hs s tl HP. cbn [seqr concat]. rewrite <- app_assoc.
  rewrite !(Hf s _ HP). cbn [fail val rest cnt].
  rewrite !(Hs _ _ (HQ _ HP)). cbn [fail val rest cnt]. rewrite app_length. reflexivity.
Qed.

Lemma rti_rt {S} (P : S -> Prop) (f : step S) bs g : rt f bs g -> rti P f bs g.
Proof. intros H s tl _. apply H. Qed.

Lemma rti_sub {S A} (P : A -> Prop) (get : S -> A) (set : A -> S -> S) rd bs (g : A -> A) :
  rti P rd bs g -> rti (fun s => P (get s)) (sub get set rd) bs (fun s => set (g (get s)) s).
Proof. intros H s tl HP. unfold sub. rewrite !(H _ _ HP). reflexivity. Qed.

Lemma rti_fslice {S} (get : S -> bytes) (set : bytes -> S -> S) bs :
  rti (fun s => length (get s) = length bs) (fslice get set) bs (set bs).
Proof.
  intros s tl H. unfold fslice, fbytes. apply (rt_take (length (get s)) set bs). symmetry. exact H.
Qed.

Lemma rti_finally {S} (P : S -> Prop) (g0 : S -> S) f bs g :
  rti P f bs g -> rti P (finally g0 f) bs (fun s => g0 (g s)).
Proof. intros H s tl HP. unfold finally. rewrite !(H _ _ HP). reflexivity. Qed.

Lemma rti_pre {S} (P Q : S -> Prop) (g0 : S -> S) f bs g :
  (forall s, P s -> Q (g0 s)) -> rti Q f bs g -> rti P (pre g0 f) bs (fun s => g (g0 s)).
Proof. intros HQ H s tl HP. unfold pre. rewrite !(H _ _ (HQ _ HP)). reflexivity. Qed.

Lemma rti_with_local {L S} (P : L * S -> Prop) (l : L) f bs g :
  (forall s, P (l, s)) -> rti P f bs g -> rt (with_local l f) bs (fun s => snd (g (l, s))).
Proof. intros HP H s tl. unfold with_local. rewrite !(H _ _ (HP s)). reflexivity. Qed.

Lemma rt_Port m : wf_Port m -> rt dec_Port (enc_Port m) (fun _ => normal_port m).
Proof.
  destruct m as [pn hw nm cf sa cu ad su pe cs ms].
  intros (H1 & H2 & H3 & H4 & H5 & H6 & H7 & H8 & H9 & H10).
  cbn [Port_PortNo Port_HWAddr Port_Config Port_State Port_Curr Port_Advertised
       Port_Supported Port_Peer Port_CurrSpeed Port_MaxSpeed] in *.
  unfold dec_Port, enc_Port.
  cbn [Port_PortNo Port_HWAddr Port_Name Port_Config Port_State Port_Curr Port_Advertised
       Port_Supported Port_Peer Port_CurrSpeed Port_MaxSpeed].
  pose (P := fun s : bytes * Port => length (Port_HWAddr (snd s)) = length hw).
  eapply rt_ext; cycle 1.
  - apply (rti_with_local (fun _ => True)); [intros; exact I|].
    apply (rti_pre _ P); [intros s _; unfold P; rewrite H2; reflexivity|].
    apply rti_finally.
    apply (rti_cons P P); [apply rti_rt, rt_sub, rt_fu; assumption|intros s HP; exact HP|].
    apply (rti_cons P P); [apply rti_rt, rt_zeros|intros s HP; exact HP|].
    apply (rti_cons P P); [exact (rti_sub _ _ _ _ _ _ (rti_fslice Port_HWAddr set_Port_HWAddr hw))|
                      intros s HP; reflexivity|].
    apply rti_rt. rt_seq.
  - intros []. cbn [fst snd]. unfold normal_port. rewrite <- fixtext_wire. reflexivity.
Qed.

Lemma rt_Description m : rt dec_Description (enc_Description m) (fun _ => normal KDescription m).
Proof.
  destruct m as [a b c d e]. unfold dec_Description, enc_Description.
  cbn [Description_Manufacturer Description_Hardware Description_Software
       Description_SerialNum Description_Datapath].
  rewrite <- (app_nil_r (concat _)).
  eapply rt_ext; cycle 1.
  - apply rt_with_local, rt_andthen; [rt_seq|]. intro s. apply rt_assign.
  - intro s. cbn [fst snd set_Description_Manufacturer set_Description_Hardware
      set_Description_Software set_Description_SerialNum set_Description_Datapath
      Description_Manufacturer Description_Hardware Description_Software
      Description_SerialNum Description_Datapath normal]. rewrite !fixtext_wire. reflexivity.
Qed.

Ltac split_wf H :=
  repeat match goal with Hc : _ /\ _ |- _ => destruct Hc end.

Ltac simple_case m :=
  let H := fresh "H" in
  destruct m; cbn [wf dec enc normal]; intro H;
  match goal with |- rt ?d (?e _) _ => unfold d, e end;
  match type of H with ?w _ => unfold w in H end; cbn in H; split_wf H; rt_msg.

Lemma rt_all k m : wf k m -> rt (dec k) (enc k m) (fun _ => normal k m).
Proof.
  destruct k; try (simple_case m; fail).
  - apply rt_Port.
  - destruct m as [r p]. intros [H1 H2]. cbn in H1, H2.
    unfold dec, enc, normal, dec_PortStatus, enc_PortStatus. cbn [PortStatus_Reason PortStatus_Port].
    eapply rt_ext; cycle 1.
    + apply rt_concat_cons; [rt_elem|]. apply rt_concat_cons; [rt_elem|].
      apply rt_concat_cons; [apply rt_sub, rt_Port, H2|apply rt_concat_nil].
    + intros []. reflexivity.
  - intros _. apply rt_Description.
Qed.

(** ** Fixed size *)
Definition fixedi {S} (P : S -> Prop) (k : nat) (f : step S) : Prop :=
  forall s inp, P s ->
    (length inp < k -> (fail (f s inp) = Some EOF \/ fail (f s inp) = Some UnexpectedEOF)
                       /\ cnt (f s inp) = length inp /\ rest (f s inp) = [])
    /\ (k <= length inp -> fail (f s inp) = None /\ cnt (f s inp) = k /\ rest (f s inp) = skipn k inp).

Lemma fixedi_cons {S} (P Q : S -> Prop) k1 k2 (f : step S) fs :
  fixedi P k1 f -> (forall s inp, P s -> Q (val (f s inp))) -> fixedi Q k2 (seqr fs) ->
  fixedi P (k1 + k2) (seqr (f :: fs)).
Proof.
  intros Hf HQ Hs s inp HP. cbn [seqr]. destruct (Hf s inp HP) as [Hf1 Hf2].
  destruct (Nat.ltb_spec (length inp) k1) as [L|L].
  - destruct (Hf1 L) as (He & Hc & Hr). split; intro H; [|lia].
    destruct He as [He|He]; rewrite He; rewrite He, Hc, Hr; auto.
  - destruct (Hf2 L) as (He & Hc & Hr). rewrite He.
    destruct (Hs (val (f s inp)) (rest (f s inp)) (HQ _ _ HP)) as [Hs1 Hs2].
    assert (Hlen : length (rest (f s inp)) = length inp - k1) by (rewrite Hr, skipn_length; lia).
    cbn [fail cnt rest]. split; intro H.
    + destruct (Hs1 ltac:(lia)) as (He' & Hc' & Hr'). rewrite Hc', Hr', Hlen, Hc.
      repeat split; auto; lia.
    + destruct (Hs2 ltac:(lia)) as (He' & Hc' & Hr'). rewrite He', Hc', Hr', Hc, Hr, skipn_skipn_add.
      auto.
Qed.

Lemma fixedi_fixed {S} (P : S -> Prop) k (f : step S) : fixed k f -> fixedi P k f.
Proof. intros H s inp _. apply H. Qed.

Ltac fx_elem :=
  first [ apply fixed_fu | apply fixed_fpad | apply fixed_fus | apply fixed_fbytes
        | apply fixed_sub; first [ apply fixed_fu | apply fixed_fbytes ] ].

Ltac fx_seq :=
  repeat first [ apply fixed_nil | eapply fixed_cons; [ fx_elem | ] ].

Lemma fixed_eq {S} (f : step S) k k' : fixed k f -> k = k' -> fixed k' f.
Proof. intros H <-. exact H. Qed.

Lemma fixedi_eq {S} (P : S -> Prop) (f : step S) k k' : fixedi P k f -> k = k' -> fixedi P k' f.
Proof. intros H <-. exact H. Qed.

Lemma fixedi_wrap {L S} (P : L * S -> Prop) (l : L) g h (b : step (L * S)) k :
  fixedi P k b -> (forall s, P (g (l, s))) -> fixed k (with_local l (pre g (finally h b))).
Proof.
  intros H HP s inp. unfold with_local, pre, finally. cbn [fail cnt rest]. apply H, HP.
Qed.

Lemma fixed_Port : fixed 64 dec_Port.
Proof.
  unfold dec_Port.
  pose (P := fun s : bytes * Port => length (Port_HWAddr (snd s)) = 6).
  apply (fixedi_wrap P); [|reflexivity].
  apply (fixedi_eq P _ (4 + (4 + (6 + 50)))); [|reflexivity].
  { apply (fixedi_cons P P); [apply fixedi_fixed; fx_elem| |].
    { intros s inp HP. unfold sub, fu, take_full. destruct (length inp <? 4); exact HP. }
    apply (fixedi_cons P P); [apply fixedi_fixed; fx_elem| |].
    { intros s inp HP. unfold fpad, take_full. destruct (length inp <? 4); exact HP. }
    apply (fixedi_cons P (fun _ => True)); [|intros; exact I|].
    { intros s inp HP. unfold sub, fslice. cbn [fail cnt rest]. rewrite HP.
      apply (fixed_fbytes 6 set_Port_HWAddr). }
    apply fixedi_fixed. eapply fixed_eq; [fx_seq|reflexivity]. }
Qed.

Lemma fixed_all k : fixed (size k) (dec k).
Proof.
  destruct k; cbn [size dec];
    try (match goal with |- fixed _ ?d => unfold d end; eapply fixed_eq; [fx_seq|reflexivity]; fail).
  - apply fixed_Port.
  - unfold dec_PortStatus. eapply fixed_eq.
    + eapply fixed_cons; [fx_elem|]. eapply fixed_cons; [fx_elem|].
      eapply fixed_cons; [apply fixed_sub, fixed_Port|apply fixed_nil].
    + reflexivity.
  - unfold dec_Description. eapply fixed_eq.
    + apply fixed_with_local, fixed_andthen; [fx_seq|]. intros. apply fixed_assign.
    + reflexivity.
Qed.

(** ** Layout *)
Definition render (i : item) : bytes :=
  match i with
  | Num w n => be_enc w n
  | Text w s => fixtext w s
  | Raw _ b => b
  | Zero w => zeros w
  end.

Definition good (i : item) : Prop :=
  match i with Raw w b => length b = w | _ => True end.

Lemma render_length i : good i -> length (render i) = width i.
Proof.
  destruct i; cbn [render width good]; intro H;
    [apply be_enc_length|apply fixtext_length|exact H|apply zeros_length].
Qed.

Lemma be_enc_nth w n p : p < w ->
  nth_error (be_enc w n) p = Some (byte_of_N (n / 256 ^ N.of_nat (w - 1 - p))%N).
Proof.
  revert p. induction w as [|w IH]; intros p H; [lia|].
  cbn [be_enc]. destruct p as [|p]; cbn [nth_error].
  - do 4 f_equal. lia.
  - rewrite IH by lia. do 4 f_equal. lia.
Qed.

Lemma nth_error_default {A} (l : list A) p d : p < length l -> nth_error l p = Some (nth p l d).
Proof. intro H. apply nth_error_nth'. exact H. Qed.

Lemma render_byte i p : good i -> p < width i ->
  option_map Byte.to_N (nth_error (render i) p) = Some (item_byte i p).
Proof.
  destruct i as [w n|w s|w b|w]; cbn [render width good item_byte]; intros G H.
  - rewrite be_enc_nth by exact H. cbn [option_map]. rewrite to_N_byte_of_N. f_equal.
    rewrite N.shiftr_div_pow2. change 255%N with (N.ones 8). rewrite N.land_ones.
    rewrite N.pow_mul_r. reflexivity.
  - rewrite fixtext_wire. unfold wire_text.
    rewrite (nth_error_default _ _ x00) by (rewrite map_length, seq_length; exact H).
    cbn [option_map]. f_equal.
    rewrite (nth_indep _ x00 (nth 0 s x00)) by (rewrite map_length, seq_length; exact H).
    rewrite (map_nth (fun p => nth p s x00)), seq_nth by exact H. cbn [Nat.add].
    change 0%N with (Byte.to_N x00). rewrite map_nth. reflexivity.
  - rewrite (nth_error_default _ _ x00) by lia. cbn [option_map]. f_equal.
    change 0%N with (Byte.to_N x00). rewrite map_nth. reflexivity.
  - unfold zeros. rewrite nth_error_repeat by exact H. reflexivity.
Qed.

Lemma carries_app pre i post : good i -> carries (pre ++ render i ++ post) (length pre) i.
Proof.
  intros G p H. rewrite nth_error_app2 by lia.
  replace (length pre + p - length pre) with p by lia.
  rewrite nth_error_app1 by (rewrite render_length by exact G; exact H).
  apply render_byte; assumption.
Qed.

Lemma laid_out_render t : forall size pre,
  Forall (fun oi => good (snd oi)) t -> tiles (length pre) t size = true ->
  length (pre ++ concat (map (fun oi => render (snd oi)) t)) = size
  /\ forall off i, In (off, i) t ->
       carries (pre ++ concat (map (fun oi => render (snd oi)) t)) off i.
Proof.
  induction t as [|[off i] t IH]; intros size pre HF HT; cbn [map concat tiles snd] in *.
  - apply Nat.eqb_eq in HT. rewrite app_nil_r. split; [exact HT|intros ? ? []].
  - apply andb_prop in HT. destruct HT as [HO HT]. apply Nat.eqb_eq in HO. subst off.
    inversion HF as [|x l G HF' E]. cbn [snd] in G. subst.
    rewrite <- (render_length i G), <- app_length in HT.
    destruct (IH size (pre ++ render i) HF' HT) as [HL HC].
    rewrite <- app_assoc in HL. split; [exact HL|].
    intros off' i' [E'|Hin].
    + injection E' as <- <-. apply carries_app, G.
    + specialize (HC _ _ Hin). rewrite <- app_assoc in HC. exact HC.
Qed.

Lemma laid_out_intro e size t :
  Forall (fun oi => good (snd oi)) t -> tiles 0 t size = true ->
  e = concat (map (fun oi => render (snd oi)) t) -> laid_out e size t.
Proof.
  intros HF HT ->. destruct (laid_out_render t size [] HF HT) as [HL HC].
  repeat split; auto.
Qed.

Ltac lay :=
  apply laid_out_intro;
  [ repeat constructor; cbn [snd good]; try assumption; exact I
  | reflexivity
  | cbn [map snd render concat uarr app nthN nth]; rewrite ?app_nil_r, <- ?app_assoc; reflexivity ].

Lemma list_len2 {A} (l : list A) : length l = 2 -> exists a b, l = [a; b].
Proof. destruct l as [|a [|b [|]]]; try discriminate. eauto. Qed.
Lemma list_len4 {A} (l : list A) : length l = 4 -> exists a b c d, l = [a; b; c; d].
Proof. destruct l as [|a [|b [|c [|d [|]]]]]; try discriminate. eauto 10. Qed.

Lemma layout_all k m : wf k m -> laid_out (enc k m) (size k) (layout k m).
Proof.
  destruct k.
  all: try (destruct m; intros _; cbn [enc size layout];
            match goal with |- laid_out (?e _) _ _ => unfold e end;  lay; fail).
  - destruct m as [a b c]. cbn [wf]. unfold wf_AsyncConfig. cbn. intro H. split_wf H.
    repeat match goal with Hl : length ?x = 2 |- _ =>
      destruct (list_len2 x Hl) as (? & ? & ->); clear Hl end.
    unfold enc_AsyncConfig, nthN. cbn [AsyncConfig_PacketInMask AsyncConfig_PortStatusMask AsyncConfig_FlowRemovedMask].
    lay.
  - destruct m as [t cp a b]. cbn [wf]. unfold wf_GroupFeatures. cbn. intro H. split_wf H.
    repeat match goal with Hl : length ?x = 4 |- _ =>
      destruct (list_len4 x Hl) as (? & ? & ? & ? & ->); clear Hl end.
    unfold enc_GroupFeatures, nthN.
    cbn [GroupFeatures_Types GroupFeatures_Capabilities GroupFeatures_MaxGroups GroupFeatures_Actions].
    lay.
  - destruct m as [pn hw nm cf sa cu ad su pe cs ms]. intros (_ & H & _).
    cbn [enc size layout]. unfold enc_Port, port_layout. cbn [Port_HWAddr] in H.
    cbn [Port_PortNo Port_HWAddr Port_Name Port_Config Port_State Port_Curr Port_Advertised
         Port_Supported Port_Peer Port_CurrSpeed Port_MaxSpeed].
    lay.
  - destruct m as [r [pn hw nm cf sa cu ad su pe cs ms]]. intros (_ & _ & H & _).
    cbn [enc size layout]. unfold enc_PortStatus, enc_Port, port_layout. cbn [PortStatus_Port Port_HWAddr] in H.
    cbn [PortStatus_Port PortStatus_Reason Port_PortNo Port_HWAddr Port_Name Port_Config Port_State Port_Curr Port_Advertised
         Port_Supported Port_Peer Port_CurrSpeed Port_MaxSpeed].
    lay.
Qed.

(** ** Statements in the form used by the property files *)
Lemma roundtrip_all k m old tl : wf k m ->
  dec k old (enc k m ++ tl) = Res (normal k m) (size k) None tl.
Proof.
  intro H. rewrite (rt_all k m H old tl). f_equal. apply (layout_all k m H).
Qed.

Lemma header_roundtrip h old tl : wf_Header h ->
  dec_Header old (enc_Header h ++ tl) = Res h 8 None tl.
Proof. exact (roundtrip_all KHeader h old tl). Qed.

Lemma header_reverse old bs : length bs = 8 ->
  exists h, wf_Header h /\ dec_Header old bs = Res h 8 None [] /\ enc_Header h = bs.
Proof.
  intro H. destruct bs as [|a [|b [|c [|d [|e [|f [|g [|h [|]]]]]]]]]; try discriminate H.
  exists (MkHeader (be_dec [a]) (be_dec [b]) (be_dec [c; d]) (be_dec [e; f; g; h])).
  split; [|split].
  - repeat split; cbn [Header_Version Header_Type Header_Length Header_Transaction];
      (apply be_dec_fits; reflexivity).
  - reflexivity.
  - unfold enc_Header, u8, u16, u32. cbn [Header_Version Header_Type Header_Length Header_Transaction].
    change (be_enc 1 (be_dec [a])) with (be_enc (length [a]) (be_dec [a])).
    change (be_enc 1 (be_dec [b])) with (be_enc (length [b]) (be_dec [b])).
    change (be_enc 2 (be_dec [c; d])) with (be_enc (length [c; d]) (be_dec [c; d])).
    change (be_enc 4 (be_dec [e; f; g; h])) with (be_enc (length [e; f; g; h]) (be_dec [e; f; g; h])).
    rewrite !be_enc_dec. reflexivity.
Qed.

Lemma header_bytes h : wf_Header h ->
  map Byte.to_N (enc_Header h)
  = [Header_Version h; Header_Type h;
     Header_Length h / 256; Header_Length h mod 256;
     Header_Transaction h / 16777216; Header_Transaction h / 65536 mod 256;
     Header_Transaction h / 256 mod 256; Header_Transaction h mod 256]%N.
Proof.
  destruct h as [v t l x]. intros (H1 & H2 & H3 & H4).
  cbn [Header_Version Header_Type Header_Length Header_Transaction] in *.
  unfold fits in *. cbn in H1, H2, H3, H4.
  unfold enc_Header, u8, u16, u32.
  cbn [Header_Version Header_Type Header_Length Header_Transaction concat be_enc app map].
  rewrite !to_N_byte_of_N.
  change (256 ^ N.of_nat 0)%N with 1%N. change (256 ^ N.of_nat 1)%N with 256%N.
  change (256 ^ N.of_nat 2)%N with 65536%N. change (256 ^ N.of_nat 3)%N with 16777216%N.
  rewrite !N.div_1_r. repeat (apply (f_equal2 (@cons N)); [lia|]). reflexivity.
Qed.

Lemma truncated_all k old inp : length inp < size k ->
  (fail (dec k old inp) = Some EOF \/ fail (dec k old inp) = Some UnexpectedEOF)
  /\ cnt (dec k old inp) = length inp.
Proof. intro H. destruct (fixed_all k old inp) as [H1 _]. destruct (H1 H) as (A & B & _). auto. Qed.

Lemma counted_all k old inp : 
  cnt (dec k old inp) + length (rest (dec k old inp)) = length inp
  /\ exists used, inp = used ++ rest (dec k old inp) /\ length used = cnt (dec k old inp)
     /\ length used <= size k.
Proof.
  destruct (fixed_all k old inp) as [H1 H2].
  destruct (Nat.ltb_spec (length inp) (size k)) as [L|L].
  - destruct (H1 L) as (_ & -> & ->). cbn [length]. split; [lia|]. exists inp.
    rewrite app_nil_r. repeat split; lia.
  - destruct (H2 L) as (_ & -> & ->). rewrite skipn_length. split; [lia|].
    exists (firstn (size k) inp). rewrite firstn_skipn, firstn_length. repeat split; lia.
Qed.
