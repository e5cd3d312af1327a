(** C58, C59, C74, C75: helpers that build bitmaps, flow requests and matches. *)
From Verif Require Import DataFacts UtilModel UtilSpec.
Ltac Zify.zify_post_hook ::= Z.div_mod_to_equations.

(** ** Bitmaps *)

Lemma shl_bit m b i : N.testbit (shl m b) i = N.testbit m i || ((i =? b)%N && (i <? 32)%N).
Proof.
  unfold shl. rewrite N.lor_spec. f_equal. unfold uwrap. change (256 ^ N.of_nat 4)%N with (2 ^ 32)%N.
  destruct (N.ltb_spec i 32) as [H|H].
  - rewrite N.mod_pow2_bits_low by exact H. rewrite N.shiftl_1_l, N.pow2_bits_eqb, N.eqb_sym, andb_true_r. reflexivity.
  - rewrite N.mod_pow2_bits_high by exact H. rewrite andb_false_r. reflexivity.
Qed.

Lemma fold_bit l : forall m i,
  N.testbit (fold_left shl l m) i = N.testbit m i || (existsb (fun b => (i =? b)%N) l && (i <? 32)%N).
Proof.
  induction l as [|b l IH]; intros m i; cbn [fold_left existsb].
  - rewrite orb_false_r. reflexivity.
  - rewrite IH, shl_bit. destruct (N.testbit m i), (i =? b)%N, (i <? 32)%N, (existsb (fun b0 => (i =? b0)%N) l); reflexivity.
Qed.

Lemma bits_of l i : N.testbit (fold_left shl l 0%N) i = true <-> In i l /\ (i < 32)%N.
Proof.
  rewrite fold_bit, N.bits_0, orb_false_l, andb_true_iff, N.ltb_lt, existsb_exists. split.
  - intros [(b & H & E) L]. apply N.eqb_eq in E. subst b. auto.
  - intros [H L]. split; [|exact L]. exists i. split; [exact H|apply N.eqb_refl].
Qed.

(** C58: bit [i] is set exactly for the listed values below 32, in any order and
    with any repetitions; listed values of 32 and more are dropped. *)
Theorem C58_bits : forall l i,
  (N.testbit (packet_in_reason_bitmap l) i = true <-> In i l /\ (i < 32)%N)
  /\ (N.testbit (port_reason_bitmap l) i = true <-> In i l /\ (i < 32)%N)
  /\ (N.testbit (flow_reason_bitmap l) i = true <-> In i l /\ (i < 32)%N)
  /\ (N.testbit (group_bitmap l) i = true <-> In i l /\ (i < 32)%N)
  /\ (N.testbit (action_bitmap l) i = true <-> In i l /\ (i < 32)%N).
Proof. intros l i. exact (conj (bits_of l i) (conj (bits_of l i) (conj (bits_of l i) (conj (bits_of l i) (bits_of l i))))). Qed.
Print Assumptions C58_bits.

Theorem C58_same_set : forall l l', (forall i, (i < 32)%N -> (In i l <-> In i l')) ->
  packet_in_reason_bitmap l = packet_in_reason_bitmap l'
  /\ port_reason_bitmap l = port_reason_bitmap l' /\ flow_reason_bitmap l = flow_reason_bitmap l'
  /\ group_bitmap l = group_bitmap l' /\ action_bitmap l = action_bitmap l'.
Proof.
  intros l l' H. assert (E : fold_left shl l 0%N = fold_left shl l' 0%N); [|repeat split; exact E].
  apply N.bits_inj. intro i. apply eq_true_iff_eq. rewrite !bits_of. specialize (H i). tauto.
Qed.
Print Assumptions C58_same_set.

Lemma bitmap_fits l : fits 4 (fold_left shl l 0%N).
Proof.
  unfold fits. change (256 ^ N.of_nat 4)%N with (2 ^ 32)%N.
  assert (E : (fold_left shl l 0 = (fold_left shl l 0) mod 2 ^ 32)%N).
  { apply N.bits_inj. intro i. destruct (N.ltb_spec i 32) as [L|L].
    - rewrite N.mod_pow2_bits_low by exact L. reflexivity.
    - rewrite N.mod_pow2_bits_high by exact L. apply not_true_is_false. rewrite bits_of. lia. }
  rewrite E. apply N.mod_lt. discriminate.
Qed.

(** C58: an asynchronous configuration made of such bitmaps arrives with them. *)
Theorem C58_async_arrives : forall p p' t t' f f' old,
  let m := MkAsyncConfig (bitmap64 (packet_in_reason_bitmap p) (packet_in_reason_bitmap p'))
                         (bitmap64 (port_reason_bitmap t) (port_reason_bitmap t'))
                         (bitmap64 (flow_reason_bitmap f) (flow_reason_bitmap f')) in
  let r := dec_AsyncConfig old (enc_AsyncConfig m) in
  fail r = None
  /\ (forall i, (N.testbit (nth 0 (AsyncConfig_PacketInMask (val r)) 0%N) i = true <-> In i p /\ (i < 32)%N)
             /\ (N.testbit (nth 1 (AsyncConfig_PacketInMask (val r)) 0%N) i = true <-> In i p' /\ (i < 32)%N)
             /\ (N.testbit (nth 0 (AsyncConfig_PortStatusMask (val r)) 0%N) i = true <-> In i t /\ (i < 32)%N)
             /\ (N.testbit (nth 1 (AsyncConfig_PortStatusMask (val r)) 0%N) i = true <-> In i t' /\ (i < 32)%N)
             /\ (N.testbit (nth 0 (AsyncConfig_FlowRemovedMask (val r)) 0%N) i = true <-> In i f /\ (i < 32)%N)
             /\ (N.testbit (nth 1 (AsyncConfig_FlowRemovedMask (val r)) 0%N) i = true <-> In i f' /\ (i < 32)%N)).
Proof.
  intros p p' t t' f f' old m r.
  assert (W : wf_AsyncConfig m).
  { unfold wf_AsyncConfig, m, bitmap64. cbn [AsyncConfig_PacketInMask AsyncConfig_PortStatusMask AsyncConfig_FlowRemovedMask length].
    repeat split; repeat constructor; apply bitmap_fits. }
  assert (E : r = Res m 24 None []).
  { unfold r. rewrite <- (app_nil_r (enc_AsyncConfig m)). exact (roundtrip_all KAsyncConfig m old [] W). }
  rewrite E. split; [reflexivity|]. intro i.
  exact (conj (bits_of p i) (conj (bits_of p' i) (conj (bits_of t i) (conj (bits_of t' i) (conj (bits_of f i) (bits_of f' i)))))).
Qed.
Print Assumptions C58_async_arrives.

(** C58: and so does a group features message. *)
Theorem C58_group_arrives : forall g c m1 m2 m3 m4 a1 a2 a3 a4 old,
  fits 4 c -> fits 4 m1 -> fits 4 m2 -> fits 4 m3 -> fits 4 m4 ->
  let m := MkGroupFeatures (group_bitmap g) c (bitmap128 m1 m2 m3 m4)
             (bitmap128 (action_bitmap a1) (action_bitmap a2) (action_bitmap a3) (action_bitmap a4)) in
  let r := dec_GroupFeatures old (enc_GroupFeatures m) in
  fail r = None /\ GroupFeatures_MaxGroups (val r) = [m1; m2; m3; m4]
  /\ (forall i, (N.testbit (GroupFeatures_Types (val r)) i = true <-> In i g /\ (i < 32)%N)
             /\ (N.testbit (nth 0 (GroupFeatures_Actions (val r)) 0%N) i = true <-> In i a1 /\ (i < 32)%N)
             /\ (N.testbit (nth 1 (GroupFeatures_Actions (val r)) 0%N) i = true <-> In i a2 /\ (i < 32)%N)
             /\ (N.testbit (nth 2 (GroupFeatures_Actions (val r)) 0%N) i = true <-> In i a3 /\ (i < 32)%N)
             /\ (N.testbit (nth 3 (GroupFeatures_Actions (val r)) 0%N) i = true <-> In i a4 /\ (i < 32)%N)).
Proof.
  intros g c m1 m2 m3 m4 a1 a2 a3 a4 old Hc H1 H2 H3 H4 m r.
  assert (W : wf_GroupFeatures m).
  { unfold wf_GroupFeatures, m, bitmap128. cbn [GroupFeatures_Types GroupFeatures_Capabilities GroupFeatures_MaxGroups GroupFeatures_Actions length].
    split; [apply bitmap_fits|]. split; [exact Hc|]. split; (split; [reflexivity|]); repeat constructor; try assumption; apply bitmap_fits. }
  assert (E : r = Res m 40 None []).
  { unfold r. rewrite <- (app_nil_r (enc_GroupFeatures m)). exact (roundtrip_all KGroupFeatures m old [] W). }
  rewrite E. split; [reflexivity|]. split; [reflexivity|]. intro i.
  exact (conj (bits_of g i) (conj (bits_of a1 i) (conj (bits_of a2 i) (conj (bits_of a3 i) (bits_of a4 i))))).
Qed.
Print Assumptions C58_group_arrives.

(** "The bitmap of action types" is false of the experimenter action (65535). *)
Theorem C58_experimenter_refuted : exists t, action_type (AExperimenter 7) = t
  /\ forall l i, N.testbit (action_bitmap (t :: l)) i = N.testbit (action_bitmap l) i.
Proof.
  eexists. split; [reflexivity|]. intros l i. apply eq_true_iff_eq. unfold action_bitmap. rewrite !bits_of. cbn [In].
  split; [|tauto]. intros [[E|H] L]; [|auto]. subst i. discriminate L.
Qed.
Print Assumptions C58_experimenter_refuted.

Example C58_ex :
  packet_in_reason_bitmap [2; 0; 2]%N = 5%N /\ action_bitmap [0; 27; 65535; 32]%N = 134217729%N
  /\ bitmap64 1 2 = [1; 2]%N /\ bitmap128 1 2 3 4 = [1; 2; 3; 4]%N.
Proof. vm_compute. repeat split; reflexivity. Qed.

(** ** Flow requests *)

(** A flow modification in a new request, from sender to receiver. *)
Lemma flow_request_arrives m s : wf_FlowMod m -> (lenN (enc_FlowMod m) <= 65527)%N ->
  let r := new_request 14 (as_payload (enc_FlowMod m)) in
  exists e q r' b, wcalls (write_to sink r) = [e] /\ werr (write_to sink r) = None
    /\ receive (MkReader e s EOF false) = (inl q, r') /\ data r' = []
    /\ Header_Type (Request_Header q) = 14%N /\ Header_Version (Request_Header q) = 4%N
    /\ Request_Body q = BBuf b
    /\ forall old, dec_FlowMod old b = Res m (length b) None [].
Proof.
  intros W L r.
  destruct (delivered 14 0 (enc_FlowMod m) s eq_refl eq_refl L) as (e & q & r' & E1 & E2 & E3 & E4 & (Q1 & Q2 & _)).
  exists e, q, r', (enc_FlowMod m). rewrite Q1. repeat (split; [assumption || reflexivity|]).
  intro old. apply (whole_FlowMod m W old).
Qed.

Lemma empty_request_size t c b p g : fits 1 t ->
  let m := MkFlowMod 0 0 t c 0 0 0 b p g 0 (MkMatch 1 []) [] in
  fits 1 c -> fits 4 b -> fits 4 p -> fits 4 g -> wf_FlowMod m /\ (lenN (enc_FlowMod m) <= 65527)%N.
Proof.
  intros Ht m Hc Hb Hp Hg.
  assert (W : wf_FlowMod m).
  { repeat split; try assumption; try reflexivity; repeat constructor. }
  split; [exact W|]. unfold lenN. rewrite (lays_length _ _ _ (flowmod_lays m W)). cbn. lia.
Qed.

(** C59: what the peer decodes from TableFlush removes exactly the entries of
    that table, of all tables for 255. *)
Theorem C59_table_flush : forall t s, fits 1 t ->
  exists e q r' b, wcalls (write_to sink (table_flush t)) = [e] /\ werr (write_to sink (table_flush t)) = None
    /\ receive (MkReader e s EOF false) = (inl q, r') /\ data r' = []
    /\ Header_Type (Request_Header q) = 14%N /\ Header_Version (Request_Header q) = 4%N
    /\ Request_Body q = BBuf b
    /\ forall old narrower, let r := dec_FlowMod old b in fail r = None
       /\ Match_Type (FlowMod_Match (val r)) = 1%N
       /\ forall x, deleted_by narrower (val r) x <-> (t = 255 \/ t = e_table x)%N.
Proof.
  intros t s Ht. destruct (empty_request_size t 3 4294967295 4294967295 4294967295 Ht) as [W L]; [reflexivity..|].
  destruct (flow_request_arrives _ s W L) as (e & q & r' & b & E1 & E2 & E3 & E4 & E5 & E6 & E7 & D).
  exists e, q, r', b. repeat (split; [assumption|]). intros old narrower r. unfold r. rewrite D.
  cbn [fail val]. split; [reflexivity|]. split; [reflexivity|]. intro x. unfold deleted_by. cbn.
  rewrite N.land_0_r. split; [tauto|]. intro T. repeat (split; [auto|]). intros y [].
Qed.
Print Assumptions C59_table_flush.

(** C59: FlowFlush removes those of them that the match covers. *)
Theorem C59_flow_flush : forall t m s, fits 1 t -> wf_Match m -> match_size m <= N.to_nat 65487 ->
  exists e q r' b, wcalls (write_to sink (flow_flush t m)) = [e] /\ werr (write_to sink (flow_flush t m)) = None
    /\ receive (MkReader e s EOF false) = (inl q, r') /\ data r' = []
    /\ Header_Type (Request_Header q) = 14%N /\ Header_Version (Request_Header q) = 4%N
    /\ Request_Body q = BBuf b
    /\ forall old narrower, let r := dec_FlowMod old b in fail r = None
       /\ FlowMod_Match (val r) = m
       /\ forall x, deleted_by narrower (val r) x
                    <-> (t = 255 \/ t = e_table x)%N /\ covered narrower (Match_Fields m) (e_fields x).
Proof.
  intros t m s Ht WM LM.
  assert (W : wf_FlowMod (flow_flush_mod t m)).
  { repeat split; try assumption; try reflexivity; try apply WM; repeat constructor. }
  assert (L : (lenN (enc_FlowMod (flow_flush_mod t m)) <= 65527)%N).
  { unfold lenN. rewrite (lays_length _ _ _ (flowmod_lays _ W)). cbn [flow_flush_mod FlowMod_Match FlowMod_Instructions].
    cbn [instructions_size map list_sum fold_right]. revert LM. generalize (match_size m). intros k LM. lia. }
  destruct (flow_request_arrives _ s W L) as (e & q & r' & b & E1 & E2 & E3 & E4 & E5 & E6 & E7 & D).
  exists e, q, r', b. repeat (split; [assumption|]). intros old narrower r. unfold r. rewrite D.
  cbn [fail val]. split; [reflexivity|]. split; [reflexivity|]. intro x. unfold deleted_by. cbn.
  rewrite N.land_0_r. tauto.
Qed.
Print Assumptions C59_flow_flush.

(** C59: FlowDrop adds the entry that drops what no other entry matches. *)
Theorem C59_flow_drop : forall t s, fits 1 t ->
  exists e q r' b, wcalls (write_to sink (flow_drop t)) = [e] /\ werr (write_to sink (flow_drop t)) = None
    /\ receive (MkReader e s EOF false) = (inl q, r') /\ data r' = []
    /\ Header_Type (Request_Header q) = 14%N /\ Header_Version (Request_Header q) = 4%N
    /\ Request_Body q = BBuf b
    /\ forall old, let r := dec_FlowMod old b in fail r = None
       /\ FlowMod_Table (val r) = t /\ drops_misses (val r).
Proof.
  intros t s Ht. destruct (empty_request_size t 0 4294967295 0 0 Ht) as [W L]; [reflexivity..|].
  destruct (flow_request_arrives _ s W L) as (e & q & r' & b & E1 & E2 & E3 & E4 & E5 & E6 & E7 & D).
  exists e, q, r', b. repeat (split; [assumption|]). intros old r. unfold r. rewrite D. repeat split.
Qed.
Print Assumptions C59_flow_drop.

Example C59_ex :
  let m := extended_match [match_eth_type 2048] in
  let e := MkEntry 7 99 [match_eth_type 2048; match_ip_proto 6] [1]%N [] in
  wf_Match m /\ match_size m = 16
  /\ deleted_by eq (flow_flush_mod 7 m) e /\ ~ deleted_by eq (flow_flush_mod 8 m) e
  /\ ~ deleted_by eq (flow_flush_mod 7 (extended_match [match_ip_proto 17])) e
  /\ concat (wcalls (write_to sink (table_flush 7)))
     = [x04; x0e; x00; x38; x00; x00; x00; x00] ++ zeros 16 ++ [x07; x03] ++ zeros 6
       ++ repeat xff 12 ++ zeros 4 ++ [x00; x01; x00; x04; x00; x00; x00; x00].
Proof.
  cbv zeta. split; [repeat split; try (cbn; lia); repeat constructor; cbn; auto; lia|]. split; [reflexivity|].
  split; [|split; [|split; [|vm_compute; reflexivity]]].
  - unfold deleted_by. cbn. repeat (split; [auto|]). intros x [<-|[]]. eexists. split; [left; reflexivity|reflexivity].
  - unfold deleted_by. cbn. intros (_ & [H|H] & _); discriminate H.
  - unfold deleted_by. cbn. intros (_ & _ & _ & _ & _ & H). destruct (H _ (or_introl eq_refl)) as (y & [H'|[H'|[]]] & E).
    + rewrite <- E in H'. vm_compute in H'. discriminate H'.
    + rewrite <- E in H'. vm_compute in H'. discriminate H'.
Qed.

(** ** NewFlowMod *)

(** C74: the message made for a packet-in takes its buffer and match, restricts
    deletions by nothing else, and asks for a removal message exactly when it
    does not delete.  No overlap check is asked for. *)
Theorem C74_for_packet : forall c p, let f := new_FlowMod c (Some p) in
  FlowMod_Command f = c /\ FlowMod_Buffer f = PacketIn_Buffer p /\ FlowMod_Match f = PacketIn_Match p
  /\ (N.testbit (FlowMod_Flags f) 0 = true <-> c <> 3 /\ c <> 4)%N
  /\ (forall i, (0 < i)%N -> N.testbit (FlowMod_Flags f) i = false)
  /\ FlowMod_Instructions f = [] /\ FlowMod_Priority f = 0%N /\ FlowMod_Table f = 0%N
  /\ forall narrower x, deleted_by narrower f x
       <-> (c = 3 /\ e_table x = 0)%N /\ covered narrower (Match_Fields (PacketIn_Match p)) (e_fields x).
Proof.
  intros c p f.
  assert (F : FlowMod_Flags f = (if (c =? 3)%N || (c =? 4)%N then 0 else 1)%N) by reflexivity.
  split; [reflexivity|]. split; [reflexivity|]. split; [reflexivity|]. rewrite F.
  split.
  { destruct (N.eqb_spec c 3) as [->|N3]; [cbn; split; [discriminate|tauto]|].
    destruct (N.eqb_spec c 4) as [->|N4]; [cbn; split; [discriminate|tauto]|]. cbn. tauto. }
  split.
  { intros i Hi. destruct ((c =? 3)%N || (c =? 4)%N); [apply N.bits_0|]. destruct i as [|i]; [discriminate Hi|]. reflexivity. }
  split; [reflexivity|]. split; [reflexivity|]. split; [reflexivity|]. intros narrower x. unfold deleted_by. cbn.
  rewrite N.land_0_r. split; [intuition congruence|]. intros [[-> ->] H]. tauto.
Qed.
Print Assumptions C74_for_packet.

(** C74: without a packet-in no buffer is named, but the match is of the
    deprecated type 0 (here for the bytes the peer sees), not of type 1, which is
    the only type of OpenFlow 1.3. *)
Theorem C74_without_packet : forall c, fits 1 c -> let f := new_FlowMod c None in
  FlowMod_Buffer f = 4294967295%N /\ Match_Fields (FlowMod_Match f) = []
  /\ exists pre, length pre = 40 /\ enc_FlowMod f = pre ++ [x00; x00; x00; x04; x00; x00; x00; x00].
Proof.
  intros c Hc f. split; [reflexivity|]. split; [reflexivity|].
  exists (firstn 40 (enc_FlowMod f)). split.
  - rewrite firstn_length. unfold f, new_FlowMod. unfold enc_FlowMod. cbn [concat FlowMod_Cookie].
    repeat rewrite app_length. unfold u64, u32, u16, u8, pad. rewrite !be_enc_length, !zeros_length. cbn [length]. lia.
  - rewrite <- (firstn_skipn 40 (enc_FlowMod f)) at 1. f_equal.
Qed.
Print Assumptions C74_without_packet.

Theorem C74_extensible_refuted : exists c, Match_Type (FlowMod_Match (new_FlowMod c None)) <> 1%N
  /\ Match_Type (FlowMod_Match (val (dec_FlowMod zero_FlowMod (enc_FlowMod (new_FlowMod c None))))) = 0%N.
Proof. exists 0%N. vm_compute. split; [discriminate|reflexivity]. Qed.
Print Assumptions C74_extensible_refuted.

Example C74_ex :
  let p := MkPacketIn 8 100 1 2 3 (extended_match [match_in_port 4]) [] in
  FlowMod_Flags (new_FlowMod 0 (Some p)) = 1%N /\ FlowMod_Flags (new_FlowMod 4 (Some p)) = 0%N
  /\ FlowMod_Buffer (new_FlowMod 0 (Some p)) = 8%N.
Proof. vm_compute. repeat split; reflexivity. Qed.

(** ** Match fields *)

(** C75: each helper makes a field of the basic class that can be sent, and
    reading the field of the match the peer decodes gives back the number. *)
Definition made_by (mk : N -> XM) (t : N) (k : nat) : Prop := forall v, fits k v ->
  wf_XM (mk v)
  /\ laid_out (enc_XM (mk v)) (4 + k) [(0, Num 2 32768); (2, Num 1 (2 * t)); (3, Num 1 (N.of_nat k)); (4, Num k v)]
  /\ forall before after old tl, Forall wf_XM (before ++ mk v :: after) ->
     (N.of_nat (fields_size (before ++ mk v :: after)) < 65532)%N ->
     Forall (fun x => XM_Type x <> t) before ->
     let r := dec_Match old (enc_Match (extended_match (before ++ mk v :: after)) ++ tl) in
     fail r = None /\ rest r = tl /\ Match_Type (val r) = 1%N
     /\ exists x, match_field (val r) t = Some x /\ XM_Class x = 32768%N /\ XM_Mask x = []
                  /\ length (XM_Value x) = k /\ xm_uint k (XM_Value x) = v.

Lemma xm_uint_long k v : k <= length v -> xm_uint k v = be_dec (firstn k v).
Proof. intro H. unfold xm_uint, fu. rewrite take_long by exact H. reflexivity. Qed.

Lemma xm_uint_short k v : length v < k -> xm_uint k v = 0%N.
Proof. intro H. unfold xm_uint, fu. rewrite take_short by exact H. reflexivity. Qed.

Lemma find_first t l1 x l2 : XM_Type x = t -> Forall (fun x => XM_Type x <> t) l1 ->
  find (fun y => (XM_Type y =? t)%N) (l1 ++ x :: l2) = Some x.
Proof.
  intros E F. induction F as [|y l H F IH]; cbn [app find].
  - rewrite (proj2 (N.eqb_eq _ _) E). reflexivity.
  - rewrite (proj2 (N.eqb_neq _ _) H). exact IH.
Qed.

Lemma made_basic t k : (t < 128)%N -> k < 256 -> made_by (fun v => basic t (bytes_of k v) []) t k.
Proof.
  intros Ht Hk v Hv. unfold basic, bytes_of.
  assert (W : wf_XM (MkXM 32768 t (be_enc k v) [])).
  { repeat split; [exact Ht|left; reflexivity|]. cbn [XM_Value XM_Mask length]. rewrite be_enc_length. lia. }
  split; [exact W|]. split.
  - apply laid_out_intro.
    + repeat constructor.
    + cbn [tiles width Nat.add]. rewrite !Nat.eqb_refl. reflexivity.
    + rewrite enc_XM_eq by exact W. unfold has_mask. cbn [XM_Class XM_Type XM_Value XM_Mask map snd render concat length].
      rewrite be_enc_length, N.add_0_r, Nat.add_0_r, !app_nil_r. reflexivity.
  - intros before after old tl F S NB.
    assert (WM : wf_Match (extended_match (before ++ MkXM 32768 t (be_enc k v) [] :: after))).
    { split; [reflexivity|]. split; assumption. }
    pose proof (rt_Match _ WM old tl) as E. set (r := dec_Match _ _) in *. rewrite E. cbn [fail rest val]. split; [reflexivity|]. split; [reflexivity|]. split; [reflexivity|].
    exists (MkXM 32768 t (be_enc k v) []). split; [apply find_first; [reflexivity|exact NB]|].
    cbn [XM_Class XM_Type XM_Value XM_Mask]. split; [reflexivity|]. split; [reflexivity|].
    split; [apply be_enc_length|]. rewrite xm_uint_long by (rewrite be_enc_length; lia).
    rewrite firstn_all2 by (rewrite be_enc_length; lia). apply be_dec_enc_fits, Hv.
Qed.

Theorem C75_helpers :
  made_by match_in_port 0 4 /\ made_by match_eth_type 5 2 /\ made_by match_ip_proto 10 1
  /\ made_by match_icmpv6_type 29 1 /\ made_by match_ipv6_ext_header 39 2.
Proof. split; [|split; [|split; [|split]]]; apply made_basic; lia. Qed.
Print Assumptions C75_helpers.

(** C75: reading a number from a value takes its first bytes, and is silently 0
    for a value that is too short. *)
Theorem C75_read_number : forall k v,
  (k <= length v -> xm_uint k v = be_dec (firstn k v)) /\ (length v < k -> xm_uint k v = 0%N).
Proof. intros k v. exact (conj (xm_uint_long k v) (xm_uint_short k v)). Qed.
Print Assumptions C75_read_number.

Theorem C75_width_refuted : exists v, fits 2 v /\ (v <> 0)%N
  /\ xm_uint 4 (XM_Value (match_eth_type v)) = 0%N /\ xm_uint 1 (XM_Value (match_eth_type v)) <> v.
Proof. exists 2054%N. vm_compute. repeat split; discriminate. Qed.
Print Assumptions C75_width_refuted.

Example C75_ex :
  let m := extended_match [match_in_port 7; match_eth_type 2048; match_eth_type 2054] in
  wf_Match m /\ enc_XM (match_eth_type 2048) = [x80; x00; x0a; x02; x08; x00]
  /\ option_map (fun x => xm_uint 2 (XM_Value x)) (match_field (val (dec_Match zero_Match (enc_Match m))) 5) = Some 2048%N.
Proof.
  cbv zeta. split; [repeat split; try (cbn; lia); repeat constructor; cbn; auto; lia|]. vm_compute. split; reflexivity.
Qed.
