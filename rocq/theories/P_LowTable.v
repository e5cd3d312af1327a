(** C117: a property with a length below its header inside the description of a table. *)
From Verif Require Import TableSpec TableFacts FeatCutFacts P_Low TruncFacts LowFacts TableModel FeatCutSpec WireSpec.

Lemma listed_kind t : In t [0; 1; 4; 5; 6; 7; 8; 10; 12; 13; 14; 15]%N -> exists z, make_prop t = MkOk z
  /\ ((exists c l, z = c l /\ lists_types c) \/ (exists c l, z = c l /\ lists_fields c)).
Proof.
  unfold lists_types, lists_fields. cbn [In].
  intros [<-|[<-|[<-|[<-|[<-|[<-|[<-|[<-|[<-|[<-|[<-|[<-|[]]]]]]]]]]]]]; eexists; (split; [reflexivity|]);
    first [left; do 2 eexists; (split; [reflexivity|]); exists false; tauto
          |right; do 2 eexists; (split; [reflexivity|]); first [left; reflexivity|right; left; reflexivity|right; right; exists false; tauto]].
Qed.

Lemma scan_last l1 b z : Forall wf_TableProp l1 -> 2 <= length b -> make_prop (be_dec (firstn 2 b)) = MkOk z ->
  let r := dec_TableProp z b in (fail r = None -> rest r = []) ->
  let s := scan make_prop dec_TableProp [] (concat (map enc_TableProp l1) ++ b) in
  val s = map prop_arrives l1 ++ [val r] /\ fail s = skip_eof (fail r) /\ rest s = [].
Proof.
  intros W L M r D. cbv zeta. unfold scan. pose proof (length_props l1) as P.
  rewrite (scan_loop_arrives make_prop dec_TableProp enc_TableProp prop_arrives l1 (props_in l1 W)) by (rewrite app_length; lia).
  cbv zeta. rewrite app_length. set (a := length (concat (map enc_TableProp l1))) in *.
  replace (S (a + length b) - length l1) with (S (S (a + length b - length l1 - 1))) by lia.
  generalize (a + length b - length l1 - 1) as fuel. intro fuel. remember (S fuel) as fuel'. cbn [scan_loop app].
  destruct (Nat.ltb_spec (length b) 2); [lia|]. rewrite M. fold r. cbv zeta.
  destruct (fail r) as [e|]; cbn [fail val rest]; [auto|]. rewrite (D eq_refl). subst fuel'. cbn. auto.
Qed.

(** C117: so a table that declares all its bytes, with such a property behind any
    others, is read without a report about it (unless what follows is reported already
    with the length 0, as a break inside the list): all that follows becomes this last
    property, which is the same whether 0, 1, 2 or 3 is declared. *)
Theorem C117_property_silent : forall old h l1 ph tl, length h = 64 -> length ph = 4 -> length tl <= 4096 ->
  Forall wf_TableProp l1 -> In (num 0 2 ph) [0; 1; 4; 5; 6; 7; 8; 10; 12; 13; 14; 15]%N ->
  let size := (64 + lenN (concat (map enc_TableProp l1)) + 4 + lenN tl)%N in (size < 65536)%N ->
  let r n := dec_TableFeatures old (declare 0 size h ++ concat (map enc_TableProp l1) ++ declare 2 n ph ++ tl) in
  exists m p e, TableFeatures_Properties m = map prop_arrives l1 ++ [p]
  /\ forall n, (n < 4)%N -> val (r n) = m /\ fail (r n) = e /\ rest (r n) = [].
Proof.
  intros old h l1 ph tl H Hp L W I size B. cbv zeta. destruct (features_declared old h H) as (nm & m & E).
  destruct (listed_kind _ I) as (z & M & K).
  pose proof (C117_property z ph tl Hp L K) as (_ & R0 & RN). cbv zeta in R0, RN.
  set (q := fun n => dec_TableProp z (declare 2 n ph ++ tl)) in *.
  assert (M' : forall n, 2 <= length (declare 2 n ph ++ tl) /\ make_prop (be_dec (firstn 2 (declare 2 n ph ++ tl))) = MkOk z
                         /\ length (declare 2 n ph ++ tl) = 4 + length tl).
  { intro n. clear -M Hp. do 4 (destruct ph as [|? ph]; [discriminate Hp|]). destruct ph; [|discriminate Hp].
    unfold declare. cbn [firstn skipn app]. rewrite be_enc_2. cbn [app firstn length]. split; [lia|]. split; [exact M|reflexivity]. }
  assert (Q : forall n, (n < 4)%N -> val (q n) = val (q 0%N) /\ skip_eof (fail (q n)) = skip_eof (fail (q 0%N)) /\ (fail (q n) = None -> rest (q n) = [])).
  { intros n Hn. destruct (N.eq_dec n 0) as [->|X]; [split; [reflexivity|split; [reflexivity|exact R0]]|].
    destruct (RN n ltac:(lia)) as [V F]. change (fail (q n) = match fail (q 0%N) with Some e => Some e | None => Some EOF end) in F.
    rewrite F. split; [exact V|]. destruct (fail (q 0%N)); split; first [reflexivity|discriminate]. }
  set (m0 := set_TableFeatures_Properties (map prop_arrives l1 ++ [val (q 0%N)]) (set_TableFeatures_Properties [] (set_TableFeatures_Name nm m))).
  exists m0, (val (q 0%N)), (skip_eof (fail (q 0%N))). split; [reflexivity|]. intros n Hn.
  destruct (M' n) as (L2 & Mk & Ln). destruct (Q n Hn) as (QV & QF & QR).
  pose proof (scan_last l1 _ z W L2 Mk QR) as S. cbv zeta in S. fold (q n) in S. rewrite QV, QF in S.
  set (b := concat (map enc_TableProp l1) ++ declare 2 n ph ++ tl) in *. destruct (scan make_prop dec_TableProp [] b) as [sv sc se sr] eqn:ES.
  cbn [val fail rest] in S. destruct S as (-> & -> & ->).
  assert (Lb : length b = length (concat (map enc_TableProp l1)) + (4 + length tl)) by (unfold b; rewrite app_length, Ln; reflexivity).
  assert (X : dec_TableFeatures old (declare 0 size h ++ b) = Res m0 (64 + sc) (skip_eof (fail (q 0%N))) []).
  { apply (with_local_eq _ _ _ _ ((size, nm), m0)). eapply (andthen_both _ _ _ _ _ 64); [apply E; exact B|].
    cbn [fst]. unfold pre. cbn [fst snd].
    set (k := Z.to_nat (Z.of_N size - Z.of_nat 64)). assert (Kk : k = length b) by (unfold k, size, lenN; lia).
    etransitivity; [apply limited_eq; eapply (sub_eq snd); eapply (sub_eq TableFeatures_Properties); fold k; rewrite Kk, firstn_all; exact ES|].
    fold k. rewrite Kk, skipn_all. reflexivity. }
  rewrite X. split; [|split]; reflexivity.
Qed.
Print Assumptions C117_property_silent.

Example C117_property_silent_ex :
  let b n := [x00; xff; x05] ++ zeros 61 ++ enc_TableProp (TNextTables false [7%N]) ++ declare 2 n [x00; x00; x00; x08]
             ++ [x00; x01; x00; x04] ++ enc_TableProp (TInstructions true [2%N]) in
  let r n := dec_TableFeatures zero_TableFeatures (declare 0 88 (firstn 64 (b n)) ++ skipn 64 (b n)) in
  fail (r 3%N) = None /\ TableFeatures_Properties (val (r 3%N)) = TableFeatures_Properties (val (r 0%N))
  /\ length (TableFeatures_Properties (val (r 3%N))) = 2.
Proof. split; [|split]; vm_compute; reflexivity. Qed.
