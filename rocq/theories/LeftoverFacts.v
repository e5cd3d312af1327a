(** What failed reads of port descriptions, switch descriptions, action lists and
    table lists leave behind. *)
From Coq Require Import ZifyBool ZifyNat ZifyN.
From Verif Require Export LeftoverSteps.
Ltac Zify.zify_post_hook ::= Z.div_mod_to_equations.

Lemma val_Port old full n : val (dec_Port old (firstn n full))
  = set_Port_Name (fst (port_state old full n)) (snd (port_state old full n)).
Proof. unfold port_state. exact (val_dec_Port old (firstn n full)). Qed.

Ltac item_cases := repeat match goal with |- context [if ?c then _ else _] => destruct c end; reflexivity.

Ltac decide_arrived := repeat (apply (f_equal2 (@cons _)); [item_cases|]); reflexivity.

Lemma leftover_port : forall base old full n, length full = 64 -> n <= 64 ->
  port_layout base (val (dec_Port old (firstn n full)))
  = map (fun x => (base + fst x, snd x))
      (blend port_members n (port_layout 0 (val (dec_Port old full))) (port_layout 0 (wiped old))).
Proof.
  intros base old full n L H. rewrite <- (firstn_all full) at 2. rewrite L.
  rewrite !val_Port, !port_state_eq by lia.
  cbn [fst snd port_layout blend map wiped set_Port_Name set_Port_HWAddr Port_PortNo Port_HWAddr Port_Name
       Port_Config Port_State Port_Curr Port_Advertised Port_Supported Port_Peer Port_CurrSpeed Port_MaxSpeed Nat.add].
  repeat match goal with |- context [arrived port_members 64 ?o] =>
    change (arrived port_members 64 o) with true end. cbv iota.
  unfold port_layout.
  cbn [set_Port_Name Port_PortNo Port_HWAddr Port_Name
       Port_Config Port_State Port_Curr Port_Advertised Port_Supported Port_Peer Port_CurrSpeed Port_MaxSpeed].
  decide_arrived.
Qed.

Lemma leftover_status : forall d : step Port,
  (forall base old full n, length full = 64 -> n <= 64 ->
    port_layout base (val (d old (firstn n full)))
    = map (fun x => (base + fst x, snd x))
        (blend port_members n (port_layout 0 (val (d old full))) (port_layout 0 (wiped old)))) ->
  let ds := seqr [fu 1 set_PortStatus_Reason; fpad 7; sub PortStatus_Port set_PortStatus_Port d] in
  forall (old : PortStatus) full n, length full = 72 -> n < 72 ->
  layout KPortStatus (val (ds old (firstn n full)))
  = blend (members KPortStatus) n (layout KPortStatus (val (ds old full)))
      (layout KPortStatus (remainder KPortStatus n old)).
Proof.
  intros d leftover_port ds old full n L H. unfold ds. clear ds. rewrite <- (firstn_all full) at 2. rewrite L. unfold fu, fpad.
  rewrite !(val_take 1) by lia. rewrite !(val_take 7) by (rewrite skipn_length; lia).
  change (1 <=? 72) with true. change (7 <=? 72 - 1) with true. cbv iota.
  set (body := skipn 7 (skipn 1 full)).
  assert (LB : length body = 64) by (unfold body; rewrite !skipn_length; lia).
  assert (Last : forall s inp, val (seqr [sub PortStatus_Port set_PortStatus_Port d] s inp)
                 = set_PortStatus_Port (val (d (PortStatus_Port s) inp)) s).
  { intros s inp. cbn [seqr]. unfold sub. cbn [fail val].
    destruct (fail (d (PortStatus_Port s) inp)); reflexivity. }
  rewrite !Last. change (72 - 1 - 7) with 64.
  replace (firstn 64 body) with body by (rewrite <- LB; symmetry; apply firstn_all).
  destruct old as [rs p]. cbn [PortStatus_Port PortStatus_Reason set_PortStatus_Port set_PortStatus_Reason].
  cbn [layout members remainder PortStatus_Port PortStatus_Reason set_PortStatus_Port blend fst app].
  destruct (Nat.leb_spec 8 n) as [G|G].
  - assert (B1 : (1 <=? n) = true) by (apply Nat.leb_le; lia).
    assert (B2 : (7 <=? n - 1) = true) by (apply Nat.leb_le; lia).
    rewrite B1, B2. cbn [PortStatus_Port PortStatus_Reason set_PortStatus_Port set_PortStatus_Reason].
    rewrite (leftover_port 8 p body (n - 1 - 7) LB) by lia.
    set (new := val (d p body)). set (w := wiped p).
    assert (E : forall o, arrived (1 :: 7 :: port_members) n (8 + o) = arrived port_members (n - 1 - 7) o).
    { intro o. cbn [arrived]. rewrite B1, B2. cbn [andb].
      replace (8 + o <? 1) with false by (symmetry; apply Nat.ltb_ge; lia).
      replace (8 + o - 1 <? 7) with false by (symmetry; apply Nat.ltb_ge; lia). cbn [orb].
      replace (8 + o - 1 - 7) with o by lia. reflexivity. }
    assert (A0 : arrived (1 :: 7 :: port_members) n 0 = true) by (cbn [arrived]; rewrite B1; reflexivity).
    rewrite A0. cbn [port_layout blend fst map snd]. rewrite !E. cbn [Nat.add].
    decide_arrived.
  - assert (E : forall o, arrived (1 :: 7 :: port_members) n (8 + o) = false).
    { intro o. cbn [arrived].
      replace (8 + o <? 1) with false by (symmetry; apply Nat.ltb_ge; lia).
      replace (8 + o - 1 <? 7) with false by (symmetry; apply Nat.ltb_ge; lia). cbn [orb].
      replace (7 <=? n - 1) with false by (symmetry; apply Nat.leb_gt; lia). cbn [andb]. apply andb_false_r. }
    replace (7 <=? n - 1) with false by (symmetry; apply Nat.leb_gt; lia).
    cbn [port_layout blend fst]. rewrite !E. cbn [arrived].
    change (0 <? 1) with true. cbn [orb].
    destruct (1 <=? n); cbn [andb PortStatus_Port PortStatus_Reason set_PortStatus_Reason]; unfold port_layout;
      decide_arrived.
Qed.

Lemma leftover_port_status : forall (old : msg KPortStatus) full n, length full = 72 -> n < 72 ->
  layout KPortStatus (val (dec_PortStatus old (firstn n full)))
  = blend (members KPortStatus) n (layout KPortStatus (val (dec_PortStatus old full)))
      (layout KPortStatus (remainder KPortStatus n old)).
Proof. exact (leftover_status dec_Port leftover_port). Qed.

Lemma kind_cases k : k = KPort \/ k = KPortStatus \/ (k <> KPort /\ k <> KPortStatus).
Proof. destruct k; auto; right; right; split; discriminate. Qed.

Lemma leftover_all : forall k, k <> KDescription ->
  forall (old : msg k) full n, length full = size k -> n < size k ->
  layout k (val (dec k old (firstn n full)))
  = blend (members k) n (layout k (val (dec k old full))) (layout k (remainder k n old)).
Proof.
  intros k K old full n L H. destruct (kind_cases k) as [->|[->|[K1 K2]]].
  - cbn [size] in L, H. refine (eq_trans (leftover_port 0 old full n L _) _); [lia|].
    cbn [members layout remainder dec].
    match goal with |- map _ ?l = _ => refine (eq_trans (map_ext _ (fun x => x) _ l) (map_id l)) end.
    intros []. reflexivity.
  - apply leftover_port_status; assumption.
  - apply leftovers; assumption.
Qed.

Lemma keeps_snd {A B} : forall (fs : list (step A)) (s : A * B) inp,
  snd (val (seqr (map (sub fst (fun l s => (l, snd s))) fs) s inp)) = snd s.
Proof.
  induction fs as [|f fs IH]; intros s inp; [reflexivity|]. cbn [map seqr]. unfold sub at 1 2. cbn [fail].
  destruct (fail (f (fst s) inp)); [reflexivity|]. cbn [val]. rewrite IH. reflexivity.
Qed.

Lemma leftover_description : forall old inp, length inp < 1056 -> val (dec_Description old inp) = old.
Proof.
  intros old inp H. destruct (proj1 (fixed_all KDescription old inp) H) as (F & _ & _).
  cbn [dec] in F. unfold dec_Description in *.
  match goal with |- context [seqr ?l] => set (fs := l) in * end.
  assert (E : fs = map (sub fst (fun l (s : Description * Description) => (l, snd s)))
    [fbytes 256 set_Description_Manufacturer; fbytes 256 set_Description_Hardware;
     fbytes 256 set_Description_Software; fbytes 32 set_Description_SerialNum; fbytes 256 set_Description_Datapath])
    by reflexivity.
  rewrite E in *. clear E fs. match goal with |- context [map _ ?l] => generalize dependent l end.
  intros fs F. unfold with_local, andthen in *. cbn [val fail] in *.
  match goal with |- context [seqr ?l ?s inp] => pose proof (keeps_snd fs s inp) as K; destruct (seqr l s inp) as [v c e r] end.
  cbn [fail val] in *. destruct e as [e|]; [exact K|].
  exfalso. cbn in F. destruct F as [F|F]; discriminate F.
Qed.
