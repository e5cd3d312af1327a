(** What failed reads leave behind. *)
From Coq Require Import ZifyBool ZifyNat ZifyN.
From Verif Require Export CutFacts ActionFacts TableFacts LeftoverSpec.
Ltac Zify.zify_post_hook ::= Z.div_mod_to_equations.

(** ** Sequences of members *)

Lemma val_take {St} w (upd : bytes -> St -> St) fs s n full : n <= length full ->
  val (seqr (take_full w upd :: fs) s (firstn n full))
  = if w <=? n then val (seqr fs (upd (firstn w full) s) (firstn (n - w) (skipn w full))) else s.
Proof.
  intro L. cbn [seqr]. unfold take_full. rewrite firstn_length_le by exact L.
  destruct (Nat.leb_spec w n) as [H|H].
  - replace (n <? w) with false by (symmetry; apply Nat.ltb_ge; lia). cbn [fail val rest].
    rewrite firstn_firstn, skipn_firstn_comm, Nat.min_l by lia. reflexivity.
  - replace (n <? w) with true by (symmetry; apply Nat.ltb_lt; lia). reflexivity.
Qed.

Lemma val_sub {St A} (get : St -> A) (set : A -> St -> St) w upd fs s n full : n <= length full ->
  val (seqr (sub get set (take_full w upd) :: fs) s (firstn n full))
  = if w <=? n then val (seqr fs (set (upd (firstn w full) (get s)) s) (firstn (n - w) (skipn w full)))
    else set (get s) s.
Proof.
  intro L. cbn [seqr]. unfold sub, take_full. rewrite firstn_length_le by exact L.
  destruct (Nat.leb_spec w n) as [H|H].
  - replace (n <? w) with false by (symmetry; apply Nat.ltb_ge; lia). cbn [fail val rest].
    rewrite firstn_firstn, skipn_firstn_comm, Nat.min_l by lia. reflexivity.
  - replace (n <? w) with true by (symmetry; apply Nat.ltb_lt; lia). reflexivity.
Qed.

Lemma val_nil {St} (s : St) inp : val (seqr [] s inp) = s.
Proof. reflexivity. Qed.

Ltac open_seq :=
  unfold fu, fus, fpad, fbytes;
  repeat first [ rewrite val_nil | rewrite val_take by (rewrite ?skipn_length; lia) ].

Ltac leaf :=
  cbn -[Nat.leb Nat.sub firstn skipn be_dec chunks map nthN];
  repeat match goal with B : (_ <=? _) = _ |- _ => rewrite B; clear B; cbn [andb] end; reflexivity.

Ltac leftover :=
  intros old full n L H; cbn [size] in L, H; cbn [dec members remainder];
  rewrite <- (firstn_all full) at 2; rewrite L;
  match goal with |- context [val (?d old _)] => unfold d end;
  open_seq; change (4 * 2) with 8; change (4 * 4) with 16;
  repeat match goal with |- context [?a <=? ?b] =>
    lazymatch b with context [n] => fail | _ => change (a <=? b) with true end end;
  cbv iota;
  repeat match goal with |- context [if ?c then _ else _] => destruct c eqn:?; [|leaf] end; leaf.

Lemma leftovers : forall k, k <> KPort -> k <> KPortStatus -> k <> KDescription ->
  forall (old : msg k) full n, length full = size k -> n < size k ->
  layout k (val (dec k old (firstn n full)))
  = blend (members k) n (layout k (val (dec k old full))) (layout k (remainder k n old)).
Proof.
  intros k K1 K2 K3. destruct k; try congruence.
  all: leftover.
Qed.

(** ** Port descriptions *)

Lemma val_slice {St A} (get : St -> A) (set : A -> St -> St) (gb : A -> bytes) sb w fs s n full :
  length (gb (get s)) = w -> n <= length full ->
  val (seqr (sub get set (fslice gb sb) :: fs) s (firstn n full))
  = if w <=? n then val (seqr fs (set (sb (firstn w full) (get s)) s) (firstn (n - w) (skipn w full)))
    else set (get s) s.
Proof.
  intros W L. rewrite <- (val_sub get set w sb fs s n full L). cbn [seqr]. unfold sub, fslice, fbytes.
  rewrite W. reflexivity.
Qed.

Lemma val_dec_Port old inp : val (dec_Port old inp)
  = let s := val (seqr [sub snd (fun p s => (fst s, p)) (fu 4 set_Port_PortNo); fpad 4;
               sub snd (fun p s => (fst s, p)) (fslice Port_HWAddr set_Port_HWAddr); fpad 2;
               fbytes 16 (fun b s => (b, snd s));
               sub snd (fun p s => (fst s, p)) (fu 4 set_Port_Config); sub snd (fun p s => (fst s, p)) (fu 4 set_Port_State);
               sub snd (fun p s => (fst s, p)) (fu 4 set_Port_Curr); sub snd (fun p s => (fst s, p)) (fu 4 set_Port_Advertised);
               sub snd (fun p s => (fst s, p)) (fu 4 set_Port_Supported); sub snd (fun p s => (fst s, p)) (fu 4 set_Port_Peer);
               sub snd (fun p s => (fst s, p)) (fu 4 set_Port_CurrSpeed); sub snd (fun p s => (fst s, p)) (fu 4 set_Port_MaxSpeed)]
               (zeros 16, set_Port_HWAddr (zeros 6) old) inp)
    in set_Port_Name (fst s) (snd s).
Proof. reflexivity. Qed.

Ltac concrete n :=
  repeat match goal with |- context [?a <=? ?b] =>
    lazymatch b with context [n] => fail | _ => change (a <=? b) with true end end; cbv iota.

Ltac open_port :=
  unfold fu, fpad, fbytes;
  rewrite val_sub by (rewrite ?skipn_length; lia); cbn [fst snd];
  rewrite val_take by (rewrite ?skipn_length; lia); cbn [fst snd];
  rewrite (val_slice _ _ _ _ 6) by first [reflexivity | rewrite ?skipn_length; lia]; cbn [fst snd];
  repeat (first [ rewrite val_nil | rewrite val_take by (rewrite ?skipn_length; lia)
               | rewrite val_sub by (rewrite ?skipn_length; lia) ]; cbn [fst snd]).

(** The state of the read after [n] bytes. *)
Definition port_state (old : Port) (full : bytes) (n : nat) : bytes * Port :=
  val (seqr [sub snd (fun p s => (fst s, p)) (fu 4 set_Port_PortNo); fpad 4;
               sub snd (fun p s => (fst s, p)) (fslice Port_HWAddr set_Port_HWAddr); fpad 2;
               fbytes 16 (fun b s => (b, snd s));
               sub snd (fun p s => (fst s, p)) (fu 4 set_Port_Config); sub snd (fun p s => (fst s, p)) (fu 4 set_Port_State);
               sub snd (fun p s => (fst s, p)) (fu 4 set_Port_Curr); sub snd (fun p s => (fst s, p)) (fu 4 set_Port_Advertised);
               sub snd (fun p s => (fst s, p)) (fu 4 set_Port_Supported); sub snd (fun p s => (fst s, p)) (fu 4 set_Port_Peer);
               sub snd (fun p s => (fst s, p)) (fu 4 set_Port_CurrSpeed); sub snd (fun p s => (fst s, p)) (fu 4 set_Port_MaxSpeed)]
               (zeros 16, set_Port_HWAddr (zeros 6) old) (firstn n full)).

Lemma port_state_eq : forall old full n, length full = 64 -> n <= 64 ->
  let num o w := be_dec (firstn w (skipn o full)) in
  let got o := arrived port_members n o in
  port_state old full n
  = (if got 16 then firstn 16 (skipn 16 full) else zeros 16,
     MkPort (if got 0 then num 0 4 else Port_PortNo old)
            (if got 8 then firstn 6 (skipn 8 full) else zeros 6) (Port_Name old)
            (if got 32 then num 32 4 else Port_Config old) (if got 36 then num 36 4 else Port_State old)
            (if got 40 then num 40 4 else Port_Curr old) (if got 44 then num 44 4 else Port_Advertised old)
            (if got 48 then num 48 4 else Port_Supported old) (if got 52 then num 52 4 else Port_Peer old)
            (if got 56 then num 56 4 else Port_CurrSpeed old) (if got 60 then num 60 4 else Port_MaxSpeed old)).
Proof.
  intros old full n L H. cbv zeta. unfold port_state. open_port.
  destruct old as [pn hw nm cf sa cu ad su pe cs ms].
  rewrite !skipn_skipn_add. cbn [Nat.add]. cbn -[Nat.leb Nat.sub firstn skipn be_dec zeros].
  repeat match goal with |- context [if ?c then _ else _] =>
    lazymatch c with _ && _ => fail | _ => destruct c eqn:?; cbn [andb]; [|reflexivity] end end. reflexivity.
Qed.
