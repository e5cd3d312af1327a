(** C84: lists of port descriptions. *)
From Coq Require Import ZifyBool ZifyNat ZifyN.
From Verif Require Import PortsFacts.
Ltac Zify.zify_post_hook ::= Z.div_mod_to_equations.

(** The offsets at which a member of the protocol's port structure begins. *)
Definition port_offsets : list nat := [0; 4; 8; 14; 16; 32; 36; 40; 44; 48; 52; 56; 60].

Lemma boundary_offsets n : n < 64 -> boundary port_members n = true <-> In n port_offsets.
Proof.
  intro H.
  assert (B : forallb (fun n => Bool.eqb (boundary port_members n) (existsb (Nat.eqb n) port_offsets)) (seq 0 64) = true)
    by (vm_compute; reflexivity).
  assert (E : boundary port_members n = existsb (Nat.eqb n) port_offsets).
  { apply eqb_prop. pose proof (proj1 (forallb_forall _ _) B n) as Q. cbv beta in Q.
    apply Q, in_seq. lia. }
  rewrite E, existsb_exists. split.
  - intros (x & I1 & I2). apply Nat.eqb_eq in I2. subst x. exact I1.
  - intro I1. exists n. split; [exact I1|apply Nat.eqb_refl].
Qed.

Lemma slot_shown (inp : bytes) i : 64 * i + 64 <= length inp ->
  shown inp (port_layout (64 * i) (port_of (slot inp i))).
Proof.
  intro L. unfold slot, port_of, port_layout. rewrite !piece_skip.
  cbn [Port_PortNo Port_HWAddr Port_Name Port_Config Port_State Port_Curr Port_Advertised Port_Supported Port_Peer Port_CurrSpeed Port_MaxSpeed].
  show.
Qed.

(** What any sequence of bytes is read as. *)
Theorem C84_any_bytes : forall old (inp : bytes),
  let q := length inp / 64 in let r := length inp mod 64 in
  exists ps, length ps = q
    /\ (forall i p, nth_error ps i = Some p -> wf_Port p /\ shown inp (port_layout (64 * i) p))
    /\ (In r port_offsets -> dec_Ports old inp = Res (old ++ ps) (length inp) None [])
    /\ (~ In r port_offsets ->
          exists p, dec_Ports old inp = Res (old ++ ps ++ [p]) (length inp) (Some UnexpectedEOF) []).
Proof.
  intros old inp q r. exists (ports_of inp q). split; [|split].
  - unfold ports_of. rewrite map_length, seq_length. reflexivity.
  - intros i p H. unfold ports_of in H.
    assert (Hi : i < q).
    { assert (nth_error (map (fun i => port_of (slot inp i)) (seq 0 q)) i <> None) as Q by (rewrite H; discriminate); apply nth_error_Some in Q; rewrite map_length, seq_length in Q; exact Q. }
    rewrite nth_error_map in H.
    assert (N : nth_error (seq 0 q) i = Some i).
    { rewrite (nth_error_nth' _ 0) by (rewrite seq_length; exact Hi). rewrite seq_nth by exact Hi. reflexivity. }
    rewrite N in H. injection H as <-. split.
    + apply port_of_wf. unfold slot. rewrite skipn_length. unfold q in *. lia.
    + apply slot_shown. unfold q in *. lia.
  - unfold dec_Ports.
    destruct (ports_loop_eq q (S (length inp)) old inp) as [A B]; try (unfold q; lia).
    replace (length inp - 64 * q) with r in A, B by (unfold q, r; lia).
    assert (R : r < 64) by (unfold r; lia). pose proof (boundary_offsets r R) as BO. split; intro H.
    + apply A, BO, H.
    + apply B. destruct (boundary port_members r); [|reflexivity]. exfalso. apply H, BO. reflexivity.
Qed.
Print Assumptions C84_any_bytes.

Lemma loop_encoded : forall ports fuel old tl, Forall wf_Port ports -> length ports < fuel ->
  exists fuel', 0 < fuel' /\
    let r := ports_loop fuel' (old ++ map normal_port ports) tl in
    ports_loop fuel old (concat (map enc_Port ports) ++ tl)
    = Res (val r) (64 * length ports + cnt r) (fail r) (rest r).
Proof.
  intros ports fuel old tl W. revert fuel old. induction W as [|p ports Wp W IH]; intros fuel old F.
  - exists fuel. split; [exact F|]. cbn [map concat app length]. rewrite app_nil_r. cbv zeta.
    destruct (ports_loop fuel old tl). reflexivity.
  - destruct fuel as [|fuel]; [lia|]. cbn [length] in F.
    destruct (IH fuel (old ++ [normal_port p])) as (f' & P & E); [lia|].
    exists f'. split; [exact P|]. cbv zeta in *. rewrite ports_loop_S. cbn [map concat].
    rewrite <- app_assoc.
    assert (D : forall t, dec_Port zero_Port (enc_Port p ++ t) = Res (normal_port p) 64 None t)
      by (intro t; exact (roundtrip_all KPort p zero_Port t Wp)).
    rewrite D. cbn [fail val cnt rest]. cbv zeta. rewrite E. cbn [val cnt fail rest length].
    rewrite <- app_assoc. cbn [app]. f_equal. lia.
Qed.

Lemma encoded_length ps : Forall wf_Port ps -> length (concat (map enc_Port ps)) = 64 * length ps.
Proof.
  induction 1 as [|p ps Wp _ IH]; [reflexivity|]. cbn [map concat length]. rewrite app_length, IH.
  assert (LE : length (enc_Port p) = 64) by exact (proj1 (layout_all KPort p Wp)). lia.
Qed.

(** Encoded ports come back in order, after what the receiver already held. *)
Theorem C84_roundtrip : forall ports old, Forall wf_Port ports ->
  dec_Ports old (concat (map enc_Port ports)) = Res (old ++ map normal_port ports) (64 * length ports) None [].
Proof.
  intros ports old W. unfold dec_Ports.
  rewrite <- (app_nil_r (concat (map enc_Port ports))).
  destruct (loop_encoded ports (S (length (concat (map enc_Port ports) ++ []))) old [] W) as (f & P & E).
  { rewrite app_length, encoded_length by exact W. lia. }
  rewrite E. destruct f as [|f]; [lia|]. destruct (ports_loop_eq 0 (S f) (old ++ map normal_port ports) []) as [A _];
    [lia|cbn [length]; lia|cbn [length]; lia|]. rewrite A by reflexivity.
  cbn [val cnt fail rest length ports_of seq map]. rewrite app_nil_r. f_equal. lia.
Qed.
Print Assumptions C84_roundtrip.

(** A list cut between two members of a port is accepted without error: the
    ports before the cut are reported as if they were the whole list. *)
Theorem C84_cut : forall ports p n, Forall wf_Port ports -> wf_Port p -> In n port_offsets ->
  let inp := concat (map enc_Port ports) ++ firstn n (enc_Port p) in
  dec_Ports [] inp = Res (map normal_port ports) (length inp) None [].
Proof.
  intros ports p n W Wp H inp.
  assert (N : n < 64) by (cbn in H; lia).
  assert (LE : length (enc_Port p) = 64) by exact (proj1 (layout_all KPort p Wp)).
  assert (LF : length (firstn n (enc_Port p)) = n) by (rewrite firstn_length; lia).
  assert (LI : length inp = 64 * length ports + n) by (unfold inp; rewrite app_length, encoded_length by exact W; lia).
  unfold dec_Ports.
  destruct (loop_encoded ports (S (length inp)) [] (firstn n (enc_Port p)) W) as (f & P & E); [lia|].
  fold inp in E. rewrite E. cbn [app].
  destruct (ports_loop_eq 0 f (map normal_port ports) (firstn n (enc_Port p))) as [A _]; [lia|lia|lia|].
  rewrite A.
  - cbn [val cnt fail rest ports_of seq map]. rewrite app_nil_r, LF, LI. reflexivity.
  - rewrite LF. replace (n - 64 * 0) with n by lia. apply boundary_offsets; assumption.
Qed.
Print Assumptions C84_cut.

(** An all-zero port of legal shape. *)
Definition blank_port : Port := MkPort 0 (zeros 6) [] 0 0 0 0 0 0 0 0.

(** So truncated lists are not always reported. *)
Theorem C84_cut_reported_refuted : exists ports p n,
  Forall wf_Port ports /\ wf_Port p /\ 0 < n < 64 /\
  fail (dec_Ports [] (concat (map enc_Port ports) ++ firstn n (enc_Port p))) = None.
Proof.
  exists [blank_port], blank_port, 32.
  assert (W : wf_Port blank_port) by (repeat split; reflexivity).
  split; [repeat constructor; apply W|]. split; [exact W|]. split; [lia|].
  rewrite C84_cut; [reflexivity|repeat constructor; apply W|exact W|cbn; tauto].
Qed.
Print Assumptions C84_cut_reported_refuted.

(** Reading twice into one list keeps the first answer's ports in front. *)
Theorem C84_reuse : forall ports1 ports2, Forall wf_Port ports1 -> Forall wf_Port ports2 ->
  val (dec_Ports (val (dec_Ports [] (concat (map enc_Port ports1)))) (concat (map enc_Port ports2)))
  = map normal_port ports1 ++ map normal_port ports2.
Proof. intros p1 p2 W1 W2. rewrite (C84_roundtrip p1 [] W1). cbn [val app]. rewrite C84_roundtrip by exact W2. reflexivity. Qed.
Print Assumptions C84_reuse.

Example C84_ex :
  let one := MkPort 1 [x0a; x0b; x0c; x0d; x0e; x0f] [x65; x74; x68; x30] 0 4 0 0 0 0 1000 10000 in
  let two := MkPort 2 [x0a; x0b; x0c; x0d; x0e; x10] [x65; x74; x68; x31] 1 1 0 0 0 0 1000 10000 in
  let sent := enc_Port one ++ enc_Port two in
  let same a b := (Port_PortNo a, Port_HWAddr a, firstn 4 (Port_Name a), Port_State a)
                = (Port_PortNo b, Port_HWAddr b, Port_Name b, Port_State b) in
  wf_Port one /\ wf_Port two
  /\ map Port_PortNo (val (dec_Ports [] sent)) = [1; 2]%N
  /\ Forall2 same (val (dec_Ports [] sent)) [one; two]
  /\ (let r := dec_Ports [] (firstn 100 sent) in map Port_PortNo (val r) = [1]%N /\ fail r = None /\ cnt r = 100)
  /\ (let r := dec_Ports [] (firstn 101 sent) in map Port_PortNo (val r) = [1; 2]%N /\ fail r = Some UnexpectedEOF).
Proof.
  cbv zeta. split; [repeat split; reflexivity|]. split; [repeat split; reflexivity|].
  split; [vm_compute; reflexivity|]. split; [vm_compute; repeat constructor|].
  split; [split; [|split]; vm_compute; reflexivity|split; vm_compute; reflexivity].
Qed.
