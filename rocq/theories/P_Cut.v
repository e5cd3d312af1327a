(** C85: the error a truncated fixed-size message is reported with. *)
From Coq Require Import ZifyBool ZifyNat ZifyN.
From Verif Require Import CutFacts.

Lemma members_size k : total (members k) = size k.
Proof. destruct k; reflexivity. Qed.

(** The members fill the message, so the offsets below are all of it. *)
Theorem C85_members : forall k m, map fst (layout k m) = offsets 0 (map (fun x => width (snd x)) (layout k m))
  /\ incl (offsets 0 (members k)) (map fst (layout k m)).
Proof.
  intros k m. split; destruct k; try reflexivity;
    intros x H; cbn in H |- *; tauto.
Qed.
Print Assumptions C85_members.

(** Cut between two members, or empty: [io.EOF].  Cut inside a member:
    [io.ErrUnexpectedEOF].  Everything there was is consumed. *)
Theorem C85_cut : forall k (old : msg k) inp, length inp < size k ->
  let r := dec k old inp in
  cnt r = length inp /\ rest r = []
  /\ (In (length inp) (offsets 0 (members k)) -> fail r = Some EOF)
  /\ (~ In (length inp) (offsets 0 (members k)) -> fail r = Some UnexpectedEOF).
Proof.
  intros k old inp L r. destruct (proj1 (fixed_all k old inp) L) as (_ & C & R).
  assert (T : length inp < total (members k)) by (rewrite members_size; exact L).
  pose proof (cuts_all k old inp Logic.I T) as E.
  pose proof (offsets_boundary (members k) 0 (length inp)) as O.
  replace (length inp - 0) with (length inp) in O by lia. specialize (O ltac:(lia)).
  split; [exact C|]. split; [exact R|]. unfold r. rewrite E. unfold cut_error.
  destruct (boundary (members k) (length inp)); split; intro H; try reflexivity; exfalso.
  - apply H, O. reflexivity.
  - apply O in H. discriminate H.
Qed.
Print Assumptions C85_cut.

(** A message cut after some of its members is therefore reported exactly as if
    there had been no message at all: every kind has such cuts. *)
Theorem C85_partial_looks_absent : forall k (old : msg k), exists n, 0 < n < size k
  /\ forall inp, length inp = n -> fail (dec k old inp) = fail (dec k old []) /\ cnt (dec k old inp) = n.
Proof.
  intros k old.
  exists (nth 0 (members k) 0). split; [destruct k; vm_compute; split; repeat constructor|].
  intros inp L. assert (H : length inp < size k) by (rewrite L; destruct k; vm_compute; repeat constructor).
  destruct (C85_cut k old inp H) as (C & _ & E & _).
  destruct (C85_cut k old []) as (_ & _ & E0 & _); [destruct k; vm_compute; repeat constructor|].
  rewrite E by (rewrite L; destruct k; vm_compute; auto).
  rewrite E0 by (destruct k; vm_compute; auto). rewrite C. auto.
Qed.
Print Assumptions C85_partial_looks_absent.

(** "A partial message is reported as unexpected end" is false. *)
Theorem C85_partial_unexpected_refuted : exists k (old : msg k) inp,
  inp <> [] /\ length inp < size k /\ fail (dec k old inp) <> Some UnexpectedEOF.
Proof.
  exists KHeader, zero_Header, [x04; x05; x00; x08].
  split; [discriminate|]. split; [cbn; lia|]. vm_compute. discriminate.
Qed.
Print Assumptions C85_partial_unexpected_refuted.

Example C85_ex :
  let h := [x04; x05; x00; x08; x00; x00; x00; x2a] in
  map (fun n => fail (dec KHeader zero_Header (firstn n h))) [0; 1; 2; 3; 4; 5; 6; 7; 8]
  = [Some EOF; Some EOF; Some EOF; Some UnexpectedEOF; Some EOF; Some UnexpectedEOF; Some UnexpectedEOF;
     Some UnexpectedEOF; None]
  /\ Header_Type (val (dec KHeader zero_Header (firstn 4 h))) = 5%N.
Proof. vm_compute. split; reflexivity. Qed.
