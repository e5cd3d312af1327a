(** Proofs about the length fields of variable-size elements. *)
From Verif Require Export TableFacts.
Ltac Zify.zify_post_hook ::= Z.div_mod_to_equations.

Lemma num_here off w n (a b : bytes) : length a = off -> num off w (a ++ be_enc w n ++ b) = uwrap w n.
Proof.
  intro H. unfold num. rewrite skipn_app_len by exact H. rewrite firstn_app_len by apply be_enc_length.
  apply be_dec_enc.
Qed.

Lemma wrap16 n : uwrap 2 n = (n mod 65536)%N.
Proof. reflexivity. Qed.

Lemma wrap16_twice n : uwrap 2 (uwrap 2 n) = (n mod 65536)%N.
Proof. rewrite !wrap16. lia. Qed.

(** The length field of [e] at offset [off] says [n], up to 16 bits. *)
Definition says (off : nat) (e : bytes) (n : nat) : Prop := num off 2 e = (N.of_nat n mod 65536)%N.

Lemma says_concat off l1 l2 n e k : e = concat (l1 ++ u16 n :: l2) -> length (concat l1) = off ->
  uwrap 2 n = (N.of_nat k mod 65536)%N -> says off e k.
Proof.
  intros -> H E. unfold says. rewrite concat_app. cbn [concat]. unfold u16. rewrite num_here by exact H. exact E.
Qed.

Ltac len_simpl :=
  cbn [concat]; rewrite ?app_length; unfold u8, u16, u32, u64, pad;
  rewrite ?be_enc_length, ?zeros_length; cbn [length].

(** [off], pieces before the length field. *)
Ltac declared n :=
  match goal with |- says _ (concat ?l) _ =>
    let a := eval cbn [firstn] in (firstn n l) in
    let b := eval cbn [skipn] in (skipn n l) in
    match b with u16 ?x :: ?b' => apply (says_concat _ a b' x _ _ eq_refl); [len_simpl; reflexivity|] end
  end.

Lemma says_action a : says 2 (enc_Action a) (length (enc_Action a)).
Proof.
  destruct a; try (unfold says; vm_compute; reflexivity).
  cbn [enc_Action]. unfold enc_set_field. cbv zeta.
  set (b := enc_XM field ++ _). clearbody b. unfold action_header. rewrite <- app_assoc. unfold says.
  unfold u16 at 2. rewrite num_here by reflexivity. unfold u16. rewrite !app_length, !be_enc_length.
  rewrite wrap16_twice. f_equal. lia.
Qed.

Lemma says_instruction i : says 2 (enc_Instruction i) (length (enc_Instruction i)).
Proof.
  destruct i; try (unfold says; vm_compute; reflexivity); cbn [enc_Instruction]; unfold enc_instruction_actions; cbv zeta;
    declared 1; len_simpl; rewrite ?wrap16_twice, ?wrap16; lia.
Qed.

Lemma says_Bucket m : says 0 (enc_Bucket m) (length (enc_Bucket m)).
Proof.
  unfold enc_Bucket. cbv zeta. match goal with |- context [16 + length ?b] => set (B := b); clearbody B end.
  declared 0. len_simpl. rewrite wrap16_twice. lia.
Qed.

Lemma says_FlowStats m : says 0 (enc_FlowStats m) (length (enc_FlowStats m)).
Proof.
  unfold enc_FlowStats. cbv zeta. match goal with |- context [length ?b + 2] => set (B := b); clearbody B end.
  declared 0. len_simpl. rewrite wrap16_twice. lia.
Qed.

Lemma says_GroupDescStats m : says 0 (enc_GroupDescStats m) (length (enc_GroupDescStats m)).
Proof.
  unfold enc_GroupDescStats. cbv zeta. match goal with |- context [8 + length ?b] => set (B := b); clearbody B end.
  declared 0. len_simpl. rewrite wrap16_twice. lia.
Qed.

Lemma says_GroupStats m : says 0 (enc_GroupStats m) (length (enc_GroupStats m)).
Proof.
  unfold enc_GroupStats. cbv zeta. match goal with |- context [40 + length ?b] => set (B := b); clearbody B end.
  declared 0. len_simpl. rewrite wrap16_twice. lia.
Qed.

Lemma says_MeterConfig m : says 0 (enc_MeterConfig m) (length (enc_MeterConfig m)).
Proof.
  unfold enc_MeterConfig. cbv zeta. match goal with |- context [8 + length ?b] => set (B := b); clearbody B end.
  declared 0. len_simpl. rewrite wrap16_twice. lia.
Qed.

Lemma says_MeterStats m : says 4 (enc_MeterStats m) (length (enc_MeterStats m)).
Proof.
  unfold enc_MeterStats. cbv zeta. match goal with |- context [40 + length ?b] => set (B := b); clearbody B end.
  declared 1. len_simpl. rewrite wrap16_twice. lia.
Qed.

Lemma says_MeterBand x : says 2 (enc_MeterBand x) (length (enc_MeterBand x)).
Proof. destruct x; unfold says; vm_compute; reflexivity. Qed.

Lemma says_QueueProp x : says 2 (enc_QueueProp x) (length (enc_QueueProp x)).
Proof.
  destruct x; try (unfold says; vm_compute; reflexivity). unfold enc_QueueProp. declared 1. len_simpl.
  rewrite wrap16_twice, wrap16. lia.
Qed.

Lemma says_PacketQueue m : says 8 (enc_PacketQueue m) (length (enc_PacketQueue m)).
Proof.
  unfold enc_PacketQueue. cbv zeta. match goal with |- context [length ?b + 16] => set (B := b); clearbody B end.
  declared 2. len_simpl. rewrite wrap16_twice. lia.
Qed.

Lemma says_HelloElem m : says 2 (enc_HelloElem m) (length (enc_HelloElem m)).
Proof.
  unfold enc_HelloElem. cbv zeta. declared 1. len_simpl. rewrite uarr_length, wrap16_twice. lia.
Qed.

Lemma says_TableFeatures m : says 0 (enc_TableFeatures m) (length (enc_TableFeatures m)).
Proof.
  unfold enc_TableFeatures. cbv zeta. match goal with |- context [64 + length ?b] => set (B := b); clearbody B end.
  declared 0. len_simpl. rewrite fixtext_length, wrap16_twice. lia.
Qed.

(** Elements whose length field does not count the padding. *)
Lemma pad_wrap n : pad_len (N.to_nat (uwrap 2 (N.of_nat n))) = pad_len n.
Proof. rewrite wrap16. unfold pad_len. lia. Qed.

Lemma up8_len n : n + pad_len n = up8 n.
Proof. pose proof (up8_ge n). rewrite <- up8_pad. lia. Qed.

Lemma says_Match m :
  let n := 4 + length (concat (map enc_XM (Match_Fields m))) in
  says 2 (enc_Match m) n /\ length (enc_Match m) = up8 n.
Proof.
  cbv zeta. unfold enc_Match. cbv zeta.
  match goal with |- context [length ?b + 4] => set (B := b); clearbody B end. rewrite (Nat.add_comm _ 4). split.
  - declared 1. rewrite wrap16_twice. reflexivity.
  - len_simpl. pose proof (up8_len (4 + length B)). lia.
Qed.

Lemma says_three t n (body : bytes) k : length body = n ->
  let e := concat [prop_header t (uwrap 2 (N.of_nat (4 + n))); body; pad k] in
  says 2 e (4 + n) /\ length e = 4 + n + k.
Proof.
  intros H. cbv zeta. split.
  - unfold prop_header. cbn [concat]. rewrite <- app_assoc. unfold says, u16 at 2.
    rewrite num_here by reflexivity. rewrite wrap16_twice. reflexivity.
  - unfold prop_header. len_simpl. lia.
Qed.

(** Entries without values in the field lists of a property. *)
Definition bare_fields (p : TableProp) : Prop := Forall (fun x => XM_Value x = [] /\ XM_Mask x = []) (get_xms p).

Lemma bare_fields_length l : Forall (fun x => XM_Value x = [] /\ XM_Mask x = []) l ->
  length (concat (map enc_XM l)) = 4 * length l.
Proof.
  induction 1 as [|x l [V M] _ IH]; [reflexivity|]. cbn [map concat length]. rewrite app_length, IH.
  unfold enc_XM. cbv zeta. rewrite V, M. len_simpl. lia.
Qed.

Lemma says_TableProp p : bare_fields p ->
  says 2 (enc_TableProp p) (prop_len p) /\ length (enc_TableProp p) = up8 (prop_len p).
Proof.
  intro W. rewrite <- (up8_len (prop_len p)).
  assert (X : forall t l, Forall (fun x => XM_Value x = [] /\ XM_Mask x = []) l ->
    says 2 (enc_prop_xm t l) (4 + 4 * length l)
    /\ length (enc_prop_xm t l) = 4 + 4 * length l + pad_len (4 + 4 * length l)).
  { intros t l H. apply says_three, bare_fields_length, H. }
  unfold enc_TableProp. cbv zeta. generalize (prop_type p) as t. intro t.
  assert (Y : forall t l, says 2 (enc_prop_actions t l) (4 + 4 * length l)
    /\ length (enc_prop_actions t l) = 4 + 4 * length l + pad_len (4 + 4 * length l)).
  { intros t' l. apply says_three, bare_length. }
  destruct p; unfold prop_len; unfold bare_fields in W; cbn [get_xms] in W.
  - unfold enc_prop_instructions. cbv zeta. rewrite pad_wrap. apply says_three, bare_length.
  - apply says_three. rewrite uarr_length. apply Nat.mul_1_l.
  - apply Y.
  - apply Y.
  - apply X, W.
  - apply X, W.
  - apply X, W.
  - apply X, W.
  - unfold enc_prop_experimenter. cbv zeta. rewrite pad_wrap.
    replace (4 + length d + 8) with (4 + (8 + length d)) by lia.
    match goal with |- says _ (concat [?h; ?a; ?b; ?c; ?q]) _ /\ _ =>
      replace (concat [h; a; b; c; q]) with (concat [h; a ++ b ++ c; q])
        by (cbn [concat]; rewrite !app_nil_r, <- !app_assoc; reflexivity) end.
    apply (says_three t (8 + length d)). len_simpl. lia.
Qed.

Lemma says_XM x : num 3 1 (enc_XM x) = (N.of_nat (length (XM_Value x) + length (XM_Mask x)) mod 256)%N
  /\ length (enc_XM x) = 4 + (length (XM_Value x) + length (XM_Mask x)).
Proof.
  unfold enc_XM. cbv zeta. split.
  - match goal with |- num _ _ (concat [?a; ?b; u8 ?n; ?d; ?e]) = _ =>
      replace (concat [a; b; u8 n; d; e]) with ((a ++ b) ++ be_enc 1 n ++ d ++ e)
        by (cbn [concat]; rewrite !app_nil_r, <- !app_assoc; reflexivity) end.
    rewrite num_here by reflexivity. unfold uwrap. change (256 ^ N.of_nat 1)%N with 256%N. lia.
  - len_simpl. lia.
Qed.
