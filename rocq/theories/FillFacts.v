(** Decoding messages of varying size from bytes that carry the items of their
    layout but anything in the padding. *)
From Coq Require Import Compare_dec ZifyBool ZifyNat ZifyN.
From Verif Require Export RelayFacts FlowFacts ListFacts RelaySpec.
From Verif Require RequestFacts.
Ltac Zify.zify_post_hook ::= Z.div_mod_to_equations.

(** ** Bytes that fill a table *)
Definition fills (i : item) (b : bytes) : Prop :=
  length b = width i /\ (padding i = false -> b = render i).

Inductive filled : list (nat * item) -> bytes -> Prop :=
| FilledNil : filled [] []
| FilledCons off i t b bs : fills i b -> filled t bs -> filled ((off, i) :: t) (b ++ bs).

Lemma carries_piece inp off i : good i -> off + width i <= length inp -> carries inp off i ->
  piece inp off (width i) = render i.
Proof.
  intros G L C. apply RequestFacts.nth_error_ext.
  - rewrite piece_length, render_length; auto.
  - intros p H. rewrite piece_length in H by exact L. rewrite piece_at by exact H.
    apply option_to_N_inj. rewrite (C p H), (render_byte i p G H). reflexivity.
Qed.

Lemma tiles_le t : forall from size, tiles from t size = true -> from <= size.
Proof.
  induction t as [|[off i] t IH]; intros from size T; cbn [tiles] in T.
  - apply Nat.eqb_eq in T. lia.
  - apply andb_prop in T. destruct T as [_ T]. apply IH in T. lia.
Qed.

Lemma shown_filled t inp : Forall (fun oi : nat * item => good (snd oi)) t -> shown inp t ->
  forall from, tiles from t (length inp) = true -> filled t (skipn from inp).
Proof.
  intros G SH. revert G. induction t as [|[off i] t IH]; intros G from T; cbn [tiles] in T.
  - apply Nat.eqb_eq in T. subst from. rewrite skipn_all. constructor.
  - apply andb_prop in T. destruct T as [O T]. apply Nat.eqb_eq in O. subst off.
    inversion G as [|? ? G1 G2]; subst. cbn [snd] in G1. pose proof (tiles_le _ _ _ T) as L.
    rewrite <- (firstn_skipn (width i) (skipn from inp)). rewrite skipn_skipn_add.
    constructor.
    + split; [rewrite firstn_length, skipn_length; lia|]. intro P. apply carries_piece; auto.
      apply SH; [left; reflexivity|exact P].
    + apply IH; auto. intros o j Hj. apply SH. right. exact Hj.
Qed.

(** Bytes that show everything a layout demands fill it. *)
Lemma lays_filled e size t inp : lays e size t -> length inp = size -> shown inp t -> filled t inp.
Proof. intros (G & T & _) <- SH. apply (shown_filled t inp G SH 0 T). Qed.

Lemma filled_app t u bs : filled (t ++ u) bs -> exists b1 b2, bs = b1 ++ b2 /\ filled t b1 /\ filled u b2.
Proof.
  revert bs. induction t as [|[off i] t IH]; intros bs F.
  - exists [], bs. split; [reflexivity|]. split; [constructor|exact F].
  - cbn [app] in F. inversion F as [|? ? ? b bs' Fi Ft]; subst.
    destruct (IH _ Ft) as (b1 & b2 & -> & F1 & F2). exists (b ++ b1), b2.
    split; [apply app_assoc|]. split; [constructor; assumption|exact F2].
Qed.

Lemma filled_cons off i t bs : filled ((off, i) :: t) bs ->
  exists b r, bs = b ++ r /\ fills i b /\ filled t r.
Proof. intro F. inversion F; subst. eauto. Qed.

Lemma filled_shift k t bs : filled (shift k t) bs -> filled t bs.
Proof.
  revert bs. induction t as [|[off i] t IH]; intros bs F; inversion F; subst; constructor; auto.
Qed.

Lemma filled_length t bs : filled t bs -> forall from size, tiles from t size = true -> length bs = size - from.
Proof.
  induction 1 as [|off i t b bs [Fl _] _ IH]; intros from size T; cbn [tiles] in T.
  - apply Nat.eqb_eq in T. cbn. lia.
  - apply andb_prop in T. destruct T as [_ T]. pose proof (tiles_le _ _ _ T) as L.
    rewrite app_length, Fl, (IH _ _ T). lia.
Qed.

Lemma filled_size e size t bs : lays e size t -> filled t bs -> length bs = size.
Proof. intros (_ & T & _) F. rewrite (filled_length t bs F 0 size T). lia. Qed.

(** A table without padding is filled by one byte string only. *)
Lemma filled_solid t bs : filled t bs -> Forall (fun oi : nat * item => padding (snd oi) = false) t ->
  bs = concat (map (fun oi => render (snd oi)) t).
Proof.
  induction 1 as [|off i t b bs [_ F] _ IH]; intro S; [reflexivity|].
  inversion S as [|? ? S1 S2]; subst. cbn [map concat snd] in *. rewrite (F S1), (IH S2). reflexivity.
Qed.

Lemma filled_oaa {A} (size : A -> nat) lay l : forall off bs,
  filled (one_after_another size lay off l) bs ->
  exists segs, bs = concat segs /\ Forall2 (fun a seg => filled (lay a) seg) l segs.
Proof.
  induction l as [|a l IH]; intros off bs F; cbn [one_after_another] in F.
  - inversion F; subst. exists []. split; [reflexivity|constructor].
  - destruct (filled_app _ _ _ F) as (b1 & b2 & -> & F1 & F2).
    destruct (IH _ _ F2) as (segs & -> & FS). exists (b1 :: segs).
    split; [reflexivity|]. constructor; [apply (filled_shift _ _ _ F1)|exact FS].
Qed.

(** ** Decoders on filled tables *)
Definition rtf {St} (f : step St) (t : list (nat * item)) (g : St -> St) : Prop :=
  forall bs, filled t bs -> rt f bs g.
Definition wholef {St} (f : step St) (t : list (nat * item)) (g : St -> St) : Prop :=
  forall bs, filled t bs -> whole f bs g.

Lemma rtf_fu {St} w (set : N -> St -> St) off n : fits w n -> rtf (fu w set) [(off, Num w n)] (set n).
Proof.
  intros F bs H. inversion H as [|? ? ? b r [_ Fi] Ft]; subst. inversion Ft; subst.
  rewrite (Fi eq_refl), app_nil_r. apply rt_fu, F.
Qed.

Lemma rtf_fpad {St} w off : rtf (fpad (S:=St) w) [(off, Zero w)] (fun s => s).
Proof.
  intros bs H. inversion H as [|? ? ? b r [L _] Ft]; subst. inversion Ft; subst.
  rewrite app_nil_r. apply rt_fpad, L.
Qed.

(** Skipping an item whatever it is. *)
Lemma rtf_skip {St} w off i : width i = w -> rtf (fpad (S:=St) w) [(off, i)] (fun s => s).
Proof.
  intros W bs H. inversion H as [|? ? ? b r [L _] Ft]; subst. inversion Ft; subst.
  rewrite app_nil_r. apply rt_fpad, L.
Qed.

Lemma rtf_sub {St A} (get : St -> A) (set : A -> St -> St) rd t (g : A -> A) :
  rtf rd t g -> rtf (sub get set rd) t (fun s => set (g (get s)) s).
Proof. intros H bs F. apply rt_sub, H, F. Qed.

Lemma rtf_shift {St} (f : step St) k t g : rtf f t g -> rtf f (shift k t) g.
Proof. intros H bs F. apply H, (filled_shift k), F. Qed.

Lemma rtf_nil {St} : rtf (seqr []) [] (fun s : St => s).
Proof. intros bs F. inversion F; subst. exact rt_nil. Qed.

Lemma rtf_app {St} (f : step St) fs t u g h :
  rtf f t g -> rtf (seqr fs) u h -> rtf (seqr (f :: fs)) (t ++ u) (fun s => h (g s)).
Proof.
  intros Hf Hs bs F. destruct (filled_app _ _ _ F) as (b1 & b2 & -> & F1 & F2). apply rt_cons; auto.
Qed.

Lemma rtf_step {St} (f : step St) fs oi u g h :
  rtf f [oi] g -> rtf (seqr fs) u h -> rtf (seqr (f :: fs)) (oi :: u) (fun s => h (g s)).
Proof. intros Hf Hs. apply (rtf_app f fs [oi] u); assumption. Qed.

Lemma rtf_one {St} (f : step St) t g : rtf f t g -> rtf (seqr [f]) t g.
Proof.
  intros H bs F. rewrite <- (app_nil_r bs). eapply rt_ext; [|apply rt_cons; [apply H, F|apply rt_nil]].
  reflexivity.
Qed.

Lemma wholef_app {St} (f : step St) fs t u g h :
  rtf f t g -> wholef (seqr fs) u h -> wholef (seqr (f :: fs)) (t ++ u) (fun s => h (g s)).
Proof.
  intros Hf Hs bs F. destruct (filled_app _ _ _ F) as (b1 & b2 & -> & F1 & F2). apply whole_cons; auto.
Qed.
Lemma wholef_step {St} (f : step St) fs oi u g h :
  rtf f [oi] g -> wholef (seqr fs) u h -> wholef (seqr (f :: fs)) (oi :: u) (fun s => h (g s)).
Proof. intros Hf Hs. apply (wholef_app f fs [oi] u); assumption. Qed.
Lemma wholef_one {St} (f : step St) t g : wholef f t g -> wholef (seqr [f]) t g.
Proof. intros H bs F. apply whole_one, H, F. Qed.
Lemma wholef_shift {St} (f : step St) k t g : wholef f t g -> wholef f (shift k t) g.
Proof. intros H bs F. apply H, (filled_shift k), F. Qed.
Lemma wholef_sub {St A} (get : St -> A) (set : A -> St -> St) rd t (g : A -> A) :
  wholef rd t g -> wholef (sub get set rd) t (fun s => set (g (get s)) s).
Proof. intros H bs F. apply whole_sub, H, F. Qed.
Lemma wholef_pre {St} (g0 : St -> St) f t g : wholef f t g -> wholef (pre g0 f) t (fun s => g (g0 s)).
Proof. intros H bs F. apply whole_pre, H, F. Qed.

Ltac fill_elem :=
  first [ apply rtf_fpad | apply rtf_fu; assumption | apply rtf_sub, rtf_fu; assumption
        | apply rtf_skip; reflexivity ].
Ltac fill_seq := repeat first [ apply rtf_nil | eapply rtf_step; [ solve [fill_elem] | ] ].
Ltac fill_whole := repeat (eapply wholef_step; [ solve [fill_elem] | ]).

(** ** Matches *)
Lemma xm_solid x : Forall (fun oi : nat * item => padding (snd oi) = false) (xm_layout x).
Proof. repeat constructor. Qed.
Lemma xm_filled x bs : wf_XM x -> filled (xm_layout x) bs -> bs = enc_XM x.
Proof. intros W F. rewrite (filled_solid _ _ F (xm_solid x)). symmetry. apply xm_render, W. Qed.

Lemma xms_filled l segs : Forall wf_XM l -> Forall2 (fun x seg => filled (xm_layout x) seg) l segs ->
  concat segs = concat (map enc_XM l).
Proof.
  intros W F. revert W. induction F as [|x seg l segs F _ IH]; intro W; [reflexivity|].
  inversion W as [|? ? W1 W2]; subst. cbn [concat map]. rewrite (IH W2), (xm_filled _ _ W1 F). reflexivity.
Qed.

Lemma match_filled m bs : wf_Match m -> filled (match_layout m) bs ->
  let n := 4 + fields_size (Match_Fields m) in
  exists junk, length junk = up8 n - n
    /\ bs = be_enc 2 (Match_Type m) ++ be_enc 2 (N.of_nat n) ++ concat (map enc_XM (Match_Fields m)) ++ junk.
Proof.
  intros (_ & WF & _) F n. unfold match_layout in F. fold n in F.
  destruct (filled_app _ _ _ F) as (h & r & -> & Fh & Fr).
  destruct (filled_app _ _ _ Fr) as (b & p & -> & Fb & Fp).
  rewrite (filled_solid _ _ Fh) by (repeat constructor). cbn [map snd render concat].
  destruct (filled_oaa _ _ _ _ _ Fb) as (segs & -> & FS). rewrite (xms_filled _ _ WF FS).
  inversion Fp as [|? ? ? j r [Lj _] Fn]; subst. inversion Fn; subst. cbn [width] in Lj.
  exists j. split; [exact Lj|]. rewrite app_nil_r, <- !app_assoc. cbn [app]. rewrite app_nil_r. reflexivity.
Qed.

Lemma rtf_Match m : wf_Match m -> rtf dec_Match (match_layout m) (fun _ => m).
Proof.
  intros W bs F. destruct (match_filled m bs W F) as (junk & LJ & ->).
  destruct W as (Ht & Hl & Hs). set (buf := concat (map enc_XM (Match_Fields m))).
  assert (LB : length buf = fields_size (Match_Fields m)) by (apply fields_length, Hl).
  set (n := 4 + fields_size (Match_Fields m)) in *.
  unfold dec_Match.
  replace (be_enc 2 (Match_Type m) ++ be_enc 2 (N.of_nat n) ++ buf ++ junk)
    with ((be_enc 2 (Match_Type m) ++ be_enc 2 (N.of_nat n) ++ []) ++ buf ++ junk)
    by (rewrite <- !app_assoc; reflexivity).
  eapply rt_ext; cycle 1.
  - apply rt_pre, rt_with_local. apply rt_andthen.
    + eapply rt_cons; [apply rt_sub, rt_fu; exact Ht|].
      eapply rt_cons; [apply rt_fu; unfold fits; change (256 ^ N.of_nat 2)%N with 65536%N; lia|apply rt_nil].
    + intros s. cbn [fst]. apply rt_sub. apply rt_andthen.
      * apply rt_limited; [|apply whole_sub, whole_read_all, Hl]. fold buf. lia.
      * intros s'. apply rt_fpad. rewrite LJ, up8_pad. f_equal. lia.
  - intros s. cbn. destruct m. reflexivity.
Qed.

(** ** Actions *)
Ltac open_filled F :=
  repeat match type of F with
  | filled (_ :: _) _ =>
      let b := fresh "b" in let r := fresh "r" in let L := fresh "L" in let E := fresh "E" in let F' := fresh "F" in
      inversion F as [|? ? ? b r [L E] F']; subst; clear F; rename F' into F; cbn [width padding render] in L, E;
      try (specialize (E eq_refl); subst b)
  | filled [] _ => inversion F; subst; clear F
  end.

Lemma denotes_filled a seg : wf_Action a -> filled (action_layout a) seg -> denotes a seg.
Proof.
  intros W F. pose proof (filled_size _ _ _ _ (action_lays a W) F) as LS.
  assert (T : num 0 2 seg = ofpat a).
  { unfold action_layout in F. inversion F as [|? ? ? b r [_ E] _]; subst. rewrite (E eq_refl). cbn [render].
    apply (num_here' [] 2 _ r); [reflexivity|reflexivity|]. destruct a; reflexivity. }
  split; [exact T|]. clear T.
  destruct a; cbn [wf_Action] in W; cbn [action_size] in LS; try exact LS.
  1: { unfold action_layout in F. cbn [ofpat action_size] in F. open_filled F. split; [exact LS|].
       split; symmetry.
       - eapply (num_here' (be_enc 2 0 ++ be_enc 2 16)); [rewrite <- app_assoc; reflexivity|reflexivity|cbn; lia].
       - eapply (num_here' (be_enc 2 0 ++ be_enc 2 16 ++ be_enc 4 port)); [rewrite <- !app_assoc; reflexivity|reflexivity|cbn; lia]. }
  all: try (unfold action_layout in F; cbn [ofpat action_size] in F; open_filled F; split; [exact LS|]; symmetry;
            match goal with |- num 4 _ (be_enc 2 ?t ++ _) = _ =>
              eapply (num_here' (be_enc 2 t ++ be_enc 2 (N.of_nat 8))); [rewrite <- app_assoc; reflexivity|reflexivity|cbn; lia]
            end).
  pose proof W as (_ & _ & _ & Hs). pose proof (up8_ge (4 + xm_size field)) as U.
  assert (SZ : up8 (4 + xm_size field) < 272) by (unfold up8, xm_size in *; lia).
  unfold action_layout in F. destruct (filled_cons _ _ _ _ F) as (b & r & -> & [_ E] & F1).
  destruct (filled_cons _ _ _ _ F1) as (b' & r' & -> & [_ E'] & F2). rewrite (E eq_refl), (E' eq_refl) in *. clear E E'.
  destruct (filled_app _ _ _ F2) as (f1 & f2 & -> & G1 & G2).
  rewrite (xm_filled _ _ W (filled_shift _ _ _ G1)) in *. cbn [render action_size] in *.
  rewrite LS. split; [lia|]. split; [lia|]. split.
  - symmetry. rewrite N.mod_small by lia.
    eapply (num_here' (be_enc 2 (ofpat (ASetField field))) 2); [reflexivity|reflexivity|cbn [N.of_nat]; lia].
  - eexists; eexists. split; [|apply represents_enc, W].
    rewrite app_assoc. apply (skipn_app_exact (be_enc 2 _ ++ be_enc 2 _)).
Qed.

Lemma all_denote l segs : Forall wf_Action l -> Forall2 (fun a seg => filled (action_layout a) seg) l segs ->
  Forall2 denotes l segs.
Proof.
  intros W F. revert W. induction F as [|a seg l segs F _ IH]; intro W; constructor; inversion W; subst; auto.
  apply denotes_filled; assumption.
Qed.

Lemma wholef_Actions off l : Forall wf_Action l ->
  wholef dec_Actions (one_after_another action_size action_layout off l) (fun _ => l).
Proof.
  intros W bs F old. destruct (filled_oaa _ _ _ _ _ F) as (segs & -> & FS).
  rewrite <- (app_nil_r (concat segs)) at 1.
  rewrite (decode_end l _ [] old (all_denote _ _ W FS)) by (cbn; lia). reflexivity.
Qed.

(** ** Instructions *)
Lemma actions_filled_length off l bs : Forall wf_Action l ->
  filled (one_after_another action_size action_layout off l) bs -> length bs = actions_size l.
Proof.
  intros W F. pose proof (filled_length _ _ F) as L.
  assert (T : tiles off (one_after_another action_size action_layout off l) (off + actions_size l) = true).
  { apply oaa_tiles. intros a Ha. rewrite Forall_forall in W. apply (action_lays a (W a Ha)). }
  rewrite (L _ _ T). lia.
Qed.

Lemma rtf_instruction_actions t l : Forall wf_Action l -> (N.of_nat (actions_size l) < 65536)%N ->
  rtf dec_instruction_actions
    ((0, Num 2 t) :: (2, Num 2 (N.of_nat (8 + actions_size l))) :: (4, Zero 4)
     :: one_after_another action_size action_layout 8 l) (set_actions l).
Proof.
  intros W L bs F. set (h := N.of_nat (8 + actions_size l)) in *.
  change (filled ([(0, Num 2 t); (2, Num 2 h); (4, Zero 4)] ++ one_after_another action_size action_layout 8 l) bs) in F.
  destruct (filled_app _ _ _ F) as (b1 & b2 & -> & F1 & F2).
  assert (F1' : filled [(0, Num 2 t); (2, Num 2 (uwrap 2 h)); (4, Zero 4)] b1).
  { inversion F1 as [|? ? ? x r X Fx]; subst. inversion Fx as [|? ? ? y r' [LY EY] Fy]; subst.
    constructor; [exact X|]. constructor; [|exact Fy]. split; [exact LY|]. intros _. rewrite (EY eq_refl).
    cbn [render]. symmetry. apply be_enc_uwrap. }
  pose proof (actions_filled_length _ _ _ W F2) as L2.
  unfold dec_instruction_actions. eapply rt_ext; cycle 1.
  - apply rt_with_local, rt_andthen.
    + revert b1 F1' F F1. refine (fun b1 F1' _ _ => (_ : rtf _ _ _) b1 F1').
      eapply rtf_step; [apply rtf_skip; reflexivity|].
      eapply rtf_step; [apply rtf_fu, uwrap_fits|]. eapply rtf_step; [apply rtf_fpad|apply rtf_nil].
    + intros s. cbn [fst]. apply rt_limited; [|apply whole_sub, whole_sub, (wholef_Actions 8 l W), F2].
      rewrite L2. unfold uwrap, h. change (256 ^ N.of_nat 2)%N with 65536%N. lia.
  - intros s. cbn [fst snd]. reflexivity.
Qed.

Lemma fits8_intro n : (n < 18446744073709551616)%N -> fits 8 n.
Proof. exact (fun H => H). Qed.

Lemma by_rtf {St} (f : step St) t g bs s tl v : rtf f t g -> filled t bs -> g s = v ->
  f s (bs ++ tl) = Res v (length bs) None tl.
Proof. intros H F <-. apply H, F. Qed.

Lemma filled_Instruction z i seg : wf_Instruction i -> instruction_type z = instruction_type i ->
  filled (instruction_layout i) seg -> forall tl, dec_Instruction z (seg ++ tl) = Res i (length seg) None tl.
Proof.
  intros W K F tl.
  destruct i; destruct z; try discriminate; cbn [wf_Instruction] in W; cbn [dec_Instruction];
    unfold instruction_layout in F; cbn [ofpit instruction_size] in F.
  - change (fits 1 table) in W. eapply by_rtf; [|exact F|]; [fill_seq|reflexivity].
  - destruct W as [W1 W2]. change (fits 8 metadata) in W1. change (fits 8 mask) in W2.
    eapply by_rtf; [|exact F|]; [fill_seq|reflexivity].
  - destruct W as [W1 W2]. rewrite (rtf_instruction_actions _ _ W1 W2 _ F). reflexivity.
  - destruct W as [W1 W2]. rewrite (rtf_instruction_actions _ _ W1 W2 _ F). reflexivity.
  - open_filled F. destruct b as [|b1 [|b2 [|b3 [|b4 [|]]]]]; try discriminate L1. reflexivity.
  - change (fits 4 meter) in W. eapply by_rtf; [|exact F|]; [fill_seq|reflexivity].
Qed.

Lemma whole_segments {A} (mk : N -> made A) (rd : step A) (l : list A) segs :
  Forall2 (fun a seg => exists z, mk (be_dec (firstn 2 seg)) = MkOk z /\ 2 <= length seg
                         /\ forall tl, rd z (seg ++ tl) = Res a (length seg) None tl) l segs ->
  whole (scan mk rd) (concat segs) (fun old => old ++ l).
Proof.
  intros F s. unfold scan.
  assert (G : forall fuel acc, length (concat segs) < fuel ->
    scan_loop fuel mk rd acc (concat segs) = Res (acc ++ l) (length (concat segs)) None []); [|apply G; lia].
  induction F as [|a seg l segs (z & Hmk & Hlen & Hrd) _ IH]; intros fuel acc Hf.
  - destruct fuel as [|fuel]; [cbn in Hf; lia|]. cbn. rewrite app_nil_r. reflexivity.
  - destruct fuel as [|fuel]; [lia|]. cbn [concat] in *. rewrite app_length in *. cbn [scan_loop].
    destruct (Nat.ltb_spec (length (seg ++ concat segs)) 2) as [H|H]; [rewrite app_length in H; lia|].
    assert (E : firstn 2 (seg ++ concat segs) = firstn 2 seg).
    { rewrite firstn_app. replace (2 - length seg) with 0 by lia. rewrite firstn_O, app_nil_r. reflexivity. }
    rewrite E, Hmk, !Hrd. cbn [fail val rest cnt]. rewrite IH by lia.
    cbn [fail val rest cnt]. rewrite <- app_assoc. reflexivity.
Qed.

Lemma make_instruction_filled i seg : filled (instruction_layout i) seg ->
  exists z, make_instruction (be_dec (firstn 2 seg)) = MkOk z /\ instruction_type z = instruction_type i.
Proof.
  intro F. unfold instruction_layout in F. inversion F as [|? ? ? b r [_ E] _]; subst. rewrite (E eq_refl).
  cbn [render]. rewrite firstn_app_len by apply be_enc_length.
  destruct i; eexists; split; reflexivity.
Qed.

Lemma wholef_Instructions off l : Forall wf_Instruction l ->
  wholef dec_Instructions (one_after_another instruction_size instruction_layout off l) (fun old => old ++ l).
Proof.
  intros W bs F. destruct (filled_oaa _ _ _ _ _ F) as (segs & -> & FS). apply whole_segments.
  clear F. revert W. induction FS as [|i seg l segs Fi _ IH]; intro W; constructor.
  - inversion W; subst. destruct (make_instruction_filled i seg Fi) as (z & M & K). exists z.
    split; [exact M|]. split.
    + rewrite (filled_size _ _ _ _ (instruction_lays i ltac:(assumption)) Fi). pose proof (instruction_size_8 i). lia.
    + apply filled_Instruction; assumption.
  - inversion W; subst. apply IH. assumption.
Qed.

(** ** Messages *)
Lemma rtf_ext {St} (f : step St) t g g' : (forall s, g s = g' s) -> rtf f t g -> rtf f t g'.
Proof. intros E H bs F. eapply rt_ext; [exact E|apply H, F]. Qed.
Lemma wholef_ext {St} (f : step St) t g g' : (forall s, g s = g' s) -> wholef f t g -> wholef f t g'.
Proof. intros E H bs F. eapply whole_ext; [exact E|apply H, F]. Qed.

Lemma rtf_with_local {L St} (l : L) (f : step (L * St)) t g :
  rtf f t g -> rtf (with_local l f) t (fun s => snd (g (l, s))).
Proof. intros H bs F. apply rt_with_local, H, F. Qed.
Lemma wholef_with_local {L St} (l : L) (f : step (L * St)) t g :
  wholef f t g -> wholef (with_local l f) t (fun s => snd (g (l, s))).
Proof. intros H bs F. apply whole_with_local, H, F. Qed.

(** The first table takes [n] bytes. *)
Lemma rtf_andthen {St} (a : step St) b n t u g h : (forall bs, filled t bs -> length bs = n) ->
  rtf a t g -> (forall s, rtf (b n (g s)) u h) -> rtf (andthen a b) (t ++ u) (fun s => h (g s)).
Proof.
  intros L Ha Hb bs F. destruct (filled_app _ _ _ F) as (b1 & b2 & -> & F1 & F2).
  apply rt_andthen; [apply Ha, F1|]. intro s. rewrite (L _ F1). apply Hb, F2.
Qed.
Lemma wholef_andthen {St} (a : step St) b n t u g h : (forall bs, filled t bs -> length bs = n) ->
  rtf a t g -> (forall s, wholef (b n (g s)) u h) -> wholef (andthen a b) (t ++ u) (fun s => h (g s)).
Proof.
  intros L Ha Hb bs F. destruct (filled_app _ _ _ F) as (b1 & b2 & -> & F1 & F2).
  apply whole_andthen; [apply Ha, F1|]. intro s. rewrite (L _ F1). apply Hb, F2.
Qed.
Lemma rtf_limited {St} z (f : step St) t g : (forall bs, filled t bs -> Z.to_nat z = length bs) ->
  wholef f t g -> rtf (limited z f) t g.
Proof. intros L H bs F. apply rt_limited; [apply L, F|apply H, F]. Qed.
Lemma wholef_readall {St} (set : bytes -> St -> St) off b :
  wholef (readall set) [(off, Raw (length b) b)] (set b).
Proof.
  intros bs F. rewrite (filled_solid _ _ F) by (repeat constructor). cbn [map snd render concat].
  rewrite app_nil_r. apply whole_readall.
Qed.

Lemma wholef_FlowMod m : wf_FlowMod m -> wholef dec_FlowMod (layout_FlowMod m) (fun _ => m).
Proof.
  unfold wf_FlowMod. intro W. split_wf W. eapply wholef_ext; cycle 1.
  - unfold dec_FlowMod, layout_FlowMod. apply wholef_pre. cbn [app]. fill_whole.
    eapply wholef_app; [apply rtf_shift, rtf_sub, rtf_Match; assumption|].
    apply wholef_one, wholef_shift, wholef_sub. apply wholef_Instructions. assumption.
  - intros []. destruct m. reflexivity.
Qed.

Lemma rtf_FlowRemoved m : wf_FlowRemoved m -> rtf dec_FlowRemoved (layout_FlowRemoved m) (fun _ => m).
Proof.
  unfold wf_FlowRemoved. intro W. split_wf W. eapply rtf_ext; cycle 1.
  - unfold dec_FlowRemoved, layout_FlowRemoved. cbn [app]. fill_seq.
    apply rtf_one, rtf_shift, rtf_sub, rtf_Match; assumption.
  - intros []. destruct m. reflexivity.
Qed.

Lemma rtf_FlowStatsRequest m : wf_FlowStatsRequest m ->
  rtf dec_FlowStatsRequest (layout_FlowStatsRequest m) (fun _ => m).
Proof.
  unfold wf_FlowStatsRequest. intro W. split_wf W. eapply rtf_ext; cycle 1.
  - unfold dec_FlowStatsRequest, layout_FlowStatsRequest. cbn [app]. fill_seq.
    apply rtf_one, rtf_shift, rtf_sub, rtf_Match; assumption.
  - intros []. destruct m. reflexivity.
Qed.

Lemma rtf_AggregateStatsRequest m : wf_AggregateStatsRequest m ->
  rtf dec_AggregateStatsRequest (layout_AggregateStatsRequest m) (fun _ => m).
Proof.
  unfold wf_AggregateStatsRequest. intro W. split_wf W. eapply rtf_ext; cycle 1.
  - unfold dec_AggregateStatsRequest, layout_AggregateStatsRequest. cbn [app]. fill_seq.
    apply rtf_one, rtf_shift, rtf_sub, rtf_Match; assumption.
  - intros []. destruct m. reflexivity.
Qed.

Lemma match_filled_length m bs : wf_Match m -> filled (match_layout m) bs -> length bs = match_size m.
Proof. intros W F. apply (filled_size _ _ _ _ (match_lays m W) F). Qed.

Lemma filled_fixed t bs n : filled t bs -> tiles 0 t n = true -> length bs = n.
Proof. intros F T. rewrite (filled_length t bs F 0 n T). lia. Qed.

Lemma wholef_PacketIn m : wf_PacketIn m -> wholef dec_PacketIn (layout_PacketIn m) (fun _ => m).
Proof.
  unfold wf_PacketIn. intro W. split_wf W.
  match goal with H : wf_Match _ |- _ => rename H into WM end.
  eapply wholef_ext; cycle 1.
  - unfold dec_PacketIn, layout_PacketIn. rewrite app_assoc. unfold shift at 2. cbn [map fst snd].
    match goal with |- wholef _ (?t ++ [?p; ?d]) _ =>
      replace (t ++ [p; d]) with ((t ++ [p]) ++ [d]) by (rewrite <- app_assoc; reflexivity) end.
    apply (wholef_andthen _ _ (16 + match_size (PacketIn_Match m) + 2)).
    + intros bs F. rewrite <- app_assoc in F.
      destruct (filled_app _ _ _ F) as (b1 & b2 & -> & F1 & F2).
      destruct (filled_app _ _ _ F2) as (b3 & b4 & -> & F3 & F4).
      rewrite !app_length, (filled_fixed _ _ 16 F1) by reflexivity.
      rewrite (match_filled_length _ _ WM (filled_shift _ _ _ F3)).
      inversion F4 as [|? ? ? b r [L _] FN]; subst. inversion FN; subst. rewrite app_nil_r, L. cbn [width]. lia.
    + rewrite <- app_assoc. cbn [app]. fill_seq.
      eapply rtf_app; [apply rtf_shift, rtf_sub, rtf_Match; assumption|]. fill_seq.
    + intros s. apply wholef_readall.
  - intros []. destruct m. reflexivity.
Qed.

(** A number that fits 16 bits, as its 16-bit conversion. *)
Lemma wrap_small n : (N.of_nat n < 65536)%N -> fits 2 (N.of_nat n).
Proof. exact (fun H => H). Qed.

Lemma wholef_PacketOut m : wf_PacketOut m -> wholef dec_PacketOut (layout_PacketOut m) (fun _ => m).
Proof.
  unfold wf_PacketOut. intros (W1 & W2 & WA & WS). eapply wholef_ext; cycle 1.
  - unfold dec_PacketOut, layout_PacketOut. cbv zeta. apply wholef_with_local.
    apply (wholef_andthen _ _ 16); [intros bs F; apply (filled_fixed _ _ 16 F); reflexivity| |].
    + eapply rtf_step; [apply rtf_sub, rtf_fu, W1|]. eapply rtf_step; [apply rtf_sub, rtf_fu, W2|].
      eapply rtf_step; [apply rtf_fu, WS|]. fill_seq.
    + intros s. cbn [fst snd]. unfold shift at 2. cbn [map fst snd].
      apply (wholef_andthen _ _ (actions_size (PacketOut_Actions m))).
      * intros bs F. apply (actions_filled_length 0 _ _ WA (filled_shift _ _ _ F)).
      * apply rtf_limited.
        -- intros bs F. rewrite (actions_filled_length 0 _ _ WA (filled_shift _ _ _ F)). lia.
        -- apply wholef_pre, wholef_sub, wholef_sub, wholef_shift, (wholef_Actions 0 _ WA).
      * intros s'. apply wholef_sub, wholef_readall.
  - intros []. destruct m. reflexivity.
Qed.

Lemma rtf_Bucket m : wf_Bucket m -> rtf dec_Bucket (bucket_layout m) (fun _ => m).
Proof.
  intros (W1 & W2 & W3 & WA & WS). eapply rtf_ext; cycle 1.
  - unfold dec_Bucket, bucket_layout. apply rtf_with_local.
    apply (rtf_andthen _ _ 16); [intros bs F; apply (filled_fixed _ _ 16 F); reflexivity| |].
    + eapply rtf_step; [apply rtf_fu, WS|]. fill_seq.
    + intros s. cbn [fst snd]. apply rtf_limited.
      * intros bs F. rewrite (actions_filled_length 0 _ _ WA (filled_shift _ _ _ F)).
        rewrite <- (uwrap2 (N.of_nat (bucket_size m)) WS) at 1. apply (sub16_limit _ 16), WS.
      * apply wholef_pre, wholef_sub, wholef_sub, wholef_shift, (wholef_Actions 0 _ WA).
  - intros []. destruct m. reflexivity.
Qed.

Lemma instructions_filled_length off l bs : Forall wf_Instruction l ->
  filled (one_after_another instruction_size instruction_layout off l) bs -> length bs = instructions_size l.
Proof.
  intros W F. pose proof (filled_length _ _ F) as L.
  assert (T : tiles off (one_after_another instruction_size instruction_layout off l) (off + instructions_size l) = true).
  { apply oaa_tiles. intros a Ha. rewrite Forall_forall in W. apply (instruction_lays a (W a Ha)). }
  rewrite (L _ _ T). lia.
Qed.

Lemma rtf_FlowStats m : wf_FlowStats m -> rtf dec_FlowStats (layout_FlowStats m) (fun _ => m).
Proof.
  unfold wf_FlowStats. intro W. split_wf W.
  match goal with H : (N.of_nat (flowstats_size m) < 65536)%N |- _ => rename H into WS end.
  match goal with H : wf_Match _ |- _ => rename H into WM end.
  match goal with H : Forall wf_Instruction _ |- _ => rename H into WI end.
  eapply rtf_ext; cycle 1.
  - unfold dec_FlowStats, layout_FlowStats. rewrite app_assoc. apply rtf_with_local.
    apply (rtf_andthen _ _ (48 + match_size (FlowStats_Match m))).
    + intros bs F. destruct (filled_app _ _ _ F) as (b1 & b2 & -> & F1 & F2).
      rewrite app_length, (filled_fixed _ _ 48 F1) by reflexivity.
      rewrite (match_filled_length _ _ WM (filled_shift _ _ _ F2)). reflexivity.
    + cbn [app]. eapply rtf_step; [apply rtf_fu, WS|]. fill_seq.
      apply rtf_one, rtf_shift, rtf_sub, rtf_sub, rtf_Match; assumption.
    + intros s. cbn [fst snd]. apply rtf_limited.
      * intros bs F. rewrite (instructions_filled_length 0 _ _ WI (filled_shift _ _ _ F)).
        unfold flowstats_size. lia.
      * apply wholef_pre, wholef_sub, wholef_sub, wholef_shift, (wholef_Instructions 0). assumption.
  - intros []. destruct m. reflexivity.
Qed.

(** ** Checking [shown] by computation *)
Definition carriesb (inp : bytes) (off : nat) (i : item) : bool :=
  forallb (fun p => match nth_error inp (off + p) with
                    | Some b => (Byte.to_N b =? item_byte i p)%N
                    | None => false
                    end) (seq 0 (width i)).
Definition shownb (inp : bytes) (t : list (nat * item)) : bool :=
  forallb (fun oi => padding (snd oi) || carriesb inp (fst oi) (snd oi)) t.

Lemma shownb_ok inp t : shownb inp t = true -> shown inp t.
Proof.
  intros H off i Hi P p Hp. unfold shownb in H. rewrite forallb_forall in H.
  specialize (H _ Hi). cbn [fst snd] in H. rewrite P in H. cbn [orb] in H.
  unfold carriesb in H. rewrite forallb_forall in H. specialize (H p). cbv beta in H.
  rewrite in_seq in H. specialize (H ltac:(lia)).
  destruct (nth_error inp (off + p)) as [b|]; [|discriminate H]. apply N.eqb_eq in H. cbn [option_map]. congruence.
Qed.
