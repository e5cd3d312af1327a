(** C67: what every byte string says as a list of instructions. *)
From Verif Require Import InstructionFacts InstrListSpec.
Ltac Zify.zify_post_hook ::= Z.div_mod_to_equations.

Lemma scan_rest {A} (mk : N -> made A) rd : forall fuel acc inp, rest (scan_loop fuel mk rd acc inp) = [].
Proof.
  induction fuel as [|f IH]; intros acc inp; [reflexivity|]. rewrite scan_S. destruct (length inp <? 2); [reflexivity|].
  destruct (mk _); try reflexivity. destruct (fail (rd a inp)); [reflexivity|]. cbn zeta. cbn [rest]. apply IH.
Qed.
Lemma actions_rest old reg : rest (dec_Actions old reg) = [].
Proof. unfold dec_Actions, pre, scan. apply scan_rest. Qed.

(** The report of [actions_end] is that of the decoder. *)
Lemma actions_verdict reg l v old : actions_end reg l v -> fail (dec_Actions old reg) = v.
Proof.
  intros (l0 & segs & b & -> & F & [(L & _ & ->)|[(L & U & N & _ & ->)|[(L & U & _ & ->)|(L & K & NC & _ & ->)]]]).
  - now rewrite (decode_end _ _ _ _ F L).
  - now rewrite (decode_unknown _ _ _ _ F L U N).
  - now rewrite (decode_panic _ _ _ _ F L U).
  - destruct (decode_cut _ _ _ old F (incomplete_stops b L K NC)) as (a & _ & _ & E). exact E.
Qed.

Lemma actions_said old reg : actions_end reg (val (dec_Actions old reg)) (fail (dec_Actions old reg)).
Proof.
  destruct (classification old reg) as (l & segs & b & -> & F & C). cbv zeta in C. exists l, segs, b. split; [reflexivity|]. split; [exact F|].
  destruct C as [C|[C|[C|(L & K & N & a & Ka & V & E)]]]; [tauto|tauto|tauto|]. right. right. right.
  split; [exact L|]. split; [exact K|]. split; [exact N|]. split; [exists a; tauto|exact E].
Qed.

(** An instruction with actions, whose first eight bytes are there. *)
Lemma actions_of z b : 8 <= length b ->
  let r := dec_Actions (get_actions z) (firstn (room b) (skipn 8 b)) in
  dec_instruction_actions z b = Res (set_actions (val r) z) (8 + cnt r) (fail r) (skipn (room b) (skipn 8 b)).
Proof.
  intro L. do 8 (destruct b as [|? b]; [cbn in L; lia|]). clear L. unfold room, num. cbn [skipn firstn]. cbv zeta.
  unfold dec_instruction_actions.
  assert (HD : seqr [fpad 2; fu 2 (fun v (s : N * Instruction) => (v, snd s)); fpad 4] (0%N, z) (b0 :: b1 :: b2 :: b3 :: b4 :: b5 :: b6 :: b7 :: b)
     = Res (be_dec [b2; b3], z) 8 None b) by reflexivity.
  rewrite (with_local_eq _ _ _ _ _ _ _ _ (andthen_ok _ _ _ _ _ _ _ HD)). cbn [fst snd].
  set (h := be_dec [b2; b3]). clearbody h. clear HD.
  assert (K : Z.to_nat (Z.of_N (uwrap 2 (h + 65528))) = N.to_nat ((h + 65528) mod 65536)).
  { unfold uwrap. change (256 ^ N.of_nat 2)%N with 65536%N. lia. }
  rewrite <- K. clear K. set (n := uwrap 2 (h + 65528)). clearbody n.
  pose proof (actions_rest (get_actions z) (firstn (Z.to_nat (Z.of_N n)) b)) as R.
  destruct (dec_Actions (get_actions z) (firstn (Z.to_nat (Z.of_N n)) b)) as [v c e rst] eqn:DA. cbn in R. subst rst.
  pose proof (sub_eq get_actions set_actions dec_Actions z _ _ _ _ _ DA) as HS.
  pose proof (sub_eq (snd (A:=N)) (fun x s => (fst s, x)) _ (h, z) _ _ _ _ _ HS) as HB.
  apply limited_eq in HB. rewrite HB. reflexivity.
Qed.

Definition made_of (t : N) : Instruction :=
  (if t =? 1 then IGotoTable 0 else if t =? 2 then IWriteMetadata 0 0 else if t =? 3 then IWriteActions []
   else if t =? 4 then IApplyActions [] else if t =? 5 then IClearActions else IMeter 0)%N.

Lemma make_known_instruction t : In t known_instructions -> make_instruction t = MkOk (made_of t) /\ ofpit (made_of t) = t.
Proof. cbn. intros [<-|[<-|[<-|[<-|[<-|[<-|[]]]]]]]; split; reflexivity. Qed.

Lemma ofpit_known i : In (ofpit i) known_instructions.
Proof. destruct i; cbn; tauto. Qed.

(** Splits [b] into bytes as far as its length is known. *)
Ltac split_bytes b := repeat match goal with
  | H : context [length b] |- _ => destruct b as [|? b]; cbn [length] in *; try (exfalso; lia)
  end.

Definition step_says (b : bytes) (r : res Instruction) : Prop :=
  (fail r = None /\ exists seg, b = seg ++ rest r /\ instructs (val r) seg)
  \/ (cut_instruction b (val r) (skip_eof (fail r)) /\ (fail r = None -> rest r = [])).

Lemma room_app seg tl : 4 <= length seg -> room (seg ++ tl) = room seg.
Proof. intro L. do 4 (destruct seg as [|? seg]; [cbn in L; lia|]). reflexivity. Qed.

Lemma acting_step b z (mk : list Action -> Instruction) t : 2 <= length b -> num 0 2 b = t ->
  (forall l, ofpit (mk l) = t) -> z = mk [] -> (mk = IApplyActions \/ mk = IWriteActions) ->
  step_says b (dec_instruction_actions z b).
Proof.
  intros L T O -> M. destruct (Nat.lt_ge_cases (length b) 8) as [H|H].
  - right. assert (V : val (dec_instruction_actions (mk []) b) = mk []
       /\ skip_eof (fail (dec_instruction_actions (mk []) b)) = cut_at [2; 4] b /\ fail (dec_instruction_actions (mk []) b) <> None).
    { clear T O M. do 2 (destruct b as [|? b]; [cbn in L; lia|]). clear L. do 6 (destruct b as [|? b]; [repeat split; discriminate|]). cbn in H. lia. }
    destruct V as (V1 & V2 & V3). rewrite V1, V2. split; [|intro; contradiction]. split; [exact L|]. split; [now rewrite O|].
    destruct M as [-> | ->]; left; auto.
  - pose proof (actions_of (mk []) b H) as E. cbv zeta in E. rewrite E. clear E.
    assert (G : get_actions (mk []) = []) by (destruct M as [-> | ->]; reflexivity). rewrite G.
    set (reg := firstn (room b) (skipn 8 b)). pose proof (actions_said [] reg) as A.
    assert (St : set_actions (val (dec_Actions [] reg)) (mk []) = mk (val (dec_Actions [] reg))) by (destruct M as [-> | ->]; reflexivity).
    rewrite St. clear St G. unfold step_says. cbn [fail val rest].
    destruct (dec_Actions [] reg) as [v c e rr]. cbn [fail val] in *.
    assert (Br : e <> None \/ length b < 8 + room b -> cut_instruction b (mk v) (skip_eof e)).
    { intro D. assert (SE : skip_eof e = e).
      { destruct A as (l0 & segs & bb & _ & _ & [A|[A|[A|A]]]); decompose [and] A; subst e; try reflexivity. destruct (accepted_cut bb); reflexivity. }
      rewrite SE. split; [exact L|]. split; [now rewrite O|]. destruct M as [-> | ->]; right; auto. }
    destruct (Nat.lt_ge_cases (length b) (8 + room b)) as [K|K].
    + right. split; [apply Br; now right|]. intros _. apply skipn_all2. rewrite skipn_length. lia.
    + destruct e as [e|]; [right; split; [apply Br; left; discriminate|discriminate]|]. left. split; [reflexivity|].
      exists (firstn (8 + room b) b). split.
      { rewrite <- (firstn_skipn (8 + room b) b) at 1. f_equal. clear. do 8 (destruct b as [|? b]; [now rewrite !skipn_nil|]). reflexivity. }
      assert (R : room (firstn (8 + room b) b) = room b).
      { rewrite <- (firstn_skipn (8 + room b) b) at 3. symmetry. apply room_app. rewrite firstn_length. lia. }
      split; [rewrite O, <- T; apply num_firstn; lia|].
      assert (S8 : skipn 8 (firstn (8 + room b) b) = reg) by (unfold reg; rewrite skipn_firstn_comm; f_equal; lia).
      destruct M as [-> | ->]; (split; [rewrite R, firstn_length; lia|]); rewrite S8; exact A.
Qed.

Lemma known_instruction_step b : 2 <= length b -> In (num 0 2 b) known_instructions ->
  step_says b (dec_Instruction (made_of (num 0 2 b)) b).
Proof.
  intros L K. cbn [known_instructions In] in K. destruct K as [K|[K|[K|[K|[K|[K|[]]]]]]]; symmetry in K; rewrite K.
  - change (made_of 1) with (IGotoTable 0). destruct (Nat.lt_ge_cases (length b) 8) as [H|H].
    + right. unfold cut_instruction. do 2 (destruct b as [|? b]; [cbn in L; lia|]). clear L.
      do 6 (destruct b as [|? b]; [cbn -[num]; repeat split; try lia; try discriminate; exact K|]). cbn in H. lia.
    + left. do 8 (destruct b as [|? b]; [cbn in H; lia|]). split; [reflexivity|]. exists [b0; b1; b2; b3; b4; b5; b6; b7].
      split; [reflexivity|]. split; [exact K|]. split; reflexivity.
  - change (made_of 2) with (IWriteMetadata 0 0). destruct (Nat.lt_ge_cases (length b) 24) as [H|H].
    + right. unfold cut_instruction. do 2 (destruct b as [|? b]; [cbn in L; lia|]). clear L.
      do 22 (destruct b as [|? b]; [cbn -[num]; repeat split; try lia; try discriminate; exact K|]). cbn in H. lia.
    + left. do 24 (destruct b as [|? b]; [cbn in H; lia|]). split; [reflexivity|].
      exists (firstn 24 [b0; b1; b2; b3; b4; b5; b6; b7; b8; b9; b10; b11; b12; b13; b14; b15; b16; b17; b18; b19; b20; b21; b22; b23]).
      split; [reflexivity|]. split; [exact K|]. split; [reflexivity|]. split; reflexivity.
  - exact (acting_step b _ IWriteActions 3 L K (fun _ => eq_refl) eq_refl (or_intror eq_refl)).
  - exact (acting_step b _ IApplyActions 4 L K (fun _ => eq_refl) eq_refl (or_introl eq_refl)).
  - change (made_of 5) with IClearActions. destruct (Nat.lt_ge_cases (length b) 8) as [H|H].
    + right. unfold cut_instruction. do 2 (destruct b as [|? b]; [cbn in L; lia|]). clear L.
      do 6 (destruct b as [|? b]; [cbn -[num]; repeat split; try lia; try discriminate; exact K|]). cbn in H. lia.
    + left. do 8 (destruct b as [|? b]; [cbn in H; lia|]). split; [reflexivity|]. exists [b0; b1; b2; b3; b4; b5; b6; b7].
      split; [reflexivity|]. split; [exact K|]. reflexivity.
  - change (made_of 6) with (IMeter 0). destruct (Nat.lt_ge_cases (length b) 8) as [H|H].
    + right. unfold cut_instruction. do 2 (destruct b as [|? b]; [cbn in L; lia|]). clear L.
      do 6 (destruct b as [|? b]; [cbn -[num]; repeat split; try lia; try discriminate; exact K|]). cbn in H. lia.
    + left. do 8 (destruct b as [|? b]; [cbn in H; lia|]). split; [reflexivity|]. exists [b0; b1; b2; b3; b4; b5; b6; b7].
      split; [reflexivity|]. split; [exact K|]. split; reflexivity.
Qed.

Lemma said : forall fuel acc inp, length inp < fuel ->
  let r := scan_loop fuel make_instruction dec_Instruction acc inp in
  exists l, val r = acc ++ l /\ instructions_end inp l (fail r).
Proof.
  induction fuel as [|fuel IH]; intros acc inp H; [lia|]. cbv zeta. rewrite scan_S. destruct (Nat.ltb_spec (length inp) 2) as [L|L].
  { exists []. cbn [val fail]. split; [now rewrite app_nil_r|]. exists [], [], inp. split; [reflexivity|]. split; [constructor|]. left. auto. }
  change (be_dec (firstn 2 inp)) with (num 0 2 inp).
  destruct (in_dec N.eq_dec (num 0 2 inp) known_instructions) as [K|K].
  2:{ rewrite make_instruction_unknown by exact K. exists []. cbn [val fail]. split; [now rewrite app_nil_r|]. exists [], [], inp.
      split; [reflexivity|]. split; [constructor|]. right. left. auto. }
  destruct (make_known_instruction _ K) as [-> _]. pose proof (progressing_Instruction (made_of (num 0 2 inp)) inp) as PR.
  destruct (known_instruction_step inp L K) as [(E & seg & Ei & In)|(B & R)];
    destruct (dec_Instruction (made_of (num 0 2 inp)) inp) as [v c e rr]; cbn [val fail rest cnt] in *.
  - subst e. cbv zeta. cbn [val fail]. specialize (PR eq_refl).
    destruct (IH (acc ++ [v]) rr ltac:(lia)) as (l & V & l0 & segs & b & Er & F & C). cbv zeta in V, C. exists (v :: l).
    split; [rewrite V, <- app_assoc; reflexivity|]. exists (v :: l0), (seg :: segs), b. cbn [concat]. rewrite <- app_assoc, <- Er.
    split; [exact Ei|]. split; [constructor; assumption|].
    destruct C as [(C1 & -> & C3)|[(C1 & C2 & -> & C4)|(i & C1 & ->)]]; [left; auto|right; left; auto|right; right; exists i; auto].
  - exists [v]. destruct e as [e|].
    + cbn [val fail]. split; [reflexivity|]. exists [], [], inp. split; [reflexivity|]. split; [constructor|]. right. right. exists v. auto.
    + specialize (R eq_refl). subst rr. cbv zeta. cbn [val fail]. destruct fuel as [|fuel]; [destruct inp; cbn in *; lia|]. rewrite scan_S. cbn [length Nat.ltb Nat.leb val fail].
      split; [reflexivity|]. exists [], [], inp. split; [reflexivity|]. split; [constructor|]. right. right. exists v. auto.
Qed.

Lemma num_app2 seg tl : 2 <= length seg -> num 0 2 (seg ++ tl) = num 0 2 seg.
Proof. intro L. do 2 (destruct seg as [|? seg]; [cbn in L; lia|]). reflexivity. Qed.

Lemma instructs_len i seg : instructs i seg -> 8 <= length seg.
Proof. intros [_ D]. destruct i; cbn in D; lia. Qed.

Lemma complete_step i seg tl : instructs i seg ->
  let r := dec_Instruction (made_of (ofpit i)) (seg ++ tl) in fail r = None /\ rest r = tl.
Proof.
  intro D. pose proof (instructs_len i seg D) as L8. destruct D as [_ D].
  assert (A : forall l z, get_actions z = [] -> length seg = 8 + room seg -> actions_end (skipn 8 seg) l None ->
    fail (dec_instruction_actions z (seg ++ tl)) = None /\ rest (dec_instruction_actions z (seg ++ tl)) = tl).
  { intros l z G LS AE. pose proof (actions_of z (seg ++ tl) ltac:(rewrite app_length; lia)) as E. cbv zeta in E. rewrite E. cbn [fail rest].
    rewrite room_app, G by lia. rewrite skipn_app, firstn_app, skipn_length.
    replace (8 - length seg) with 0 by lia. replace (room seg - (length seg - 8)) with 0 by lia. rewrite skipn_O, firstn_O, app_nil_r, firstn_all2 by (rewrite skipn_length; lia).
    split; [exact (actions_verdict _ _ _ [] AE)|]. rewrite skipn_app, skipn_length, skipn_all2 by (rewrite skipn_length; lia).
    replace (room seg - (length seg - 8)) with 0 by lia. reflexivity. }
  destruct i as [x|a m|l|l| |x]; cbv zeta.
  - destruct D as [L _]. do 8 (destruct seg as [|? seg]; [cbn in L; lia|]). destruct seg; [|cbn in L; lia]. split; reflexivity.
  - destruct D as [L _]. do 24 (destruct seg as [|? seg]; [cbn in L; lia|]). destruct seg; [|cbn in L; lia]. split; reflexivity.
  - destruct D. eapply (A l (IApplyActions [])); eauto.
  - destruct D. eapply (A l (IWriteActions [])); eauto.
  - do 8 (destruct seg as [|? seg]; [cbn in D; lia|]). destruct seg; [|cbn in D; lia]. split; reflexivity.
  - destruct D as [L _]. do 8 (destruct seg as [|? seg]; [cbn in L; lia|]). destruct seg; [|cbn in L; lia]. split; reflexivity.
Qed.

Lemma cut_instruction_step b i v : cut_instruction b i v ->
  let r := dec_Instruction (made_of (ofpit i)) b in skip_eof (fail r) = v /\ (fail r = None -> rest r = []).
Proof.
  intros (L & _ & D).
  assert (A : forall l z, get_actions z = [] -> (length b < 8 /\ l = [] /\ v = cut_at [2; 4] b)
      \/ (8 <= length b /\ actions_end (firstn (room b) (skipn 8 b)) l v /\ (v <> None \/ length b < 8 + room b)) ->
    skip_eof (fail (dec_instruction_actions z b)) = v /\ (fail (dec_instruction_actions z b) = None -> rest (dec_instruction_actions z b) = [])).
  { intros l z G [(H & _ & ->)|(H & AE & W)].
    - clear -L H. do 2 (destruct b as [|? b]; [cbn in L; lia|]). clear L. do 6 (destruct b as [|? b]; [split; [reflexivity|discriminate]|]). cbn in H. lia.
    - pose proof (actions_of z b H) as E. cbv zeta in E. rewrite E. cbn [fail rest]. rewrite G, (actions_verdict _ _ _ [] AE). split.
      + destruct AE as (l0 & segs & bb & _ & _ & [A|[A|[A|A]]]); decompose [and] A; subst v; try reflexivity. destruct (accepted_cut bb); reflexivity.
      + intros ->. destruct W as [W|W]; [congruence|]. apply skipn_all2. rewrite skipn_length. lia. }
  destruct i as [x|a m|l|l| |x]; cbv zeta.
  - destruct D as (H & -> & _). do 2 (destruct b as [|? b]; [cbn in L; lia|]). clear L. do 6 (destruct b as [|? b]; [split; [reflexivity|discriminate]|]). cbn in H. lia.
  - destruct D as (H & -> & _). do 2 (destruct b as [|? b]; [cbn in L; lia|]). clear L. do 22 (destruct b as [|? b]; [split; [reflexivity|discriminate]|]). cbn in H. lia.
  - apply (A l (IApplyActions [])); [reflexivity|exact D].
  - apply (A l (IWriteActions [])); [reflexivity|exact D].
  - destruct D as (H & ->). do 2 (destruct b as [|? b]; [cbn in L; lia|]). clear L. do 6 (destruct b as [|? b]; [split; [reflexivity|discriminate]|]). cbn in H. lia.
  - destruct D as (H & -> & _). do 2 (destruct b as [|? b]; [cbn in L; lia|]). clear L. do 6 (destruct b as [|? b]; [split; [reflexivity|discriminate]|]). cbn in H. lia.
Qed.

Lemma reported l0 segs : Forall2 instructs l0 segs -> forall fuel acc b v, length (concat segs ++ b) < fuel ->
  ((length b < 2 /\ v = None) \/ (2 <= length b /\ ~ In (num 0 2 b) known_instructions /\ v = Some (EUnknown (num 0 2 b)))
   \/ exists i, cut_instruction b i v) ->
  fail (scan_loop fuel make_instruction dec_Instruction acc (concat segs ++ b)) = v.
Proof.
  induction 1 as [|i seg l segs D _ IH]; intros fuel acc b v H C; (destruct fuel as [|fuel]; [lia|]); rewrite scan_S.
  - cbn [concat app] in *. change (be_dec (firstn 2 b)) with (num 0 2 b). destruct (Nat.ltb_spec (length b) 2) as [L|L].
    { destruct C as [[_ ->]|[C|[i [C _]]]]; [reflexivity|lia|lia]. }
    destruct C as [C|[(_ & U & ->)|(i & B)]]; [lia|now rewrite make_instruction_unknown by exact U|].
    pose proof (cut_instruction_step b i v B) as [E R]. destruct B as (_ & -> & _). destruct (make_known_instruction _ (ofpit_known i)) as [-> _].
    destruct (fail (dec_Instruction (made_of (ofpit i)) b)) eqn:EF; [exact E|]. rewrite (R eq_refl). cbv zeta. cbn [fail].
    destruct fuel; [lia|]. rewrite scan_S. cbn [length Nat.ltb Nat.leb fail]. exact E.
  - cbn [concat] in *. rewrite <- app_assoc in *. pose proof (instructs_len i seg D) as L8. rewrite app_length in H.
    destruct (Nat.ltb_spec (length (seg ++ concat segs ++ b)) 2) as [L|L]; [rewrite app_length in L; lia|].
    change (be_dec (firstn 2 (seg ++ concat segs ++ b))) with (num 0 2 (seg ++ concat segs ++ b)).
    rewrite num_app2 by lia. destruct (complete_step i seg (concat segs ++ b) D) as [E R]. destruct D as [-> _].
    destruct (make_known_instruction _ (ofpit_known i)) as [-> _]. rewrite E, R. cbv zeta. cbn [fail]. apply IH; [lia|exact C].
Qed.

(** C67: every byte string is a list of instructions in the sense of
    [instructions_end], and the decoder appends that list and makes that report. *)
Theorem C67_classification : forall old inp, let r := dec_Instructions old inp in
  exists l, val r = old ++ l /\ instructions_end inp l (fail r).
Proof. intros old inp. apply said. lia. Qed.
Print Assumptions C67_classification.

(** An apply-actions instruction whose declared length ends inside its only action, a
    meter, and a goto-table cut before its table. *)
Example C67_classification_ex :
  dec_Instructions [IClearActions] ([x00; x04; x00; x0c; x00; x00; x00; x00] ++ [x00; x00; x00; x10]
    ++ [x00; x06; x00; x08; x00; x00; x00; x09] ++ [x00; x01; x00; x08])
  = Res [IClearActions; IApplyActions [AOutput 0 0]; IMeter 9; IGotoTable 0] 24 None [].
Proof. vm_compute. reflexivity. Qed.

(** C67: and there is no other report any reading of the bytes could give. *)
Theorem C67_verdict : forall old inp l v, instructions_end inp l v -> fail (dec_Instructions old inp) = v.
Proof.
  intros old inp l v (l0 & segs & b & -> & F & C). unfold dec_Instructions, scan. apply (reported l0 segs F); [lia|].
  destruct C as [(C1 & _ & C2)|[(C1 & C2 & _ & C3)|(i & C & _)]]; eauto.
Qed.
Print Assumptions C67_verdict.

(** C67: it panics exactly if an apply or write instruction after complete
    instructions has, after complete actions in the room its length field leaves, a pop
    PBB action. *)
Theorem C67_panic_iff : forall old inp, fail (dec_Instructions old inp) = Some EPanic <->
  exists l segs b, inp = concat segs ++ b /\ Forall2 instructs l segs /\ 8 <= length b /\ (num 0 2 b = 3 \/ num 0 2 b = 4)%N
    /\ exists acts parts c, firstn (room b) (skipn 8 b) = concat parts ++ c /\ Forall2 denotes acts parts
       /\ 2 <= length c /\ num 0 2 c = 27%N.
Proof.
  intros old inp. split.
  - intro P. destruct (C67_classification old inp) as (l & _ & l0 & segs & b & E & F & C). cbv zeta in C. rewrite P in C.
    destruct C as [(_ & _ & C)|[(_ & _ & _ & C)|(i & (L & T & D) & _)]]; try discriminate. exists l0, segs, b.
    split; [exact E|]. split; [exact F|]. unfold cut_at in D.
    assert (A : forall acts, (length b < 8 /\ acts = [] /\ Some EPanic = (if existsb (Nat.eqb (length b)) [2; 4] then None else Some UnexpectedEOF))
        \/ (8 <= length b /\ actions_end (firstn (room b) (skipn 8 b)) acts (Some EPanic) /\ (Some EPanic <> None \/ length b < 8 + room b)) ->
      8 <= length b /\ exists acts parts c, firstn (room b) (skipn 8 b) = concat parts ++ c /\ Forall2 denotes acts parts
       /\ 2 <= length c /\ num 0 2 c = 27%N).
    { intros acts [(_ & _ & X)|(H & (a0 & parts & c & X1 & X2 & X3) & _)]; [now destruct (existsb (Nat.eqb (length b)) [2; 4])|]. split; [exact H|].
      exists a0, parts, c. split; [exact X1|]. split; [exact X2|].
      destruct X3 as [(_ & _ & X)|[(_ & _ & _ & _ & X)|[(Y & Z & _)|(_ & _ & _ & _ & X)]]]; try discriminate; [auto|].
      destruct (accepted_cut c); discriminate X. }
    destruct i as [x|a m|acts|acts| |x].
    + destruct D as (_ & D & _). now destruct (existsb (Nat.eqb (length b)) _).
    + destruct D as (_ & D & _). now destruct (existsb (Nat.eqb (length b)) _).
    + destruct (A acts D) as [H X]. split; [exact H|]. split; [now right|exact X].
    + destruct (A acts D) as [H X]. split; [exact H|]. split; [now left|exact X].
    + destruct D; discriminate.
    + destruct D as (_ & D & _). now destruct (existsb (Nat.eqb (length b)) _).
  - intros (l & segs & b & E & F & H & T & acts & parts & c & X1 & X2 & X3 & X4).
    assert (AE : actions_end (firstn (room b) (skipn 8 b)) acts (Some EPanic)) by (exists acts, parts, c; auto 10).
    destruct T as [T|T].
    + apply (C67_verdict old inp (l ++ [IWriteActions acts])). exists l, segs, b. split; [exact E|]. split; [exact F|]. right. right.
      exists (IWriteActions acts). split; [|reflexivity]. split; [lia|]. split; [exact T|]. right. split; [exact H|]. split; [exact AE|left; discriminate].
    + apply (C67_verdict old inp (l ++ [IApplyActions acts])). exists l, segs, b. split; [exact E|]. split; [exact F|]. right. right.
      exists (IApplyActions acts). split; [|reflexivity]. split; [lia|]. split; [exact T|]. right. split; [exact H|]. split; [exact AE|left; discriminate].
Qed.
Print Assumptions C67_panic_iff.

(** With length field 7 the room is all the rest. *)
Example C67_panic_iff_ex :
  fail (dec_Instructions [] ([x00; x03; x00; x07; x00; x00; x00; x00] ++ [x00; x12; x00; x08; x00; x00; x00; x00] ++ [x00; x1b])) = Some EPanic
  /\ fail (dec_Instructions [] ([x00; x03; x00; x08; x00; x00; x00; x00] ++ [x00; x12; x00; x08; x00; x00; x00; x00] ++ [x00; x1b])) = Some (EUnknown 18).
Proof. vm_compute. split; reflexivity. Qed.
