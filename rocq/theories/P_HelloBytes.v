(** C129: what every byte string is read as, for hello messages. *)
From Verif Require Import HelloModel EncodingFacts StepFacts InstructionFacts P_InstrList HelloBytesSpec.
Ltac Zify.zify_post_hook ::= Z.div_mod_to_equations.

Lemma make_elem t : make_hello_elem t = if (t =? 1)%N then MkOk zero_HelloElem else MkUnknown.
Proof. reflexivity. Qed.

Definition elem_room (b : bytes) : nat := N.to_nat ((num 2 2 b + 65532) mod 65536).

Lemma num22 b : 4 <= length b -> be_dec (skipn 2 (firstn 4 b)) = num 2 2 b.
Proof. intro L. do 4 (destruct b as [|? b]; [cbn in L; lia|]). reflexivity. Qed.

Lemma elem_eq z b : 4 <= length b ->
  exists f, dec_HelloElem z b
    = let r := fus 4 (N.to_nat ((num 2 2 b + 65532) mod 65536 / 4)) (fun l (s : N * HelloElem) => (fst s, MkHelloElem l)) f (firstn (elem_room b) (skipn 4 b)) in
      Res (snd (val r)) (4 + cnt r) (fail r) (rest r ++ skipn (elem_room b) (skipn 4 b)).
Proof.
  intro L. assert (Q : sub16 (num 2 2 b) 4 = ((num 2 2 b + 65532) mod 65536)%N).
  { unfold sub16. change (uwrap 2) with (fun x : N => (x mod 65536)%N). cbv beta. f_equal. lia. }
  assert (Z : Z.to_nat (Z.of_N (sub16 (num 2 2 b) 4)) = elem_room b) by (rewrite Q, <- Z_N_nat, N2Z.id; reflexivity).
  set (k := N.to_nat ((num 2 2 b + 65532) mod 65536 / 4)).
  exists (num 2 2 b, MkHelloElem (repeat 0%N k)). cbv zeta.
  destruct (fus 4 k (fun l (s : N * HelloElem) => (fst s, MkHelloElem l)) (num 2 2 b, MkHelloElem (repeat 0%N k)) (firstn (elem_room b) (skipn 4 b))) as [v n e r] eqn:E.
  assert (A : seqr [fbytes 4 (fun b (s : N * HelloElem) => (be_dec (skipn 2 b), snd s))] (0%N, z) b = Res (num 2 2 b, z) 4 None (skipn 4 b)).
  { etransitivity; [eapply seqr_ok; [unfold fbytes; apply take_long, L|reflexivity]|]. rewrite num22 by exact L. reflexivity. }
  unfold dec_HelloElem. rewrite (with_local_eq 0%N _ z b v (4 + n) e (r ++ skipn (elem_room b) (skipn 4 b))); [reflexivity|].
  eapply andthen_both; [exact A|]. cbn beta zeta. cbn [fst snd]. rewrite <- Z. apply limited_eq. unfold pre. cbn [fst snd]. rewrite Z, Q. exact E.
Qed.

Lemma elem_whole z b : 4 <= length b -> elem_size b <= length b ->
  fail (dec_HelloElem z b) = None /\ rest (dec_HelloElem z b) = skipn (elem_size b) b.
Proof.
  intros L S. destruct (elem_eq z b L) as [f ->]. cbv zeta. unfold elem_size in *. set (k := N.to_nat ((num 2 2 b + 65532) mod 65536 / 4)) in *.
  assert (K : 4 * k <= elem_room b) by (unfold k, elem_room; lia).
  unfold fus. rewrite take_long by (rewrite firstn_length, skipn_length; lia). cbn [fail rest]. split; [reflexivity|].
  transitivity (skipn (4 * k) (skipn 4 b)).
  - rewrite <- (firstn_skipn (elem_room b) (skipn 4 b)) at 3. rewrite skipn_app.
    destruct (Nat.le_gt_cases (elem_room b) (length (skipn 4 b))) as [R|R].
    + rewrite firstn_length, Nat.min_l by lia. replace (4 * k - elem_room b) with 0 by lia. reflexivity.
    + rewrite (skipn_all2 (n := elem_room b) (skipn 4 b)) by lia. now rewrite skipn_nil.
  - generalize (4 * k). intro n. clear. do 4 (destruct b as [|? b]; [now rewrite !skipn_nil|]). reflexivity.
Qed.

Lemma elem_cut z b : 4 <= length b < elem_size b -> fail (dec_HelloElem z b) = Some (if length b =? 4 then EOF else UnexpectedEOF).
Proof.
  intros [L S]. destruct (elem_eq z b L) as [f ->]. cbv zeta. unfold elem_size in *. set (k := N.to_nat ((num 2 2 b + 65532) mod 65536 / 4)) in *.
  assert (K : 4 * k <= elem_room b) by (unfold k, elem_room; lia).
  unfold fus. rewrite take_short by (rewrite firstn_length, skipn_length; lia). cbn [fail]. f_equal.
  rewrite firstn_all2 by (rewrite skipn_length; lia). clear - L. do 4 (destruct b as [|? b]; [cbn in L; lia|]). destruct b; reflexivity.
Qed.

Lemma elem_head z b : 2 <= length b < 4 -> fail (dec_HelloElem z b) = Some UnexpectedEOF.
Proof.
  intros [L H]. destruct b as [|x b]; [cbn in L; lia|]. unfold dec_HelloElem. erewrite with_local_eq; [reflexivity|]. apply andthen_err.
  apply seqr_err. unfold fbytes. rewrite take_short by exact H. reflexivity.
Qed.

Lemma elem_size_firstn n b : 4 <= n -> elem_size (firstn n b) = elem_size b.
Proof. intro L. unfold elem_size. rewrite num_firstn by lia. reflexivity. Qed.

Lemma hello_said : forall fuel acc b, length b < fuel -> hello_report b (fail (scan_loop fuel make_hello_elem dec_HelloElem acc b)).
Proof.
  induction fuel as [|fuel IH]; intros acc b H; [lia|]. rewrite scan_S. destruct (Nat.ltb_spec (length b) 2) as [L|L].
  { exists [], b. split; [reflexivity|]. split; [constructor|]. left. auto. }
  change (be_dec (firstn 2 b)) with (num 0 2 b). rewrite make_elem. destruct (N.eqb_spec (num 0 2 b) 1) as [K|K].
  2:{ exists [], b. split; [reflexivity|]. split; [constructor|]. right. left. auto. }
  cbv zeta. destruct (Nat.lt_ge_cases (length b) 4) as [F|F].
  { rewrite elem_head by lia. exists [], b. split; [reflexivity|]. split; [constructor|]. right. right. left. auto. }
  destruct (Nat.lt_ge_cases (length b) (elem_size b)) as [S|S].
  - rewrite elem_cut by lia. exists [], b. split; [reflexivity|]. split; [constructor|]. right. right. right.
    split; [lia|]. split; [exact K|]. destruct (length b =? 4); reflexivity.
  - destruct (elem_whole zero_HelloElem b F S) as [Fl R]. rewrite Fl, R. cbn [fail].
    assert (4 <= elem_size b) by (unfold elem_size; lia).
    destruct (IH (acc ++ [val (dec_HelloElem zero_HelloElem b)]) (skipn (elem_size b) b) ltac:(rewrite skipn_length; lia)) as (segs & t & E & Fa & C).
    exists (firstn (elem_size b) b :: segs), t. cbn [concat]. rewrite <- app_assoc, <- E, firstn_skipn. split; [reflexivity|]. split; [|exact C].
    constructor; [|exact Fa]. unfold whole_elem. rewrite firstn_length, num_firstn by lia. split; [lia|]. split; [exact K|].
    rewrite elem_size_firstn by lia. lia.
Qed.

Lemma elem_size_app seg x : 4 <= length seg -> elem_size (seg ++ x) = elem_size seg.
Proof. intro L. do 4 (destruct seg as [|? seg]; [cbn in L; lia|]). reflexivity. Qed.

Lemma hello_once b v : hello_report b v -> forall fuel acc, length b < fuel -> fail (scan_loop fuel make_hello_elem dec_HelloElem acc b) = v.
Proof.
  intros (segs & t & -> & F & C). induction F as [|seg segs (L & K & Z) _ IH]; intros fuel acc H; (destruct fuel as [|fuel]; [lia|]); rewrite scan_S.
  - cbn [concat app] in *. change (be_dec (firstn 2 t)) with (num 0 2 t). rewrite make_elem. destruct (Nat.ltb_spec (length t) 2) as [L|L].
    { destruct C as [[_ ->]|[C|[[C _]|[C _]]]]; [reflexivity|lia|lia|lia]. }
    destruct C as [[C _]|[(_ & U & ->)|[(C & K & ->)|(C & K & ->)]]]; [lia| | |].
    + destruct (N.eqb_spec (num 0 2 t) 1); [contradiction|reflexivity].
    + rewrite K. cbn [N.eqb Pos.eqb]. cbv zeta. rewrite elem_head by exact C. reflexivity.
    + rewrite K. cbn [N.eqb Pos.eqb]. cbv zeta. rewrite elem_cut by exact C. destruct (length t =? 4); reflexivity.
  - cbn [concat] in *. rewrite <- app_assoc in *. set (x := concat segs ++ t) in *. rewrite app_length in H.
    destruct (Nat.ltb_spec (length (seg ++ x)) 2) as [S|S]; [rewrite app_length in S; lia|].
    change (be_dec (firstn 2 (seg ++ x))) with (num 0 2 (seg ++ x)). rewrite num_app2 by lia. rewrite make_elem, K. cbn [N.eqb Pos.eqb]. cbv zeta.
    destruct (elem_whole zero_HelloElem (seg ++ x)) as [Fl R]; [rewrite app_length; lia|rewrite elem_size_app, app_length by lia; lia|].
    rewrite Fl, R. cbn [fail]. rewrite elem_size_app by lia.
    rewrite skipn_app, skipn_all2, <- Z, Nat.sub_diag by lia. cbn [app skipn]. apply IH. lia.
Qed.

(** C129: a byte string read as a hello: the report is exactly the one due to its elements,
    everything is taken, and the value is what it was before. *)
Theorem C129_hello : forall old inp, let r := dec_Hello old inp in
  val r = old /\ rest r = [] /\ forall v, hello_report inp v <-> v = fail r.
Proof.
  intros old inp. cbv zeta.
  assert (E : exists n, dec_Hello old inp = Res old n (fail (scan_loop (S (length inp)) make_hello_elem dec_HelloElem (Hello_Elements old) inp)) []).
  { pose proof (scan_rest make_hello_elem dec_HelloElem (S (length inp)) (Hello_Elements old) inp) as R.
    unfold dec_Hello, dec_HelloElems, lost, scan. cbn [seqr]. unfold sub. destruct (scan_loop _ _ _ _ _) as [v n e r]. cbn [rest] in R. subst r.
    destruct old as [l]. destruct e; eexists; reflexivity. }
  destruct E as [n ->]. cbn [val rest fail]. split; [reflexivity|]. split; [reflexivity|]. intro v. split.
  - intro R. symmetry. apply (hello_once _ _ R). lia.
  - intros ->. apply hello_said. lia.
Qed.
Print Assumptions C129_hello.

Example C129_hello_ex :
  let one := [x00; x01; x00; x08; x00; x00; x00; x12] in
  hello_report (one ++ [x00; x01; x00; x0c; x00]) (Some UnexpectedEOF)
  /\ dec_Hello (MkHello [MkHelloElem [5%N]]) (one ++ one) = Res (MkHello [MkHelloElem [5%N]]) 16 None []
  /\ fail (dec_Hello zero_Hello (one ++ [x00; x01; x00; x0c])) = None
  /\ fail (dec_Hello zero_Hello (one ++ [x00; x02])) = Some (EUnknown 2)
  (* a length below four wraps around *)
  /\ fail (dec_Hello zero_Hello ([x00; x01; x00; x03] ++ one)) = Some UnexpectedEOF.
Proof.
  cbv zeta. split; [|split; [vm_compute; reflexivity|split; [vm_compute; reflexivity|split; [vm_compute; reflexivity|]]]].
  - exists [[x00; x01; x00; x08; x00; x00; x00; x12]], [x00; x01; x00; x0c; x00]. split; [reflexivity|]. split.
    + constructor; [|constructor]. split; [cbn; lia|]. split; reflexivity.
    + right. right. right. split; [|split; reflexivity]. change (elem_size _) with 12. cbn. lia.
  - vm_compute. reflexivity.
Qed.
