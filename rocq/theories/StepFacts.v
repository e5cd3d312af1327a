(** Evaluation of decoder combinators on outcomes already known. *)
From Verif Require Export FixedFacts.

Lemma andthen_ok {S} (a : step S) b s inp v n r :
  a s inp = Res v n None r ->
  andthen a b s inp = Res (val (b n v v r)) (n + cnt (b n v v r)) (fail (b n v v r)) (rest (b n v v r)).
Proof. intro E. unfold andthen. rewrite E. reflexivity. Qed.

Lemma andthen_err {S} (a : step S) b s inp v n e r :
  a s inp = Res v n (Some e) r -> andthen a b s inp = Res v n (Some e) r.
Proof. intro E. unfold andthen. rewrite E. reflexivity. Qed.

Lemma andthen_both {S} (a : step S) b s inp v n r v' n' e r' :
  a s inp = Res v n None r -> b n v v r = Res v' n' e r' -> andthen a b s inp = Res v' (n + n') e r'.
Proof. intros E E'. rewrite (andthen_ok _ _ _ _ _ _ _ E), E'. reflexivity. Qed.

Lemma with_local_eq {L S} (l : L) (f : step (L * S)) s inp v n e r :
  f (l, s) inp = Res v n e r -> with_local l f s inp = Res (snd v) n e r.
Proof. intro E. unfold with_local. rewrite E. reflexivity. Qed.

Lemma sub_eq {S A} (get : S -> A) set rd s inp v n e r :
  rd (get s) inp = Res v n e r -> sub get set rd s inp = Res (set v s) n e r.
Proof. intro E. unfold sub. rewrite E. reflexivity. Qed.

Lemma limited_eq {S} z (f : step S) s inp v n e r :
  f s (firstn (Z.to_nat z) inp) = Res v n e r ->
  limited z f s inp = Res v n e (r ++ skipn (Z.to_nat z) inp).
Proof. intro E. unfold limited. rewrite E. reflexivity. Qed.

Lemma finally_eq {S} (g : S -> S) f s inp v n e r :
  f s inp = Res v n e r -> finally g f s inp = Res (g v) n e r.
Proof. intro E. unfold finally. rewrite E. reflexivity. Qed.

Lemma seqr_ok {S} (f : step S) fs s inp v n r v' n' e r' :
  f s inp = Res v n None r -> seqr fs v r = Res v' n' e r' ->
  seqr (f :: fs) s inp = Res v' (n + n') e r'.
Proof. intros E E'. cbn [seqr]. rewrite E. cbn [fail val rest cnt]. rewrite E'. reflexivity. Qed.

Lemma seqr_err {S} (f : step S) fs s inp v n e r :
  f s inp = Res v n (Some e) r -> seqr (f :: fs) s inp = Res v n (Some e) r.
Proof. intro E. cbn [seqr]. rewrite E. reflexivity. Qed.

Lemma take_short {S} k (upd : bytes -> S -> S) s inp : length inp < k ->
  take_full k upd s inp = Res s (length inp) (Some (match inp with [] => EOF | _ => UnexpectedEOF end)) [].
Proof. intro H. unfold take_full. destruct (Nat.ltb_spec (length inp) k); [reflexivity|lia]. Qed.

Lemma take_long {S} k (upd : bytes -> S -> S) s inp : k <= length inp ->
  take_full k upd s inp = Res (upd (firstn k inp) s) k None (skipn k inp).
Proof. intro H. unfold take_full. destruct (Nat.ltb_spec (length inp) k); [lia|reflexivity]. Qed.

Lemma res_eta {S} (r : res S) : r = Res (val r) (cnt r) (fail r) (rest r).
Proof. destruct r; reflexivity. Qed.
