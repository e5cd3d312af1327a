(** Lemmas about the decoding combinators. *)
From Coq Require Import ZifyBool ZifyNat ZifyN.
From Verif Require Export BytesFacts Encoding.
Ltac Zify.zify_post_hook ::= Z.div_mod_to_equations.

(** [rt f bs g]: on an input starting with [bs], decoder [f] succeeds, consumes
    and reports exactly [bs] and transforms the receiver by [g]. *)
Definition rt {S} (f : step S) (bs : bytes) (g : S -> S) : Prop :=
  forall s tl, f s (bs ++ tl) = Res (g s) (length bs) None tl.

Lemma rt_take {S} k (upd : bytes -> S -> S) bs :
  length bs = k -> rt (take_full k upd) bs (upd bs).
Proof.
  intros Hl s tl. unfold take_full. rewrite app_length.
  destruct (Nat.ltb_spec (length bs + length tl) k) as [H|H]; [lia|].
  rewrite firstn_app_len, skipn_app_len by exact Hl. rewrite Hl. reflexivity.
Qed.

Lemma rt_fu {S} k (set : N -> S -> S) n :
  fits k n -> rt (fu k set) (be_enc k n) (set n).
Proof.
  intros H s tl. unfold fu. rewrite (rt_take k _ (be_enc k n)) by apply be_enc_length.
  rewrite be_dec_enc_fits by exact H. reflexivity.
Qed.

Lemma rt_fpad {S} k bs : length bs = k -> rt (fpad k) bs (fun s : S => s).
Proof. intro H. apply (rt_take k (fun _ s => s) bs H). Qed.

Lemma rt_zeros {S} k : rt (fpad k) (zeros k) (fun s : S => s).
Proof. apply rt_fpad, zeros_length. Qed.

Lemma chunks_uarr w l tl :
  map be_dec (chunks w (length l) (uarr w l ++ tl)) = map (uwrap w) l.
Proof.
  induction l as [|n l IH]; [reflexivity|].
  cbn [uarr map concat length chunks].
  change (concat (map (be_enc w) l)) with (uarr w l).
  rewrite <- app_assoc, firstn_app_len, skipn_app_len by apply be_enc_length.
  rewrite be_dec_enc, IH. reflexivity.
Qed.

Lemma uarr_length w l : length (uarr w l) = w * length l.
Proof.
  induction l as [|n l IH]; cbn [uarr map concat length]; [lia|].
  change (concat (map (be_enc w) l)) with (uarr w l).
  rewrite app_length, be_enc_length, IH. lia.
Qed.

Lemma rt_fus {S} w k (set : list N -> S -> S) l :
  length l = k -> Forall (fits w) l -> rt (fus w k set) (uarr w l) (set l).
Proof.
  intros Hk Hf s tl. unfold fus.
  rewrite (rt_take (w * k) _ (uarr w l)) by (rewrite uarr_length; lia).
  rewrite <- (app_nil_r (uarr w l)) at 1. rewrite <- Hk, chunks_uarr.
  f_equal. f_equal.
  rewrite <- (map_id l) at 2. apply map_ext_in. intros a Ha.
  apply uwrap_small. rewrite Forall_forall in Hf. auto.
Qed.

Lemma rt_nil {S} : rt (seqr []) [] (fun s : S => s).
Proof. intros s tl. reflexivity. Qed.

Lemma rt_cons {S} (f : step S) fs b bs g h :
  rt f b g -> rt (seqr fs) bs h -> rt (seqr (f :: fs)) (b ++ bs) (fun s => h (g s)).
Proof.
  intros Hf Hs s tl. cbn [seqr]. rewrite <- app_assoc, !Hf. cbn [fail val rest cnt].
  rewrite !Hs. cbn [fail val rest cnt]. rewrite app_length. reflexivity.
Qed.

Lemma rt_concat_nil {S} : rt (seqr []) (concat []) (fun s : S => s).
Proof. exact rt_nil. Qed.

Lemma rt_concat_cons {S} (f : step S) fs b bs g h :
  rt f b g -> rt (seqr fs) (concat bs) h ->
  rt (seqr (f :: fs)) (concat (b :: bs)) (fun s => h (g s)).
Proof. cbn [concat]. apply rt_cons. Qed.

Lemma rt_sub {S A} (get : S -> A) (set : A -> S -> S) rd bs (g : A -> A) :
  rt rd bs g -> rt (sub get set rd) bs (fun s => set (g (get s)) s).
Proof. intros H s tl. unfold sub. rewrite !H. reflexivity. Qed.

Lemma rt_andthen {S} (a : step S) b bs1 bs2 g h :
  rt a bs1 g ->
  (forall s, rt (b (length bs1) (g s)) bs2 h) ->
  rt (andthen a b) (bs1 ++ bs2) (fun s => h (g s)).
Proof.
  intros Ha Hb s tl. unfold andthen. rewrite <- app_assoc, !Ha. cbn [fail val rest cnt].
  rewrite !(Hb s). cbn [fail val rest cnt]. rewrite app_length. reflexivity.
Qed.

Lemma rt_with_local {L S} (l : L) (f : step (L * S)) bs g :
  rt f bs g -> rt (with_local l f) bs (fun s => snd (g (l, s))).
Proof. intros H s tl. unfold with_local. rewrite !H. reflexivity. Qed.

Lemma rt_pre {S} (g0 : S -> S) f bs g : rt f bs g -> rt (pre g0 f) bs (fun s => g (g0 s)).
Proof. intros H s tl. unfold pre. rewrite !H. reflexivity. Qed.

Lemma rt_ext {S} (f : step S) bs g g' : (forall s, g s = g' s) -> rt f bs g -> rt f bs g'.
Proof. intros E H s tl. rewrite H, E. reflexivity. Qed.

(** [whole f bs g]: decoder [f] given exactly [bs] (e.g. by a limited reader)
    succeeds and uses it up. *)
Definition whole {S} (f : step S) (bs : bytes) (g : S -> S) : Prop :=
  forall s, f s bs = Res (g s) (length bs) None [].

Lemma rt_whole {S} (f : step S) bs g : rt f bs g -> whole f bs g.
Proof. intros H s. rewrite <- (app_nil_r bs) at 1. apply H. Qed.

Lemma rt_limited {S} z (f : step S) bs g :
  Z.to_nat z = length bs -> whole f bs g -> rt (limited z f) bs g.
Proof.
  intros Hz H s tl. unfold limited. rewrite Hz, firstn_app_exact, skipn_app_exact, !H.
  reflexivity.
Qed.

Lemma whole_readall {S} (set : bytes -> S -> S) bs : whole (readall set) bs (set bs).
Proof. intros s. reflexivity. Qed.

Lemma whole_cons {S} (f : step S) fs b bs g h :
  rt f b g -> whole (seqr fs) bs h -> whole (seqr (f :: fs)) (b ++ bs) (fun s => h (g s)).
Proof.
  intros Hf Hs s. cbn [seqr]. rewrite !Hf. cbn [fail val rest cnt].
  rewrite !Hs. cbn [fail val rest cnt]. rewrite app_length. reflexivity.
Qed.

Lemma whole_one {S} (f : step S) bs g : whole f bs g -> whole (seqr [f]) bs g.
Proof.
  intros H s. cbn [seqr]. rewrite !H. cbn [fail val rest cnt]. rewrite Nat.add_0_r. reflexivity.
Qed.

Lemma whole_andthen {S} (a : step S) b bs1 bs2 g h :
  rt a bs1 g ->
  (forall s, whole (b (length bs1) (g s)) bs2 h) ->
  whole (andthen a b) (bs1 ++ bs2) (fun s => h (g s)).
Proof.
  intros Ha Hb s. unfold andthen. rewrite !Ha. cbn [fail val rest cnt].
  rewrite !(Hb s). cbn [fail val rest cnt]. rewrite app_length. reflexivity.
Qed.

Lemma whole_sub {S A} (get : S -> A) (set : A -> S -> S) rd bs (g : A -> A) :
  whole rd bs g -> whole (sub get set rd) bs (fun s => set (g (get s)) s).
Proof. intros H s. unfold sub. rewrite !H. reflexivity. Qed.

Lemma whole_with_local {L S} (l : L) (f : step (L * S)) bs g :
  whole f bs g -> whole (with_local l f) bs (fun s => snd (g (l, s))).
Proof. intros H s. unfold with_local. rewrite !H. reflexivity. Qed.

Lemma whole_pre {S} (g0 : S -> S) f bs g : whole f bs g -> whole (pre g0 f) bs (fun s => g (g0 s)).
Proof. intros H s. unfold pre. rewrite !H. reflexivity. Qed.

Lemma whole_ext {S} (f : step S) bs g g' : (forall s, g s = g' s) -> whole f bs g -> whole f bs g'.
Proof. intros E H s. rewrite H, E. reflexivity. Qed.

(** Scanning a list of encoded elements. *)
Lemma scan_loop_list {A} (mk : N -> made A) (rd : step A) (enc : A -> bytes) (l : list A) :
  (forall a, In a l -> exists z, mk (be_dec (firstn 2 (enc a))) = MkOk z
                        /\ 2 <= length (enc a)
                        /\ forall tl, rd z (enc a ++ tl) = Res a (length (enc a)) None tl) ->
  forall fuel acc, length (concat (map enc l)) < fuel ->
  scan_loop fuel mk rd acc (concat (map enc l))
  = Res (acc ++ l) (length (concat (map enc l))) None [].
Proof.
  induction l as [|a l IH]; intros Hl fuel acc Hf.
  - destruct fuel as [|fuel]; [cbn in Hf; lia|]. cbn. rewrite app_nil_r. reflexivity.
  - destruct (Hl a (or_introl eq_refl)) as (z & Hmk & Hlen & Hrd).
    destruct fuel as [|fuel]; [lia|].
    cbn [map concat] in *. rewrite app_length in *. cbn [scan_loop].
    destruct (Nat.ltb_spec (length (enc a ++ concat (map enc l))) 2) as [H|H];
      [rewrite app_length in H; lia|].
    assert (E : firstn 2 (enc a ++ concat (map enc l)) = firstn 2 (enc a)).
    { rewrite firstn_app. replace (2 - length (enc a)) with 0 by lia.
      rewrite firstn_O, app_nil_r. reflexivity. }
    rewrite E, Hmk, !Hrd. cbn [fail val rest cnt].
    rewrite IH; [|intros b Hb; apply Hl; right; exact Hb|lia].
    cbn [fail val rest cnt]. rewrite <- app_assoc. reflexivity.
Qed.

Lemma whole_scan {A} (mk : N -> made A) (rd : step A) (enc : A -> bytes) (l : list A) :
  (forall a, In a l -> exists z, mk (be_dec (firstn 2 (enc a))) = MkOk z
                        /\ 2 <= length (enc a)
                        /\ forall tl, rd z (enc a ++ tl) = Res a (length (enc a)) None tl) ->
  whole (scan mk rd) (concat (map enc l)) (fun old => old ++ l).
Proof.
  intros H s. unfold scan. apply scan_loop_list; [exact H|lia].
Qed.

(** [ReadFunc] over a list of encoded elements that fills the reader. *)
Lemma readfunc_loop_list {A B S} (zero : A) (rd : step A) (fn : A -> S -> S)
    (enc : B -> bytes) (out : B -> A) (l : list B) :
  rd zero [] = Res zero 0 (Some EOF) [] ->
  (forall a, In a l -> 1 <= length (enc a)
             /\ forall tl, rd zero (enc a ++ tl) = Res (out a) (length (enc a)) None tl) ->
  forall fuel s, length (concat (map enc l)) < fuel ->
  readfunc_loop fuel zero rd fn s (concat (map enc l))
  = Res (fold_left (fun s a => fn (out a) s) l s) (length (concat (map enc l))) None [].
Proof.
  intros Hnil. induction l as [|a l IH]; intros Hl fuel s Hf.
  - destruct fuel as [|fuel]; [cbn in Hf; lia|]. cbn [map concat readfunc_loop].
    rewrite Hnil. reflexivity.
  - destruct (Hl a (or_introl eq_refl)) as (Hlen & Hrd).
    destruct fuel as [|fuel]; [lia|].
    cbn [map concat] in *. rewrite app_length in *. cbn [readfunc_loop].
    rewrite !Hrd. cbn [fail val rest cnt].
    rewrite IH; [|intros b Hb; apply Hl; right; exact Hb|lia].
    reflexivity.
Qed.

(** Padding. *)
Lemma pad_len_lt n : pad_len n < 8.
Proof. unfold pad_len. lia. Qed.

Lemma pad_len_mod n : (n + pad_len n) mod 8 = 0.
Proof. unfold pad_len. lia. Qed.

Lemma pad_len_0 n : n mod 8 = 0 -> pad_len n = 0.
Proof. unfold pad_len. lia. Qed.

Lemma fixtext_length k s : length (fixtext k s) = k.
Proof. unfold fixtext. rewrite app_length, firstn_length, zeros_length. lia. Qed.

Lemma concat_map_length {A} (enc : A -> bytes) l :
  length (concat (map enc l)) = list_sum (map (fun a => length (enc a)) l).
Proof. induction l as [|a l IH]; cbn; [reflexivity|]. rewrite app_length, IH. reflexivity. Qed.

(** Facts true of a decoder on every input. *)

(** The bytes left are a suffix of the input (never reads past nor rewinds). *)
Definition suffixing {S} (f : step S) : Prop :=
  forall s inp, exists used, inp = used ++ rest (f s inp).

(** Counts are exact. *)
Definition counting {S} (f : step S) : Prop :=
  forall s inp, length inp = cnt (f s inp) + length (rest (f s inp)).

Lemma suffixing_take {S} k (upd : bytes -> S -> S) : suffixing (take_full k upd).
Proof.
  intros s inp. unfold take_full. destruct (length inp <? k); cbn.
  - exists inp. rewrite app_nil_r. reflexivity.
  - exists (firstn k inp). rewrite firstn_skipn. reflexivity.
Qed.

Lemma counting_take {S} k (upd : bytes -> S -> S) : counting (take_full k upd).
Proof.
  intros s inp. unfold take_full. destruct (Nat.ltb_spec (length inp) k); cbn; [lia|].
  rewrite skipn_length. lia.
Qed.

Lemma suffixing_seqr {S} (fs : list (step S)) : Forall suffixing fs -> suffixing (seqr fs).
Proof.
  induction 1 as [|f fs Hf _ IH]; intros s inp.
  - exists []. reflexivity.
  - cbn [seqr]. destruct (Hf s inp) as [u Hu].
    destruct (fail (f s inp)); [exists u; exact Hu|].
    destruct (IH (val (f s inp)) (rest (f s inp))) as [u' Hu'].
    exists (u ++ u'). cbn [rest]. rewrite <- app_assoc, <- Hu'. exact Hu.
Qed.

Lemma counting_seqr {S} (fs : list (step S)) : Forall counting fs -> counting (seqr fs).
Proof.
  induction 1 as [|f fs Hf _ IH]; intros s inp.
  - reflexivity.
  - cbn [seqr]. specialize (Hf s inp).
    destruct (fail (f s inp)); [exact Hf|].
    specialize (IH (val (f s inp)) (rest (f s inp))). cbn [rest cnt]. lia.
Qed.

Lemma suffixing_sub {S A} (get : S -> A) set rd : suffixing rd -> suffixing (sub get set rd).
Proof. intros H s inp. unfold sub. cbn [rest]. apply H. Qed.

Lemma counting_sub {S A} (get : S -> A) set rd : counting rd -> counting (sub get set rd).
Proof. intros H s inp. unfold sub. cbn [rest cnt]. apply H. Qed.

Lemma suffixing_andthen {S} (a : step S) b :
  suffixing a -> (forall n s, suffixing (b n s)) -> suffixing (andthen a b).
Proof.
  intros Ha Hb s inp. unfold andthen. destruct (Ha s inp) as [u Hu].
  destruct (fail (a s inp)); [exists u; exact Hu|].
  destruct (Hb (cnt (a s inp)) (val (a s inp)) (val (a s inp)) (rest (a s inp))) as [u' Hu'].
  exists (u ++ u'). cbn [rest]. rewrite <- app_assoc, <- Hu'. exact Hu.
Qed.

Lemma counting_andthen {S} (a : step S) b :
  counting a -> (forall n s, counting (b n s)) -> counting (andthen a b).
Proof.
  intros Ha Hb s inp. unfold andthen. specialize (Ha s inp).
  destruct (fail (a s inp)); [exact Ha|].
  specialize (Hb (cnt (a s inp)) (val (a s inp)) (val (a s inp)) (rest (a s inp))).
  cbn [rest cnt]. lia.
Qed.

Lemma suffixing_andthen_ignoring {S} (a : step S) b :
  suffixing a -> (forall n s, suffixing (b n s)) -> suffixing (andthen_ignoring a b).
Proof.
  intros Ha Hb s inp. unfold andthen_ignoring. destruct (Ha s inp) as [u Hu].
  destruct (Hb (cnt (a s inp)) (val (a s inp)) (val (a s inp)) (rest (a s inp))) as [u' Hu'].
  exists (u ++ u'). cbn [rest]. rewrite <- app_assoc, <- Hu'. exact Hu.
Qed.

Lemma suffixing_with_local {L S} (l : L) (f : step (L * S)) : suffixing f -> suffixing (with_local l f).
Proof. intros H s inp. unfold with_local. cbn [rest]. apply H. Qed.

Lemma counting_with_local {L S} (l : L) (f : step (L * S)) : counting f -> counting (with_local l f).
Proof. intros H s inp. unfold with_local. cbn [rest cnt]. apply H. Qed.

Lemma suffixing_pre {S} (g : S -> S) f : suffixing f -> suffixing (pre g f).
Proof. intros H s inp. apply H. Qed.

Lemma counting_pre {S} (g : S -> S) f : counting f -> counting (pre g f).
Proof. intros H s inp. apply H. Qed.

Lemma suffixing_limited {S} z (f : step S) : suffixing f -> suffixing (limited z f).
Proof.
  intros H s inp. unfold limited. cbn [rest].
  destruct (H s (firstn (Z.to_nat z) inp)) as [u Hu]. exists u.
  rewrite app_assoc, <- Hu, firstn_skipn. reflexivity.
Qed.

Lemma counting_limited {S} z (f : step S) : counting f -> counting (limited z f).
Proof.
  intros H s inp. unfold limited. cbn [rest cnt].
  specialize (H s (firstn (Z.to_nat z) inp)).
  rewrite app_length. rewrite <- (firstn_skipn (Z.to_nat z) inp) at 1.
  rewrite app_length. lia.
Qed.

Lemma suffixing_readall {S} (set : bytes -> S -> S) : suffixing (readall set).
Proof. intros s inp. exists inp. cbn. rewrite app_nil_r. reflexivity. Qed.

Lemma counting_readall {S} (set : bytes -> S -> S) : counting (readall set).
Proof. intros s inp. cbn. lia. Qed.

Lemma suffixing_scan_loop {A} (mk : N -> made A) rd : suffixing rd ->
  forall fuel acc inp, exists used, inp = used ++ rest (scan_loop fuel mk rd acc inp).
Proof.
  intro Hrd. induction fuel as [|fuel IH]; intros acc inp; cbn [scan_loop].
  - exists inp. cbn. rewrite app_nil_r. reflexivity.
  - assert (Hall : exists used, inp = used ++ []) by (exists inp; rewrite app_nil_r; reflexivity).
    destruct (length inp <? 2); [exact Hall|].
    destruct (mk (be_dec (firstn 2 inp))) as [| |a]; [exact Hall|exact Hall|].
    destruct (fail (rd a inp)); [exact Hall|]. cbn [rest].
    destruct (Hrd a inp) as [u Hu].
    destruct (IH (acc ++ [val (rd a inp)]) (rest (rd a inp))) as [u' Hu'].
    exists (u ++ u'). rewrite <- app_assoc, <- Hu'. exact Hu.
Qed.

Lemma suffixing_scan {A} (mk : N -> made A) rd : suffixing rd -> suffixing (scan mk rd).
Proof. intros H s inp. apply suffixing_scan_loop, H. Qed.

Lemma suffixing_readfunc_loop {A S} (zero : A) rd (fn : A -> S -> S) : suffixing rd ->
  forall fuel s inp, exists used, inp = used ++ rest (readfunc_loop fuel zero rd fn s inp).
Proof.
  intro Hrd. induction fuel as [|fuel IH]; intros s inp; cbn [readfunc_loop].
  - exists inp. cbn. rewrite app_nil_r. reflexivity.
  - destruct (Hrd zero inp) as [u Hu].
    destruct (fail (rd zero inp)); cbn [rest]; [exists u; exact Hu|].
    destruct (IH (fn (val (rd zero inp)) s) (rest (rd zero inp))) as [u' Hu'].
    exists (u ++ u'). rewrite <- app_assoc, <- Hu'. exact Hu.
Qed.

Lemma suffixing_readfunc {A S} (zero : A) rd (fn : A -> S -> S) : suffixing rd -> suffixing (readfunc zero rd fn).
Proof. intros H s inp. apply suffixing_readfunc_loop, H. Qed.

Lemma counting_readfunc_loop {A S} (zero : A) rd (fn : A -> S -> S) : counting rd ->
  (forall a inp, fail (rd a inp) = None -> 1 <= cnt (rd a inp)) ->
  forall fuel s inp, length inp < fuel ->
  length inp = cnt (readfunc_loop fuel zero rd fn s inp) + length (rest (readfunc_loop fuel zero rd fn s inp)).
Proof.
  intros Hrd Hp. induction fuel as [|fuel IH]; intros s inp Hf; [lia|]. cbn [readfunc_loop].
  specialize (Hrd zero inp). specialize (Hp zero inp).
  destruct (fail (rd zero inp)); cbn [rest cnt]; [lia|].
  specialize (Hp eq_refl).
  specialize (IH (fn (val (rd zero inp)) s) (rest (rd zero inp)) ltac:(lia)). lia.
Qed.

(** Loops never run out of fuel when every successful element consumes input. *)
Definition nofuel {S} (f : step S) : Prop := forall s inp, fail (f s inp) <> Some EFuel.
Definition progressing {S} (f : step S) : Prop :=
  forall s inp, fail (f s inp) = None -> length (rest (f s inp)) < length inp.

Lemma skip_eof_fuel e : skip_eof (Some e) = Some EFuel -> e = EFuel.
Proof. destruct e; cbn; congruence. Qed.

Lemma skip_eof_panic e : skip_eof (Some e) = Some EPanic -> e = EPanic.
Proof. destruct e; cbn; congruence. Qed.

Lemma nofuel_scan_loop {A} (mk : N -> made A) rd : nofuel rd -> progressing rd ->
  forall fuel acc inp, length inp < fuel -> fail (scan_loop fuel mk rd acc inp) <> Some EFuel.
Proof.
  intros Hn Hp. induction fuel as [|fuel IH]; intros acc inp Hf; [lia|]. cbn [scan_loop].
  destruct (length inp <? 2); [cbn; congruence|].
  destruct (mk (be_dec (firstn 2 inp))) as [| |a]; cbn [fail]; [congruence|congruence|].
  specialize (Hp a inp). specialize (Hn a inp).
  destruct (fail (rd a inp)) as [e|]; cbn [fail].
  - intro E. apply skip_eof_fuel in E. congruence.
  - apply IH. specialize (Hp eq_refl). lia.
Qed.

Lemma nofuel_scan {A} (mk : N -> made A) rd : nofuel rd -> progressing rd -> nofuel (scan mk rd).
Proof. intros Hn Hp s inp. unfold scan. apply nofuel_scan_loop; auto. Qed.

Lemma nofuel_readfunc_loop {A S} (zero : A) rd (fn : A -> S -> S) : nofuel rd -> progressing rd ->
  forall fuel s inp, length inp < fuel -> fail (readfunc_loop fuel zero rd fn s inp) <> Some EFuel.
Proof.
  intros Hn Hp. induction fuel as [|fuel IH]; intros s inp Hf; [lia|]. cbn [readfunc_loop].
  specialize (Hp zero inp). specialize (Hn zero inp).
  destruct (fail (rd zero inp)) as [e|]; cbn [fail].
  - intro E. apply skip_eof_fuel in E. congruence.
  - apply IH. specialize (Hp eq_refl). lia.
Qed.

Lemma nofuel_readfunc {A S} (zero : A) rd (fn : A -> S -> S) :
  nofuel rd -> progressing rd -> nofuel (readfunc zero rd fn).
Proof. intros Hn Hp s inp. unfold readfunc. apply nofuel_readfunc_loop; auto. Qed.

Lemma nofuel_take {S} k (upd : bytes -> S -> S) : nofuel (take_full k upd).
Proof. intros s inp. unfold take_full. destruct (length inp <? k); cbn; [destruct inp|]; congruence. Qed.

Lemma nofuel_seqr {S} (fs : list (step S)) : Forall nofuel fs -> nofuel (seqr fs).
Proof.
  induction 1 as [|f fs Hf _ IH]; intros s inp; cbn [seqr]; [cbn; congruence|].
  specialize (Hf s inp). destruct (fail (f s inp)) eqn:E; [rewrite E; exact Hf|]. apply IH.
Qed.

Lemma nofuel_sub {S A} (get : S -> A) set rd : nofuel rd -> nofuel (sub get set rd).
Proof. intros H s inp. apply H. Qed.

Lemma nofuel_andthen {S} (a : step S) b : nofuel a -> (forall n s, nofuel (b n s)) -> nofuel (andthen a b).
Proof.
  intros Ha Hb s inp. unfold andthen. specialize (Ha s inp).
  destruct (fail (a s inp)) eqn:E; [rewrite E; exact Ha|]. apply Hb.
Qed.

Lemma nofuel_with_local {L S} (l : L) (f : step (L * S)) : nofuel f -> nofuel (with_local l f).
Proof. intros H s inp. apply H. Qed.

Lemma nofuel_pre {S} (g : S -> S) f : nofuel f -> nofuel (pre g f).
Proof. intros H s inp. apply H. Qed.

Lemma nofuel_limited {S} z (f : step S) : nofuel f -> nofuel (limited z f).
Proof. intros H s inp. apply H. Qed.

Lemma nofuel_readall {S} (set : bytes -> S -> S) : nofuel (readall set).
Proof. intros s inp. cbn. congruence. Qed.

(** Progress: enough that the first step consumes something and the others are
    suffixing. *)
Lemma progressing_take {S} k (upd : bytes -> S -> S) : 0 < k -> progressing (take_full k upd).
Proof.
  intros Hk s inp. unfold take_full. destruct (Nat.ltb_spec (length inp) k); cbn; [congruence|].
  intros _. rewrite skipn_length. lia.
Qed.

Lemma suffixing_len {S} (f : step S) : suffixing f -> forall s inp, length (rest (f s inp)) <= length inp.
Proof.
  intros H s inp. destruct (H s inp) as [u Hu].
  rewrite Hu at 2. rewrite app_length. lia.
Qed.

Lemma progressing_seqr {S} (f : step S) fs :
  progressing f -> Forall suffixing fs -> progressing (seqr (f :: fs)).
Proof.
  intros Hf Hs s inp. cbn [seqr]. specialize (Hf s inp).
  destruct (fail (f s inp)) eqn:E; [congruence|]. cbn [fail rest]. intros _.
  specialize (Hf eq_refl).
  pose proof (suffixing_len _ (suffixing_seqr fs Hs) (val (f s inp)) (rest (f s inp))). lia.
Qed.

Lemma progressing_andthen {S} (a : step S) b :
  progressing a -> (forall n s, suffixing (b n s)) -> progressing (andthen a b).
Proof.
  intros Ha Hb s inp. unfold andthen. specialize (Ha s inp).
  destruct (fail (a s inp)) eqn:E; [congruence|]. cbn [fail rest]. intros _.
  specialize (Ha eq_refl).
  pose proof (suffixing_len _ (Hb (cnt (a s inp)) (val (a s inp))) (val (a s inp)) (rest (a s inp))). lia.
Qed.

Lemma progressing_with_local {L S} (l : L) (f : step (L * S)) : progressing f -> progressing (with_local l f).
Proof. intros H s inp. apply H. Qed.

Lemma progressing_pre {S} (g : S -> S) f : progressing f -> progressing (pre g f).
Proof. intros H s inp. apply H. Qed.

(** Fixed-size decoders ([size] bytes in total): success iff enough input. *)
Definition fixed {S} (k : nat) (f : step S) : Prop :=
  forall s inp,
    (length inp < k -> (fail (f s inp) = Some EOF \/ fail (f s inp) = Some UnexpectedEOF)
                       /\ cnt (f s inp) = length inp /\ rest (f s inp) = [])
    /\ (k <= length inp -> fail (f s inp) = None /\ cnt (f s inp) = k /\ rest (f s inp) = skipn k inp).

Lemma fixed_take {S} k (upd : bytes -> S -> S) : fixed k (take_full k upd).
Proof.
  intros s inp. unfold take_full. destruct (Nat.ltb_spec (length inp) k); cbn; split; intro H'; try lia.
  - repeat split. destruct inp; auto.
  - repeat split.
Qed.

Lemma fixed_nil {S} : fixed 0 (seqr (S:=S) []).
Proof. intros s inp. cbn. split; intro H; [lia|auto]. Qed.

Lemma skipn_skipn_add {A} a b (l : list A) : skipn b (skipn a l) = skipn (a + b) l.
Proof.
  revert l; induction a as [|a IH]; intros l; [reflexivity|].
  destruct l as [|x l]; [cbn; rewrite !skipn_nil; reflexivity|]. cbn. apply IH.
Qed.

Lemma fixed_cons {S} k1 k2 (f : step S) fs :
  fixed k1 f -> fixed k2 (seqr fs) -> fixed (k1 + k2) (seqr (f :: fs)).
Proof.
  intros Hf Hs s inp. cbn [seqr]. destruct (Hf s inp) as [Hf1 Hf2].
  destruct (Nat.ltb_spec (length inp) k1) as [L|L].
  - destruct (Hf1 L) as (He & Hc & Hr). split; intro H; [|lia].
    destruct He as [He|He]; rewrite He; rewrite He, Hc, Hr; auto.
  - destruct (Hf2 L) as (He & Hc & Hr). rewrite He.
    destruct (Hs (val (f s inp)) (rest (f s inp))) as [Hs1 Hs2].
    assert (Hlen : length (rest (f s inp)) = length inp - k1) by (rewrite Hr, skipn_length; lia).
    cbn [fail cnt rest]. split; intro H.
    + destruct (Hs1 ltac:(lia)) as (He' & Hc' & Hr'). rewrite Hc', Hr', Hlen, Hc.
      repeat split; auto; lia.
    + destruct (Hs2 ltac:(lia)) as (He' & Hc' & Hr'). rewrite He', Hc', Hr', Hc, Hr, skipn_skipn_add.
      auto.
Qed.

Lemma fixed_sub {S A} (get : S -> A) set rd k : fixed k rd -> fixed k (sub get set rd).
Proof. intros H s inp. unfold sub. cbn [fail cnt rest]. apply H. Qed.

Lemma fixed_pre {S} (g : S -> S) f k : fixed k f -> fixed k (pre g f).
Proof. intros H s inp. apply H. Qed.

Lemma fixed_with_local {L S} (l : L) (f : step (L * S)) k : fixed k f -> fixed k (with_local l f).
Proof. intros H s inp. unfold with_local. cbn [fail cnt rest]. apply H. Qed.
