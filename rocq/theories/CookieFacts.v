(** Facts about [CookieModel]. *)
From Verif Require Export CookieModel MuxFacts FlowFacts.

(** [f] never fails with [e]. *)
Definition never {S} (e : err) (f : step S) : Prop := forall s inp, fail (f s inp) <> Some e.
Definition unusual (e : err) : Prop := e = EPanic \/ e = EFuel.

Lemma never_take {S} e k (upd : bytes -> S -> S) : unusual e -> never e (take_full k upd).
Proof.
  intros [->| ->] s inp; unfold take_full; destruct (length inp <? k); cbn; [destruct inp| |destruct inp|]; congruence.
Qed.

Lemma never_seqr {S} e (fs : list (step S)) : Forall (never e) fs -> never e (seqr fs).
Proof.
  induction 1 as [|f fs Hf _ IH]; intros s inp; cbn [seqr]; [cbn; congruence|].
  specialize (Hf s inp). destruct (fail (f s inp)) eqn:E; [rewrite E; exact Hf|]. apply IH.
Qed.

Lemma never_sub {S A} e (get : S -> A) set rd : never e rd -> never e (sub get set rd).
Proof. intros H s inp. apply H. Qed.

Lemma never_andthen {S} e (a : step S) b : never e a -> (forall n s, never e (b n s)) -> never e (andthen a b).
Proof.
  intros Ha Hb s inp. unfold andthen. specialize (Ha s inp).
  destruct (fail (a s inp)) eqn:E; [rewrite E; exact Ha|]. apply Hb.
Qed.

Lemma never_with_local {L S} e (l : L) (f : step (L * S)) : never e f -> never e (with_local l f).
Proof. intros H s inp. apply H. Qed.

Lemma never_pre {S} e (g : S -> S) f : never e f -> never e (pre g f).
Proof. intros H s inp. apply H. Qed.

Lemma never_limited {S} e z (f : step S) : never e f -> never e (limited z f).
Proof. intros H s inp. apply H. Qed.

Lemma never_readall {S} e (set : bytes -> S -> S) : never e (readall set).
Proof. intros s inp. cbn. congruence. Qed.

Lemma never_allxm e : unusual e -> never e (read_all_xm true).
Proof.
  intros U s inp. unfold read_all_xm. destruct (parse_total inp) as [[xs P]|[xs B]].
  - rewrite (xm_loop_parses xs _ P) by lia. cbn. congruence.
  - destruct (xm_loop_broken xs _ B (S (length inp)) s ltac:(lia)) as (e' & -> & H). cbn.
    destruct U as [->| ->], H as [->| ->]; congruence.
Qed.

Lemma never_Match e : unusual e -> never e dec_Match.
Proof.
  intro U. apply never_pre, never_with_local, never_andthen.
  - apply never_seqr. repeat constructor; [apply never_sub|]; apply never_take, U.
  - intros n s. apply never_sub, never_andthen; [apply never_limited, never_sub, never_allxm, U|].
    intros. apply never_take, U.
Qed.

Ltac never_list U :=
  apply never_seqr; repeat constructor;
  repeat first [apply never_take, U | apply never_sub, never_Match, U
               | apply never_sub, never_take, U | apply never_sub].

Lemma never_FlowRemoved e : unusual e -> never e dec_FlowRemoved.
Proof. intro U. unfold dec_FlowRemoved. never_list U. Qed.
Lemma never_FlowStatsRequest e : unusual e -> never e dec_FlowStatsRequest.
Proof. intro U. unfold dec_FlowStatsRequest. never_list U. Qed.
Lemma never_AggregateStatsRequest e : unusual e -> never e dec_AggregateStatsRequest.
Proof. intro U. unfold dec_AggregateStatsRequest. never_list U. Qed.
Lemma never_PacketIn e : unusual e -> never e dec_PacketIn.
Proof. intro U. apply never_andthen; [never_list U|]. intros. apply never_readall. Qed.

Lemma fuel_unusual : unusual EFuel.
Proof. right. reflexivity. Qed.
Lemma panic_unusual : unusual EPanic.
Proof. left. reflexivity. Qed.

Lemma neverfuel_FlowMod : never EFuel dec_FlowMod.
Proof.
  pose proof fuel_unusual as U. apply never_pre, never_seqr.
  repeat constructor; try (apply never_take, U); apply never_sub; [apply never_Match, U|exact nofuel_Instructions].
Qed.

Lemma neverfuel_FlowStats : never EFuel dec_FlowStats.
Proof.
  pose proof fuel_unusual as U. apply never_with_local, never_andthen; [never_list U|].
  intros. apply never_limited, never_pre, never_sub, never_sub. exact nofuel_Instructions.
Qed.

(** The request left behind does not depend on the decision. *)
Definition after (r : Request) (x : bytes) : Request :=
  set_body (BBuf (match Request_Body r with BBuf _ => [] | _ => x end)) r.

Lemma cookie_match_eq decode want r x : readall_body (Request_Body r) = (x, None) ->
  cookie_match decode want r = match decode x with
    | inl c => Says (c =? want)%N (after r x) | inr EPanic => Panics | inr _ => Says false (after r x) end.
Proof.
  intro H. unfold cookie_match, after. destruct (Request_Body r) as [|w rb re o|y|rd]; [discriminate| |injection H as ->; reflexivity|];
    rewrite H; reflexivity.
Qed.

Lemma cookie_match_err decode want r x e : Request_Body r <> BNil -> readall_body (Request_Body r) = (x, Some e) ->
  cookie_match decode want r = Says false (set_body (BBuf x) r).
Proof.
  intros N H. unfold cookie_match. destruct (Request_Body r) as [|w rb re o|y|rd]; [congruence| |discriminate|];
    rewrite H; reflexivity.
Qed.

Lemma decision {A} (dec : step A) zero cookie want r x : readall_body (Request_Body r) = (x, None) ->
  (cookie_match (read_cookie dec zero cookie) want r = Panics <-> fail (dec zero x) = Some EPanic)
  /\ ((exists r', cookie_match (read_cookie dec zero cookie) want r = Says true r')
      <-> exists m n tl, dec zero x = Res m n None tl /\ cookie m = want).
Proof.
  intro H. rewrite (cookie_match_eq _ _ _ _ H). unfold read_cookie.
  destruct (dec zero x) as [m n f tl]. cbn [fail val]. destruct f as [e|].
  - split; [destruct e; split; congruence|]. split.
    + intros [r' E]. destruct e; discriminate E.
    + intros (? & ? & ? & ? & _). congruence.
  - split; [split; congruence|]. split.
    + intros [r' E]. injection E as E _. apply N.eqb_eq in E. exists m, n, tl. auto.
    + intros (? & ? & ? & E & K). injection E as <- <- <-. apply N.eqb_eq in K. rewrite K. eauto.
Qed.

(** A message read to the end gives its own cookie. *)
Lemma cookie_whole {A} (dec : step A) zero cookie want r bs m : whole dec bs (fun _ => m) ->
  readall_body (Request_Body r) = (bs, None) ->
  exists r', cookie_match (read_cookie dec zero cookie) want r = Says (cookie m =? want)%N r'.
Proof.
  intros W H. rewrite (cookie_match_eq _ _ _ _ H). unfold read_cookie. rewrite (W zero). eexists. reflexivity.
Qed.

Lemma calm {A} (dec : step A) zero cookie want r : never EPanic dec -> Request_Body r <> BNil ->
  cookie_match (read_cookie dec zero cookie) want r <> Panics.
Proof.
  intros P N. destruct (readall_body (Request_Body r)) as [x [e|]] eqn:E.
  - rewrite (cookie_match_err _ _ _ _ _ N E). discriminate.
  - destruct (decision dec zero cookie want r x E) as [D _]. rewrite D. apply P.
Qed.

Lemma new_cookie_eq low high : fits 4 low -> new_cookie low high = (high * 4294967296 + low)%N.
Proof.
  intro F. unfold new_cookie. rewrite N.shiftl_mul_pow2. change (2 ^ 32)%N with 4294967296%N.
  rewrite <- N.lxor_lor, <- N.add_nocarry_lxor; [reflexivity| |]; apply N.bits_inj_iff; intro k; rewrite N.land_spec, N.bits_0.
  - destruct (N.lt_ge_cases k 32) as [L|L].
    + change 4294967296%N with (2 ^ 32)%N. rewrite N.mul_pow2_bits_low by exact L. reflexivity.
    + rewrite andb_comm. rewrite <- (N.mod_small low (2 ^ 32)) by exact F. rewrite N.mod_pow2_bits_high by exact L. reflexivity.
  - destruct (N.lt_ge_cases k 32) as [L|L].
    + change 4294967296%N with (2 ^ 32)%N. rewrite N.mul_pow2_bits_low by exact L. reflexivity.
    + rewrite andb_comm. rewrite <- (N.mod_small low (2 ^ 32)) by exact F. rewrite N.mod_pow2_bits_high by exact L. reflexivity.
Qed.

Lemma new_cookie_fits low high : fits 4 low -> fits 4 high -> fits 8 (new_cookie low high).
Proof.
  intros FL FH. rewrite new_cookie_eq by exact FL. unfold fits in *. cbn in *. lia.
Qed.

(** Failing after a successful prefix. *)
Definition fails {S} (f : step S) (bs : bytes) (e : err) : Prop := forall s, fail (f s bs) = Some e.

Lemma fails_cons {S} (f : step S) fs b bs g e :
  rt f b g -> fails (seqr fs) (concat bs) e -> fails (seqr (f :: fs)) (concat (b :: bs)) e.
Proof.
  intros R F s. cbn [concat seqr]. rewrite (R s (concat bs)). cbn [fail val rest]. apply F.
Qed.

Lemma fails_last {S} (f : step S) b e : fails f b e -> fails (seqr [f]) (concat [b]) e.
Proof. intros F s. cbn [concat]. rewrite app_nil_r. cbn [seqr]. rewrite (F s). cbn [fail]. apply F. Qed.

Lemma concat_extend (l : list bytes) a b : concat (l ++ [a]) ++ b = concat (l ++ [a ++ b]).
Proof. rewrite !concat_app. cbn [concat]. rewrite !app_nil_r, app_assoc. reflexivity. Qed.

Lemma flowmod_panic m old acts b tl t : wf_FlowMod m -> Forall wf_Action acts ->
  2 <= length b -> num 0 2 b = 27%N -> (t = 3 \/ t = 4)%N -> (N.of_nat (actions_size acts + length b) < 65536)%N ->
  fail (dec_FlowMod old (enc_FlowMod m
          ++ be_enc 2 t ++ be_enc 2 (N.of_nat (8 + (actions_size acts + length b))) ++ zeros 4
          ++ (enc_Actions acts ++ b) ++ tl)) = Some EPanic.
Proof.
  unfold wf_FlowMod. intros W WA L P T S. split_wf W.
  match goal with |- context [enc_FlowMod m ++ ?n] =>
    pose proof (fun o => nested_panic (FlowMod_Instructions m) o acts b tl t ltac:(assumption) WA L P T S) as N;
    change n with n in N; set (nasty := n) in * end.
  unfold enc_FlowMod.
  match goal with |- context [concat ?l ++ nasty] =>
    let k := eval cbn [firstn] in (firstn 13 l) in
    assert (E : concat l ++ nasty = concat (k ++ [enc_Instructions (FlowMod_Instructions m) ++ nasty]))
      by exact (concat_extend k (enc_Instructions (FlowMod_Instructions m)) nasty);
    rewrite E; clear E end.
  cbn [app]. unfold dec_FlowMod.
  match goal with |- fail (pre _ ?f old ?b) = _ => assert (F : fails f b EPanic) end.
  2: apply F.
  repeat (eapply fails_cons;
          [ solve [ rt_elem | apply rt_sub; rt_elem | apply rt_sub; apply rt_Match; assumption ] | ]).
  apply fails_last. intro s. apply N.
Qed.
