(** C116: which cuts of table features are reported, and what is read when they
    are not. *)
From Verif Require Import FeatCutFacts.
Ltac Zify.zify_post_hook ::= Z.div_mod_to_equations.

(** The error of reading the first [n] bytes of table features, for every [n],
    every message and every previous contents of the receiver. *)
Theorem C116_reported : forall m old n, wf_TableFeatures m -> n <= length (enc_TableFeatures m) ->
  fail (dec_TableFeatures old (firstn n (enc_TableFeatures m))) = told (features_cut m n).
Proof. intros m old n W Hn. apply (snaps_TableFeatures m W old n Hn). Qed.
Print Assumptions C116_reported.

(** A cut in front of the properties is always reported. *)
Theorem C116_front : forall m old n, wf_TableFeatures m -> n < 64 ->
  let r := dec_TableFeatures old (firstn n (enc_TableFeatures m)) in
  fail r = Some EOF \/ fail r = Some UnexpectedEOF.
Proof.
  intros m old n W H r. unfold r. rewrite C116_reported; [|exact W|].
  - unfold features_cut, followed. destruct (Nat.ltb_spec n 64); [|lia].
    pose proof (fields_short features_front n H) as F. destruct (fields features_front n); [contradiction|auto..].
  - destruct (features_split m W) as (h & -> & L & _). rewrite app_length. lia.
Qed.
Print Assumptions C116_front.

(** Properties lost with the end of the message are never reported: what is read
    are the table features with the properties that came. *)
Theorem C116_fewer_properties : forall m old l1 l2, wf_TableFeatures m ->
  TableFeatures_Properties m = l1 ++ l2 ->
  dec_TableFeatures old (firstn (behind l1) (enc_TableFeatures m))
  = Res (arrives_with (map prop_arrives l1) m) (behind l1) None [].
Proof.
  intros m old l1 l2 W E. destruct (features_split m W) as (h & Eh & Lh & H).
  pose proof W as (_ & _ & _ & _ & _ & WP & _). rewrite E in WP. rewrite Forall_app in WP. destruct WP as [W1 W2].
  assert (B : firstn (behind l1) (enc_TableFeatures m) = h ++ concat (map enc_TableProp l1)).
  { rewrite Eh, E. unfold behind. rewrite firstn_behind by lia. f_equal. rewrite Lh.
    rewrite map_app, concat_app. replace (64 + list_sum (map prop_size l1) - 64) with (length (concat (map enc_TableProp l1)))
      by (rewrite props_length by exact W1; lia).
    apply firstn_app_exact. }
  rewrite B. unfold behind. apply H.
  - rewrite props_length by exact W1. rewrite E, map_app, list_sum_app. lia.
  - rewrite (props_whole l1 W1). rewrite props_length by exact W1. reflexivity.
Qed.
Print Assumptions C116_fewer_properties.

Lemma in_props m l1 p l2 : wf_TableFeatures m -> TableFeatures_Properties m = l1 ++ p :: l2 -> wf_TableProp p.
Proof.
  intros (_ & _ & _ & _ & _ & WP & _) E. rewrite E, Forall_app in WP. destruct WP as [_ WP].
  inversion WP. assumption.
Qed.

(** A list of fields (those a table matches, masks or can set) may be cut at any
    byte: the fields that came whole pass for the whole list, and all properties
    behind it are gone. *)
Theorem C116_fewer_fields : forall m old c fs l1 l2 n, wf_TableFeatures m -> lists_fields c ->
  TableFeatures_Properties m = l1 ++ c fs :: l2 -> n <= 4 * length fs ->
  dec_TableFeatures old (firstn (behind l1 + (4 + n)) (enc_TableFeatures m))
  = Res (arrives_with (map prop_arrives l1 ++ [c (firstn (n / 4) fs)]) m) (behind l1 + (4 + n)) None [].
Proof.
  intros m old c fs l1 l2 n W C E Hn. pose proof (in_props _ _ _ _ W E) as Wp.
  assert (P : exists z e, make_prop (be_dec (firstn 2 (enc_TableProp (c fs)))) = MkOk z /\
    dec_TableProp z (firstn (4 + n) (enc_TableProp (c fs))) = Res (c (firstn (n / 4) fs)) (4 + n) e []
    /\ (e = None \/ e = Some EOF)).
  { pose proof (ofptfpt_fits (c fs)) as Ht. destruct Wp as [Wp L].
    destruct (make_prop_tag (c fs)) as (z & M & K & _). exists z.
    unfold enc_TableProp in M |- *. cbv zeta in M |- *. rewrite prop_type_ofptfpt in M |- *.
    destruct C as [->|[->|[miss [->| ->]]]]; destruct z; try contradiction K;
      match goal with |- context [dec_TableProp ?z (firstn _ (enc_prop_xm ?t _))] =>
        destruct (xm_prop_cut t fs z n Ht Wp L Hn) as (e & Ee & He) end;
      exists e; (split; [exact M|]); (split; [|exact He]);
      (etransitivity; [exact Ee|]); try reflexivity; destruct miss; reflexivity. }
  destruct P as (z & e & M & D & He).
  eapply features_partial; [exact W|exact E|exact M|lia| |exact D|exact He].
  rewrite prop_length by exact Wp. unfold prop_size.
  pose proof (up8_ge (prop_len (c fs))) as U.
  assert (prop_len (c fs) = 4 + 4 * length fs) by (destruct C as [->|[->|[miss [->| ->]]]]; reflexivity). lia.
Qed.
Print Assumptions C116_fewer_fields.

(** A list of instructions or actions may be cut behind any element or in the
    middle of one; only a cut inside the type or the length of an element is
    reported. *)
Theorem C116_fewer_types : forall m old c ts l1 l2 n, wf_TableFeatures m -> lists_types c ->
  TableFeatures_Properties m = l1 ++ c ts :: l2 -> n <= 4 * length ts -> n mod 2 = 0 ->
  dec_TableFeatures old (firstn (behind l1 + (4 + n)) (enc_TableFeatures m))
  = Res (arrives_with (map prop_arrives l1 ++ [c (firstn (n / 4) ts)]) m) (behind l1 + (4 + n)) None [].
Proof.
  intros m old c ts l1 l2 n W C E Hn Ev. pose proof (in_props _ _ _ _ W E) as Wp.
  assert (P : exists z e, make_prop (be_dec (firstn 2 (enc_TableProp (c ts)))) = MkOk z /\
    dec_TableProp z (firstn (4 + n) (enc_TableProp (c ts))) = Res (c (firstn (n / 4) ts)) (4 + n) e []
    /\ (e = None \/ e = Some EOF)).
  { pose proof (ofptfpt_fits (c ts)) as Ht. destruct Wp as [Wp L].
    destruct (make_prop_tag (c ts)) as (z & M & K & _). exists z.
    unfold enc_TableProp in M |- *. cbv zeta in M |- *. rewrite prop_type_ofptfpt in M |- *.
    destruct C as [miss [->|[->| ->]]]; destruct z; try contradiction K;
      [unfold enc_prop_instructions in M |- *; cbv zeta in M |- *; rewrite small_len in M |- * by exact L;
       change (concat _) with (enc_prop_actions (ofptfpt (TInstructions miss ts)) ts)| |];
      match goal with |- context [dec_TableProp ?z (firstn _ (enc_prop_actions ?t _))] =>
        destruct (types_prop_cut t ts z n Ht Wp L Hn Ev) as (e & Ee & He) end;
      exists e; (split; [exact M|]); (split; [|exact He]);
      (etransitivity; [exact Ee|]); destruct miss; reflexivity. }
  destruct P as (z & e & M & D & He).
  eapply features_partial; [exact W|exact E|exact M|lia| |exact D|exact He].
  rewrite prop_length by exact Wp. unfold prop_size.
  pose proof (up8_ge (prop_len (c ts))) as U.
  assert (prop_len (c ts) = 4 + 4 * length ts) by (destruct C as [miss [->|[->| ->]]]; reflexivity). lia.
Qed.
Print Assumptions C116_fewer_types.

(** The data of an experimenter property may be cut at any byte. *)
Theorem C116_fewer_data : forall m old miss e x d l1 l2 n, wf_TableFeatures m ->
  TableFeatures_Properties m = l1 ++ TExperimenter miss e x d :: l2 -> n <= length d ->
  dec_TableFeatures old (firstn (behind l1 + (12 + n)) (enc_TableFeatures m))
  = Res (arrives_with (map prop_arrives l1 ++ [TExperimenter false e x (firstn n d)]) m) (behind l1 + (12 + n)) None [].
Proof.
  intros m old miss e x d l1 l2 n W E Hn. pose proof (in_props _ _ _ _ W E) as Wp.
  destruct Wp as [[We Wx] L] eqn:Ew.
  destruct (experimenter_prop_cut (prop_type (TExperimenter miss e x d)) e x d (TExperimenter false 0 0 []) n We Wx L Hn)
    as (o & D & Ho).
  apply (features_partial m old l1 (TExperimenter miss e x d) l2 (12 + n) (TExperimenter false 0 0 [])
    (TExperimenter false e x (firstn n d)) o W E); [destruct miss; reflexivity|lia| |exact D|exact Ho].
  rewrite prop_length by exact Wp. unfold prop_size. cbn [prop_len]. pose proof (up8_ge (12 + length d)). lia.
Qed.
Print Assumptions C116_fewer_data.

(** A list of next tables cut behind its header is not reported either: it is
    read as that many times table 0. *)
Theorem C116_invented_tables : forall m old miss ts l1 l2, wf_TableFeatures m -> ts <> [] ->
  TableFeatures_Properties m = l1 ++ TNextTables miss ts :: l2 ->
  dec_TableFeatures old (firstn (behind l1 + 4) (enc_TableFeatures m))
  = Res (arrives_with (map prop_arrives l1 ++ [TNextTables miss (repeat 0%N (length ts))]) m) (behind l1 + 4) None [].
Proof.
  intros m old miss ts l1 l2 W Nl E. pose proof (in_props _ _ _ _ W E) as Wp. pose proof Wp as [Wt L].
  pose proof (ofptfpt_fits (TNextTables miss ts)) as Ht. rewrite <- prop_type_ofptfpt in Ht.
  pose proof (tables_prop_cut _ ts (TNextTables false []) Ht Wt L Nl) as D.
  apply (features_partial m old l1 (TNextTables miss ts) l2 4 (TNextTables false [])
    (TNextTables miss (repeat 0%N (length ts))) (Some EOF) W E); [destruct miss; reflexivity|lia| | |auto].
  - rewrite prop_length by exact Wp. unfold prop_size. cbn [prop_len]. pose proof (up8_ge (4 + length ts)). lia.
  - etransitivity; [exact D|]. destruct miss; reflexivity.
Qed.
Print Assumptions C116_invented_tables.

(** Every other cut inside such a list is reported. *)
Lemma elements_behind l1 p l2 n : n < prop_size p -> 2 <= n ->
  elements (map (fun p => (prop_size p, prop_cut p)) (l1 ++ p :: l2)) (list_sum (map prop_size l1) + n)
  = match prop_cut p n with Broken => Broken | _ => Fine end.
Proof.
  intros Hn H2. induction l1 as [|q l1 IH].
  - cbn [map app elements list_sum fold_right Nat.add]. destruct (Nat.leb_spec (prop_size p) n); [lia|].
    destruct (Nat.ltb_spec n 2); [lia|reflexivity].
  - cbn [map app elements]. change (list_sum (prop_size q :: map prop_size l1)) with (prop_size q + list_sum (map prop_size l1)).
    destruct (Nat.leb_spec (prop_size q) (prop_size q + list_sum (map prop_size l1) + n)); [|lia].
    rewrite <- IH. f_equal. lia.
Qed.

Theorem C116_tables_reported : forall m old miss ts l1 l2 n, wf_TableFeatures m ->
  TableFeatures_Properties m = l1 ++ TNextTables miss ts :: l2 -> 0 < n < length ts ->
  fail (dec_TableFeatures old (firstn (behind l1 + (4 + n)) (enc_TableFeatures m))) = Some UnexpectedEOF.
Proof.
  intros m old miss ts l1 l2 n W E Hn. pose proof (in_props _ _ _ _ W E) as Wp.
  pose proof (up8_ge (4 + length ts)) as U.
  assert (PS : prop_size (TNextTables miss ts) = up8 (4 + length ts)) by reflexivity.
  rewrite C116_reported; [|exact W|].
  - unfold features_cut, followed, behind. destruct (Nat.ltb_spec (64 + list_sum (map prop_size l1) + (4 + n)) 64); [lia|].
    replace (64 + list_sum (map prop_size l1) + (4 + n) - 64) with (list_sum (map prop_size l1) + (4 + n)) by lia.
    rewrite E, elements_behind by lia. unfold prop_cut. rewrite PS.
    remember (up8 (4 + length ts) - prop_len (TNextTables miss ts)) as q. cbn [fields].
    destruct (Nat.leb_spec 4 (4 + n)); [|lia]. replace (4 + n - 4) with n by lia.
    destruct (Nat.leb_spec (length ts) n); [lia|]. destruct (Nat.eqb_spec n 0); [lia|]. reflexivity.
  - destruct (features_split m W) as (h & -> & Lh & _). pose proof W as (_ & _ & _ & _ & _ & WP & _).
    rewrite app_length, props_length by exact WP. rewrite E, map_app, list_sum_app. cbn [map].
    change (list_sum (prop_size (TNextTables miss ts) :: map prop_size l2))
      with (prop_size (TNextTables miss ts) + list_sum (map prop_size l2)). unfold behind. lia.
Qed.
Print Assumptions C116_tables_reported.

Lemma until_end_odd {A} (l : list A) : forall n, n < 4 * length l -> n mod 2 = 1 ->
  until_end (map (fun _ => (4, fields [2; 2])) l) n = Broken.
Proof.
  induction l as [|a l IH]; intros n Hn O; [cbn in Hn; lia|]. cbn [map until_end length] in *.
  destruct (Nat.leb_spec 4 n); [apply IH; lia|].
  assert (n = 1 \/ n = 3) as [-> | ->] by lia; reflexivity.
Qed.

Theorem C116_types_reported : forall m old c ts l1 l2 n, wf_TableFeatures m -> lists_types c ->
  TableFeatures_Properties m = l1 ++ c ts :: l2 -> n < 4 * length ts -> n mod 2 = 1 ->
  fail (dec_TableFeatures old (firstn (behind l1 + (4 + n)) (enc_TableFeatures m))) = Some UnexpectedEOF.
Proof.
  intros m old c ts l1 l2 n W C E Hn O.
  pose proof (up8_ge (4 + 4 * length ts)) as U.
  assert (PS : prop_size (c ts) = up8 (4 + 4 * length ts)) by (destruct C as [miss [->|[->| ->]]]; reflexivity).
  rewrite C116_reported; [|exact W|].
  - unfold features_cut, followed at 1, behind.
    destruct (Nat.ltb_spec (64 + list_sum (map prop_size l1) + (4 + n)) 64); [lia|].
    replace (64 + list_sum (map prop_size l1) + (4 + n) - 64) with (list_sum (map prop_size l1) + (4 + n)) by lia.
    rewrite E, elements_behind by lia.
    assert (PC : prop_cut (c ts) (4 + n) = Broken).
    { assert (PE : exists q, prop_cut (c ts) = followed 4 (fields [4])
        (followed (4 * length ts) (until_end (map (fun _ => (4, fields [2; 2])) ts)) q))
        by (destruct C as [miss [->|[->| ->]]]; eexists; reflexivity).
      destruct PE as [q ->]. unfold followed. destruct (Nat.ltb_spec (4 + n) 4); [lia|].
      replace (4 + n - 4) with n by lia. destruct (Nat.ltb_spec n (4 * length ts)); [|lia].
      rewrite until_end_odd by assumption. reflexivity. }
    rewrite PC. reflexivity.
  - destruct (features_split m W) as (h & -> & Lh & _). pose proof W as (_ & _ & _ & _ & _ & WP & _).
    rewrite app_length, props_length by exact WP. rewrite E, map_app, list_sum_app. cbn [map].
    change (list_sum (prop_size (c ts) :: map prop_size l2))
      with (prop_size (c ts) + list_sum (map prop_size l2)). unfold behind. lia.
Qed.
Print Assumptions C116_types_reported.

(** ** A table that matches three fields, may go to two tables and has actions *)
Definition wide : TableFeatures :=
  MkTableFeatures 1 [x61; x63; x6c] 255 15 0 1000
    [TNextTables false [2; 3]; TMatch [MkXM 32768 0 [] []; MkXM 32768 5 [] []; MkXM 32768 10 [] []];
     TApplyActions true [0; 25]]%N.

Lemma wide_wf : wf_TableFeatures wide.
Proof.
  unfold wf_TableFeatures, wide. cbn [TableFeatures_Table TableFeatures_Name TableFeatures_MetadataMatch
    TableFeatures_MetadataWrite TableFeatures_Config TableFeatures_MaxEntries TableFeatures_Properties].
  split; [reflexivity|]. split; [reflexivity|]. split; [reflexivity|]. split; [reflexivity|]. split; [reflexivity|].
  split; [|reflexivity].
  constructor; [split; [repeat constructor|reflexivity]|].
  constructor; [split; [repeat constructor|reflexivity]|].
  constructor; [split; [repeat constructor|reflexivity]|constructor].
Qed.

(** Losing bytes makes a table that matches three fields one that matches one, or
    one that continues in table 0, and no error is returned. *)
Theorem C116_reported_refuted : exists m n1 n2 old, wf_TableFeatures m
  /\ n1 < length (enc_TableFeatures m) /\ n2 < length (enc_TableFeatures m)
  /\ (let r := dec_TableFeatures old (firstn n1 (enc_TableFeatures m)) in
      fail r = None /\ TableFeatures_Properties (val r) = [TNextTables false [2%N; 3%N]; TMatch [MkXM 32768 0 [] []]])
  /\ (let r := dec_TableFeatures old (firstn n2 (enc_TableFeatures m)) in
      fail r = None /\ TableFeatures_Properties (val r) = [TNextTables false [0%N; 0%N]]).
Proof.
  exists wide, 83, 68, zero_TableFeatures. split; [exact wide_wf|]. split; [vm_compute; repeat constructor|].
  split; [vm_compute; repeat constructor|]. split; vm_compute; split; reflexivity.
Qed.
Print Assumptions C116_reported_refuted.

Example C116_ex :
  wf_TableFeatures wide /\ lists_fields TMatch /\ lists_types (TApplyActions true)
  /\ length (enc_TableFeatures wide) = 104
  /\ map (fun n => told (features_cut wide n)) [0; 1; 2; 65; 66; 68; 69; 70; 71; 72; 75; 77; 88; 93; 94; 104]
     = [Some EOF; Some UnexpectedEOF; Some EOF; None; Some UnexpectedEOF; None; Some UnexpectedEOF; None;
        Some UnexpectedEOF; None; Some UnexpectedEOF; None; None; Some UnexpectedEOF; None; None]
  /\ behind [TNextTables false [2; 3]%N] = 72.
Proof.
  split; [exact wide_wf|]. split; [left; reflexivity|]. split; [exists true; auto|].
  split; [reflexivity|]. split; vm_compute; reflexivity.
Qed.
