(** C78: flow entries built from a packet-in and the instruction helpers. *)
From Verif Require Import DataFacts UtilModel UtilSpec P_Util.
From Verif Require Import ActionSpec.
Ltac Zify.zify_post_hook ::= Z.div_mod_to_equations.

(** ** Specification (OpenFlow 1.3, sections 5.9 and 5.10) *)

(** What a switch keeps for a packet while it executes an entry: the actions it
    has executed so far and the action set. *)
Record doing := MkDoing { executed : list Action; action_set : list Action }.

(** Writing an action replaces the one of the same type (for set-field: of the
    same field). *)
Definition same_slot (a b : Action) : bool :=
  match a, b with
  | ASetField f, ASetField g => (XM_Class f =? XM_Class g)%N && (XM_Type f =? XM_Type g)%N
  | _, _ => (ofpat a =? ofpat b)%N
  end.
Definition write_action (s : list Action) (a : Action) : list Action :=
  filter (fun b => negb (same_slot a b)) s ++ [a].

(** Executing a decoded instruction. *)
Definition execute (d : doing) (i : Instruction) : doing :=
  match ofpit i with
  | 3%N => MkDoing (executed d) (fold_left write_action (get_actions i) (action_set d))
  | 4%N => MkDoing (executed d ++ get_actions i) (action_set d)
  | 5%N => MkDoing (executed d) []
  | _ => d
  end.

(** What a user means by calling a helper. *)
Inductive call := Apply (l : list Action) | Write (l : list Action) | Clear.
Definition meant (d : doing) (c : call) : doing :=
  match c with
  | Apply l => MkDoing (executed d ++ l) (action_set d)
  | Write l => MkDoing (executed d) (fold_left write_action l (action_set d))
  | Clear => MkDoing (executed d) []
  end.

(** The instruction list of several calls, appended. *)
Definition built (c : call) : list Instruction :=
  match c with Apply l => actions_apply l | Write l => actions_write l | Clear => actions_clear end.
Definition call_ok (c : call) : Prop :=
  match c with
  | Apply l | Write l => Forall wf_Action l /\ (N.of_nat (actions_size l) < 65528)%N
  | Clear => True
  end.
Definition call_size (c : call) : nat :=
  match c with Apply l | Write l => 8 + actions_size l | Clear => 8 end.

(** ** Proofs *)
Lemma built_means c d : fold_left execute (built c) d = meant d c.
Proof. destruct c, d; reflexivity. Qed.

Lemma all_built_mean l : forall d, fold_left execute (concat (map built l)) d = fold_left meant l d.
Proof.
  induction l as [|c l IH]; intro d; [reflexivity|]. cbn [map concat fold_left].
  rewrite fold_left_app, built_means. apply IH.
Qed.

Lemma built_ok c : call_ok c -> Forall wf_Instruction (built c) /\ instructions_size (built c) = call_size c.
Proof.
  destruct c; cbn; intro H; (split; [constructor; [|constructor]|]); cbn; try lia; try exact Logic.I.
  - destruct H as (H1 & H2). split; [exact H1|lia].
  - destruct H as (H1 & H2). split; [exact H1|lia].
Qed.

Lemma all_built_ok l : Forall call_ok l ->
  Forall wf_Instruction (concat (map built l)) /\ instructions_size (concat (map built l)) = list_sum (map call_size l).
Proof.
  induction 1 as [|c l H _ (IH1 & IH2)]; [split; [constructor|reflexivity]|].
  destruct (built_ok c H) as (B1 & B2). cbn [map concat]. split; [apply Forall_app; auto|].
  unfold instructions_size in *. rewrite map_app, list_sum_app, B2, IH2. reflexivity.
Qed.

(** Each helper makes one instruction of the right type whose length field is
    its true size and which carries the actions in order. *)
Theorem C78_helper_layout : forall l, Forall wf_Action l -> (N.of_nat (actions_size l) < 65528)%N ->
  laid_out (enc_Instructions (actions_apply l)) (8 + actions_size l)
    ((0, Num 2 4) :: (2, Num 2 (N.of_nat (8 + actions_size l))) :: (4, Zero 4)
     :: one_after_another action_size action_layout 8 l)
  /\ laid_out (enc_Instructions (actions_write l)) (8 + actions_size l)
    ((0, Num 2 3) :: (2, Num 2 (N.of_nat (8 + actions_size l))) :: (4, Zero 4)
     :: one_after_another action_size action_layout 8 l)
  /\ laid_out (enc_Instructions actions_clear) 8 [(0, Num 2 5); (2, Num 2 8); (4, Zero 4)].
Proof.
  intros l W L. assert (L' : (N.of_nat (actions_size l) < 65536)%N) by lia. unfold enc_Instructions, actions_apply, actions_write, actions_clear.
  cbn [map concat]. rewrite !app_nil_r. split; [|split].
  - apply (lays_laid_out _ _ _ (instruction_lays (IApplyActions l) (conj W L'))).
  - apply (lays_laid_out _ _ _ (instruction_lays (IWriteActions l) (conj W L'))).
  - apply (lays_laid_out _ _ _ (instruction_lays IClearActions Logic.I)).
Qed.
Print Assumptions C78_helper_layout.

(** A flow modification for a packet-in with the instructions of any sequence of
    helper calls arrives: same command, buffer and match, and a switch that
    executes what it decodes does what the calls meant, in their order. *)
Theorem C78_flow_does_what_was_meant : forall c p calls s,
  fits 1 c -> wf_PacketIn p -> Forall call_ok calls ->
  40 + (match_size (PacketIn_Match p) + list_sum (map call_size calls)) <= N.to_nat 65527 ->
  let f := new_FlowMod c (Some p) in
  let m := MkFlowMod (FlowMod_Cookie f) (FlowMod_CookieMask f) (FlowMod_Table f) (FlowMod_Command f)
             (FlowMod_IdleTimeout f) (FlowMod_HardTimeout f) (FlowMod_Priority f) (FlowMod_Buffer f)
             (FlowMod_OutPort f) (FlowMod_OutGroup f) (FlowMod_Flags f) (FlowMod_Match f)
             (concat (map built calls)) in
  let r := new_request 14 (as_payload (enc_FlowMod m)) in
  exists e q r' b, wcalls (write_to sink r) = [e] /\ werr (write_to sink r) = None
    /\ receive (MkReader e s EOF false) = (inl q, r') /\ data r' = []
    /\ Header_Type (Request_Header q) = 14%N /\ Request_Body q = BBuf b
    /\ forall old, let d := dec_FlowMod old b in fail d = None
       /\ FlowMod_Command (val d) = c /\ FlowMod_Buffer (val d) = PacketIn_Buffer p
       /\ FlowMod_Match (val d) = PacketIn_Match p
       /\ forall x, fold_left execute (FlowMod_Instructions (val d)) x = fold_left meant calls x.
Proof.
  intros c p calls s Hc Hp Hl Hs f m r.
  destruct (all_built_ok calls Hl) as (B1 & B2).
  assert (W : wf_FlowMod m).
  { unfold m, f. destruct Hp as (P1 & P2 & P3 & P4 & P5 & P6).
    unfold wf_FlowMod, new_FlowMod.
    cbn [FlowMod_Cookie FlowMod_CookieMask FlowMod_Table FlowMod_Command FlowMod_IdleTimeout FlowMod_HardTimeout
         FlowMod_Priority FlowMod_Buffer FlowMod_OutPort FlowMod_OutGroup FlowMod_Flags FlowMod_Match FlowMod_Instructions].
    repeat (split; [first [assumption|reflexivity]|]).
    split; [destruct ((c =? 3)%N || (c =? 4)%N); reflexivity|]. split; [assumption|exact B1]. }
  assert (L : (lenN (enc_FlowMod m) <= 65527)%N).
  { unfold lenN. rewrite (lays_length _ _ _ (flowmod_lays m W)). unfold m at 2. cbn [FlowMod_Instructions].
    rewrite B2. unfold m, f, new_FlowMod. cbn [FlowMod_Match]. lia. }
  destruct (flow_request_arrives m s W L) as (e & q & r' & b & E1 & E2 & E3 & E4 & E5 & E6 & E7 & D).
  exists e, q, r', b. repeat (split; [assumption|]). intros old d. unfold d. rewrite D. cbn [val fail].
  repeat (split; [reflexivity|]). intro x. apply all_built_mean.
Qed.
Print Assumptions C78_flow_does_what_was_meant.

Example C78_ex :
  let p := MkPacketIn 8 100 1 2 3 (extended_match [match_in_port 4]) [] in
  let calls := [Write [AOutput 9 0]; Clear; Apply [APopVLAN; AOutput 7 65535]; Write [AGroup 1; AGroup 2]] in
  wf_PacketIn p /\ Forall call_ok calls
  /\ 40 + (match_size (PacketIn_Match p) + list_sum (map call_size calls)) <= N.to_nat 65527
  /\ fold_left meant calls (MkDoing [] []) = MkDoing [APopVLAN; AOutput 7 65535] [AGroup 2]
  /\ enc_Instructions (actions_write [AGroup 1])
     = [x00; x03; x00; x10; x00; x00; x00; x00; x00; x16; x00; x08; x00; x00; x00; x01].
Proof.
  cbv zeta. split; [repeat split; try (cbn; lia); repeat constructor; cbn; auto; lia|].
  split; [repeat constructor; cbn; auto; try lia|].
  split; [cbn; lia|]. split; [reflexivity|vm_compute; reflexivity].
Qed.
