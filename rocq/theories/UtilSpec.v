(** What flow requests mean to a switch (OpenFlow 1.3, section 6.4), independently
    of the helpers that build them. *)
From Verif Require Import MatchModel FlowModel.

(** A flow entry: its table, cookie, match fields, the ports and groups it
    outputs to. *)
Record entry := MkEntry {
  e_table : N; e_cookie : N; e_fields : list XM; e_ports : list N; e_groups : list N }.

(** Fields of a delete request restrict fields of an entry: [narrower x y] says
    that field [y] of an entry is at least as specific as field [x]. *)
Definition covered (narrower : XM -> XM -> Prop) (wanted have : list XM) : Prop :=
  forall x, In x wanted -> exists y, In y have /\ narrower x y.

(** The entries a non-strict delete removes: those of the table (255: of every
    table) that agree with the cookie on the mask, output to the port and group
    (0xffffffff: any) and are at least as specific as the match. *)
Definition deleted_by (narrower : XM -> XM -> Prop) (f : FlowMod) (e : entry) : Prop :=
  FlowMod_Command f = 3%N
  /\ (FlowMod_Table f = 255 \/ FlowMod_Table f = e_table e)%N
  /\ N.land (e_cookie e) (FlowMod_CookieMask f) = N.land (FlowMod_Cookie f) (FlowMod_CookieMask f)
  /\ (FlowMod_OutPort f = 4294967295%N \/ In (FlowMod_OutPort f) (e_ports e))
  /\ (FlowMod_OutGroup f = 4294967295%N \/ In (FlowMod_OutGroup f) (e_groups e))
  /\ covered narrower (Match_Fields (FlowMod_Match f)) (e_fields e).

(** An added entry that stands below every other one, matches every packet, does
    nothing with it and stays: the packets that nothing else matches are dropped. *)
Definition drops_misses (f : FlowMod) : Prop :=
  FlowMod_Command f = 0%N /\ Match_Type (FlowMod_Match f) = 1%N /\ Match_Fields (FlowMod_Match f) = []
  /\ FlowMod_Priority f = 0%N /\ FlowMod_Instructions f = []
  /\ FlowMod_IdleTimeout f = 0%N /\ FlowMod_HardTimeout f = 0%N
  /\ FlowMod_Buffer f = 4294967295%N.
