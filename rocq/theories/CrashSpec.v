(** What peers send during a run, and what of it is harmless. *)
From Verif Require Import ServerModel SafetySpec.

(** All messages sent by peers that connect during [sch] are [ok]. *)
Definition peers_send (ok : Request -> Prop) (sch : list move) : Prop :=
  Forall (fun m => match m with MLoop _ ms => Forall ok ms | _ => True end) sch.

(** The body does not hold the type of a pop PBB action. *)
Definition harmless (q : Request) : Prop := forall b, Request_Body q = BBuf b -> ~ mentions_pop_pbb b.
