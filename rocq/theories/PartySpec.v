(** What a user expects of operations mixed on one connection. *)
From Verif Require Export PartyModel.
From Verif Require Import RequestSpec ConnSpec ServerSpec.

(** What operation [o] contributes to the stream and returns: a reply or a request
    that can be serialized its frame, anything else nothing. *)
Definition contributes (v : N) (o : wop) (r : option err) (e : bytes) : Prop :=
  match o with
  | WReply h w =>
      match content (BCopy w [] None false) with
      | (x, None) => r = None
          /\ is_frame e (if (Header_Version h =? 0)%N then v else Header_Version h) (Header_Type h) (Header_Transaction h) x
      | (_, Some y) => r = Some y /\ e = []
      end
  | WSend q =>
      match content (Request_Body q) with
      | (x, None) => if (lenN x <=? 65527)%N
                     then r = None /\ is_frame e (Header_Version (Request_Header q)) (Header_Type (Request_Header q)) (Header_Transaction (Request_Header q)) x
                     else r = Some ETooLong /\ e = []
      | (_, Some y) => r = Some y /\ e = []
      end
  | WFlush => r = None /\ e = []
  end.

(** Replies that can be framed, or fail to serialize. *)
Definition sized (o : wop) : Prop :=
  match o with
  | WReply _ w => match content (BCopy w [] None false) with (x, None) => (lenN x <= 65527)%N | _ => True end
  | _ => True
  end.

(** Operations that send everything waiting. *)
Definition pushes (o : wop) : Prop :=
  match o with
  | WReply _ w => snd (content (BCopy w [] None false)) = None
  | WSend _ => False
  | WFlush => True
  end.

(** Who, version, operation and result of a deed. *)
Definition who (d : deed) : option nat := fst (fst (fst d)).
Definition version_of (d : deed) : N := snd (fst (fst d)).
Definition what (d : deed) : wop := snd (fst d).
Definition result (d : deed) : option err := snd d.

(** What handler call [j] did. *)
Definition deeds (j : nat) (lg : list deed) : list wop :=
  map what (filter (fun d => match who d with Some i => i =? j | None => false end) lg).

(** How often StateIdle was reported. *)
Definition idles (l : list event) : nat :=
  length (filter (fun e => match e with EState _ StateIdle => true | _ => false end) l).
