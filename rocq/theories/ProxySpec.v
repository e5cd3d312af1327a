(** Programs that read messages and send them on. *)
From Verif Require Import Bytes Encoding RequestModel RequestSpec.

(** What a program sends that reads the body of the received request [q] into [old]
    with [dec] and sends the value under the received header: the bytes of the
    Write calls, none if reading fails. *)
Definition sent_on {A} (dec : step A) (enc : A -> bytes) (old : A) (q : Request) : list bytes :=
  let r := dec old (fst (content (Request_Body q))) in
  match fail r with
  | Some _ => []
  | None => wcalls (write_to sink (set_header (Request_Header q)
                     (new_request (Header_Type (Request_Header q)) (Some (MkPayload (enc (val r)) None)))))
  end.

(** The frames with body [b] arrive, and leave with body [b']. *)
Definition becomes {A} (dec : step A) (enc : A -> bytes) (old : A) (b b' : bytes) : Prop :=
  forall v t x q, received v t x b q -> exists e, is_frame e v t x b' /\ sent_on dec enc old q = [e].
