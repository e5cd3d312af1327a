(** Answers in several parts, and a client that puts them together. *)
From Verif Require Import RequestSpec FixedModel SessionModel.

(** A kind of entries: [enc] writes one; reading one into a fresh value gives what
    [view] leaves of it, exactly its bytes are taken, and at the end of the input
    reading fails with io.EOF. *)
Definition entry_kind {A} (d : step A) (zero : A) (enc : A -> bytes) (wf : A -> Prop) (view : A -> A) : Prop :=
  (forall v tl, wf v -> val (d zero (enc v ++ tl)) = view v /\ fail (d zero (enc v ++ tl)) = None /\ rest (d zero (enc v ++ tl)) = tl)
  /\ fail (d zero []) = Some EOF.

(** The message that carries the entries [l]: OFPT_MULTIPART_REPLY (19), the type
    of the statistics, the flag OFPMPF_REPLY_MORE (1) unless it is the last, four
    bytes of padding, the entries. *)
Definition part_body {A} (enc : A -> bytes) (t : N) (more : bool) (l : list A) : bytes :=
  be_enc 2 t ++ be_enc 2 (if more then 1 else 0) ++ repeat x00 4 ++ concat (map enc l).
Fixpoint in_parts {A} (enc : A -> bytes) (t v x : N) (parts : list (list A)) : list (Header * option payload) :=
  match parts with
  | [] => []
  | p :: ps => (MkHeader v 19 0 x, Some (MkPayload (part_body enc t (match ps with [] => false | _ => true end) p) None))
               :: in_parts enc t v x ps
  end.

(** Reading entries into fresh values until an error. *)
Inductive collects {A} (d : step A) (zero : A) : bytes -> list A -> err -> Prop :=
| collects_end b e : fail (d zero b) = Some e -> collects d zero b [] e
| collects_one b l e : fail (d zero b) = None -> collects d zero (rest (d zero b)) l e ->
    collects d zero b (val (d zero b) :: l) e.

(** Reading a message: a MultipartReply [m] and then the entries up to the end of
    the body. *)
Definition read_part {A} (d : step A) (zero : A) (q : Request) (m : MultipartReply) (l : list A) : Prop :=
  exists b r, Request_Body q = BBuf b /\ dec_MultipartReply zero_MultipartReply b = r /\ val r = m /\ fail r = None
    /\ collects d zero (rest r) l EOF.

(** Reading messages of type [t] until one that no other follows; [left] are the
    messages not read. *)
Inductive gathers {A} (d : step A) (zero : A) (t : N) : list Request -> list A -> list Request -> Prop :=
| gathers_last q m l left : read_part d zero q m l -> MultipartReply_Type m = t ->
    N.odd (MultipartReply_Flags m) = false -> gathers d zero t (q :: left) l left
| gathers_more q m l qs l' left : read_part d zero q m l -> MultipartReply_Type m = t ->
    N.odd (MultipartReply_Flags m) = true -> gathers d zero t qs l' left -> gathers d zero t (q :: qs) (l ++ l') left.
