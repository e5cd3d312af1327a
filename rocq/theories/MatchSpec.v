(** What OpenFlow 1.3 (section 7.2.3) says about matches and their entries,
    independently of the encoders and decoders.  Only the record types of the
    model are used. *)
From Verif Require Import Bytes WireSpec MatchModel.

(** Entries that can be expressed on the wire: 16-bit class, 7-bit field, the
    mask absent or as long as the value, 8-bit payload length. *)
Definition wf_XM (x : XM) : Prop :=
  (XM_Class x < 65536)%N /\ (XM_Type x < 128)%N
  /\ (XM_Mask x = [] \/ length (XM_Mask x) = length (XM_Value x))
  /\ length (XM_Value x) + length (XM_Mask x) < 256.

(** Bytes of an entry. *)
Definition xm_size (x : XM) : nat := 4 + length (XM_Value x) + length (XM_Mask x).

Definition has_mask (x : XM) : N := match XM_Mask x with [] => 0 | _ => 1 end%N.

(** struct ofp_oxm: class, field and mask flag, payload length, value, mask. *)
Definition xm_layout (x : XM) : list (nat * item) :=
  [(0, Num 2 (XM_Class x)); (2, Num 1 (2 * XM_Type x + has_mask x));
   (3, Num 1 (N.of_nat (length (XM_Value x) + length (XM_Mask x))));
   (4, Raw (length (XM_Value x)) (XM_Value x));
   (4 + length (XM_Value x), Raw (length (XM_Mask x)) (XM_Mask x))].

(** Size of a list of entries. *)
Definition fields_size (l : list XM) : nat := list_sum (map xm_size l).

(** Matches whose length fits the 16-bit length field. *)
Definition wf_Match (m : Match) : Prop :=
  (Match_Type m < 65536)%N /\ Forall wf_XM (Match_Fields m)
  /\ (N.of_nat (fields_size (Match_Fields m)) < 65532)%N.

(** The next multiple of eight. *)
Definition up8 (n : nat) : nat := (n + 7) / 8 * 8.

(** Bytes of a match, padding included. *)
Definition match_size (m : Match) : nat := up8 (4 + fields_size (Match_Fields m)).

(** Consecutive pieces of a byte string, one per element of a list. *)
Inductive in_sequence {A} (one : A -> bytes -> Prop) : list A -> bytes -> Prop :=
| InNil : in_sequence one [] []
| InCons a b l bs : one a b -> in_sequence one l bs -> in_sequence one (a :: l) (b ++ bs).

(** struct ofp_match: type, length without padding, entries, zero padding. *)
Definition match_laid_out (m : Match) (e : bytes) : Prop :=
  exists body,
    in_sequence (fun x b => laid_out b (xm_size x) (xm_layout x)) (Match_Fields m) body
    /\ let n := 4 + length body in
       laid_out e (up8 n)
         [(0, Num 2 (Match_Type m)); (2, Num 2 (N.of_nat n)); (4, Raw (length body) body);
          (n, Zero (up8 n - n))].

(** ** Reading arbitrary bytes *)

(** [seg] is one complete entry saying [x]: with the mask flag the payload is
    split in two halves (an odd last byte is in neither). *)
Definition represents (x : XM) (seg : bytes) : Prop :=
  exists c1 c2 f l payload,
    seg = c1 :: c2 :: f :: l :: payload
    /\ length payload = N.to_nat (Byte.to_N l)
    /\ XM_Class x = (256 * Byte.to_N c1 + Byte.to_N c2)%N
    /\ XM_Type x = (Byte.to_N f / 2)%N
    /\ let h := length payload / 2 in
       if N.even (Byte.to_N f)
       then XM_Value x = payload /\ XM_Mask x = []
       else XM_Value x = firstn h payload /\ XM_Mask x = firstn h (skipn h payload).

(** [region] is a sequence of complete entries followed by fewer than four
    stray bytes. *)
Inductive parses : list XM -> bytes -> Prop :=
| ParsesEnd stray : length stray < 4 -> parses [] stray
| ParsesEntry x seg xs tl : represents x seg -> parses xs tl -> parses (x :: xs) (seg ++ tl).

(** The length field of a match. *)
Definition declared (inp : bytes) : nat :=
  N.to_nat (256 * Byte.to_N (nth 2 inp x00) + Byte.to_N (nth 3 inp x00))%N.

(** The bytes of the entries: those the length field announces, as far as they
    are there. *)
Definition region (inp : bytes) : bytes := firstn (declared inp - 4) (skipn 4 inp).

(** [region] is a sequence of complete entries followed by an entry that has
    its four byte header but not all of its payload. *)
Inductive broken : list XM -> bytes -> Prop :=
| BrokenHere b : 4 <= length b -> length b < 4 + N.to_nat (Byte.to_N (nth 3 b x00)) -> broken [] b
| BrokenLater x seg xs tl : represents x seg -> broken xs tl -> broken (x :: xs) (seg ++ tl).

(** The first entry of the given type, if any. *)
Definition first_of_type (l : list XM) (t : N) (r : option XM) : Prop :=
  match r with
  | Some x => exists p q, l = p ++ x :: q /\ XM_Type x = t /\ Forall (fun y => XM_Type y <> t) p
  | None => Forall (fun y => XM_Type y <> t) l
  end.
