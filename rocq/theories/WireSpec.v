(** Independent description of wire layouts: tables of (offset, item).

    Nothing here refers to the encoders or decoders of the model. *)
From Verif Require Import Bytes.

(** What occupies a region of a message. *)
Inductive item :=
| Num (w : nat) (n : N)            (* unsigned integer, most significant byte first *)
| Text (w : nat) (s : bytes)       (* text, cut or filled with NUL to [w] bytes *)
| Raw (w : nat) (b : bytes)        (* [w] bytes verbatim *)
| Zero (w : nat).                  (* padding *)

Definition width (i : item) : nat :=
  match i with Num w _ | Text w _ | Raw w _ | Zero w => w end.

(** The byte at position [p] of an item, as a number. *)
Definition item_byte (i : item) (p : nat) : N :=
  match i with
  | Num w n => N.land (N.shiftr n (8 * N.of_nat (w - 1 - p))) 255
  | Text _ s => nth p (map Byte.to_N s) 0%N
  | Raw _ b => nth p (map Byte.to_N b) 0%N
  | Zero _ => 0%N
  end.

(** [e] carries item [i] at offset [off]. *)
Definition carries (e : bytes) (off : nat) (i : item) : Prop :=
  forall p, p < width i -> option_map Byte.to_N (nth_error e (off + p)) = Some (item_byte i p).

(** The offsets of a table cover [from .. size) without gap or overlap. *)
Fixpoint tiles (from : nat) (t : list (nat * item)) (size : nat) : bool :=
  match t with
  | [] => from =? size
  | (off, i) :: t' => (off =? from) && tiles (from + width i) t' size
  end.

(** [e] has exactly the layout [t]: right size, every item in place. *)
Definition laid_out (e : bytes) (size : nat) (t : list (nat * item)) : Prop :=
  length e = size /\ tiles 0 t size = true
  /\ forall off i, In (off, i) t -> carries e off i.
