(** What users expect of lists kept from a message that is read again. *)
From Verif Require Import SliceModel.

(** The slice is a window on an array that exists, or it is empty with no room. *)
Definition proper {A} (h : heap A) (s : slice) : Prop :=
  len s <= cap s /\ (cap s = 0 \/ arr s < length h /\ off s + cap s <= length (nth (arr s) h [])).

(** The list a variable holds. *)
Definition holds {A} (s : store A) : list A := view (cells s) (var s).

(** Entry by entry the new list over the old one, which keeps its length. *)
Definition overwritten {A} (new old : list A) : list A := firstn (length old) new ++ skipn (length new) old.

(** Every list that existed is unchanged. *)
Definition nothing_touched {A} (s s' : store A) : Prop :=
  forall k, proper (cells s) k -> view (cells s') k = view (cells s) k.

(** The lists on other arrays are unchanged. *)
Definition others_untouched {A} (s s' : store A) : Prop :=
  forall k, proper (cells s) k -> arr k <> arr (var s) -> view (cells s') k = view (cells s) k.

(** The three kinds of properties that list types, the four that list fields
    (the first two without miss flag). *)
Inductive type_prop : (bool -> list N -> TableProp) -> Prop :=
| tp_instructions : type_prop TInstructions
| tp_write : type_prop TWriteActions
| tp_apply : type_prop TApplyActions.

Inductive field_prop : bool -> (bool -> list XM -> TableProp) -> Prop :=
| fp_match : field_prop false (fun _ => TMatch)
| fp_wildcards : field_prop false (fun _ => TWildcards)
| fp_write : field_prop true TWriteSetField
| fp_apply : field_prop true TApplySetField.

(** A reader of lists does on arrays what it does on lists. *)
Definition same_list {A} (f : step (list A)) (g : step (store A)) : Prop := forall st inp,
  proper (cells st) (var st) ->
  let r := g st inp in
  f (holds st) inp = Res (holds (val r)) (cnt r) (fail r) (rest r) /\ proper (cells (val r)) (var (val r)).

(** Reading changes no list that existed. *)
Definition keeps_all {A} (g : step (store A)) : Prop := forall st inp,
  proper (cells st) (var st) -> nothing_touched st (val (g st inp)).

(** Reading changes none that ends where the list of the receiver ends, or before. *)
Definition keeps_shorter {A} (g : step (store A)) : Prop := forall st inp k,
  proper (cells st) (var st) -> proper (cells st) k ->
  (arr k = arr (var st) -> off k + len k <= off (var st) + len (var st)) ->
  view (cells (val (g st inp))) k = view (cells st) k.

(** The new entries behind the first [n] of the old list, which keeps its length. *)
Definition written_behind {A} (n : nat) (new old : list A) : list A := firstn n old ++ overwritten new (skipn n old).

(** A list of which the list of the receiver is the beginning gets the entries
    [new] writes behind it. *)
Definition writes_behind {A} (g : step (store A)) (new : bytes -> list A) : Prop := forall st inp k,
  proper (cells st) (var st) -> proper (cells st) k ->
  arr k = arr (var st) -> off k = off (var st) -> len (var st) <= len k <= cap (var st) ->
  view (cells (val (g st inp))) k = written_behind (len (var st)) (new inp) (view (cells st) k).

(** The last of a list, as a list. *)
Definition last_only {A} (l : list A) : list A := skipn (length l - 1) l.
