(** What it means that bytes tell messages apart. *)
From Verif Require Import Bytes.

(** Messages with the same encoding are the same, up to [norm]. *)
Definition told_apart {A} (wf : A -> Prop) (enc : A -> bytes) (norm : A -> A) : Prop :=
  forall x y, wf x -> wf y -> enc x = enc y -> norm x = norm y.

(** The same if other bytes follow: no encoding is the beginning of another. *)
Definition self_delimiting {A} (wf : A -> Prop) (enc : A -> bytes) (norm : A -> A) : Prop :=
  forall x y a b, wf x -> wf y -> enc x ++ a = enc y ++ b -> norm x = norm y /\ a = b.

(** Hello elements up to filling the bitmaps to an odd number with an empty one. *)
From Verif Require Import HelloModel.
Definition filled_maps (m : HelloElem) : HelloElem :=
  MkHelloElem (if Nat.even (length (HelloElem_Bitmaps m)) then HelloElem_Bitmaps m ++ [0%N] else HelloElem_Bitmaps m).

(** Table features up to cutting the name or filling it with NUL to 32 bytes. *)
From Verif Require Import TableModel.
Definition named32 (m : TableFeatures) : TableFeatures :=
  MkTableFeatures (TableFeatures_Table m) (firstn 32 (TableFeatures_Name m ++ zeros 32)) (TableFeatures_MetadataMatch m)
    (TableFeatures_MetadataWrite m) (TableFeatures_Config m) (TableFeatures_MaxEntries m) (TableFeatures_Properties m).
