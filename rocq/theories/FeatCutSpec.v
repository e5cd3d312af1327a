(** What reading the beginning of table features reports, stated with the layout
    only, as in TruncSpec. *)
From Verif Require Import TruncSpec ShortSpec TableSpec TableModel.

(** A property: type and length, the list, the padding. *)
Definition prop_cut (p : TableProp) : nat -> finding :=
  let padding := fields [prop_size p - prop_len p] in
  match p with
  | TInstructions _ l | TWriteActions _ l | TApplyActions _ l =>
      followed 4 (fields [4])
        (followed (4 * length l) (until_end (map (fun _ => (4, fields [2; 2])) l)) padding)
  | TNextTables _ l => fields [4; length l; prop_size p - prop_len p]
  | TMatch l | TWildcards l | TWriteSetField _ l | TApplySetField _ l =>
      followed 4 (fields [4]) (followed (4 * length l) (fun _ => Fine) padding)
  | TExperimenter _ _ _ d =>
      followed 12 (fields [4; 4; 4]) (followed (length d) (fun _ => Fine) padding)
  end.

Definition features_front : list nat := [2; 1; 5; 32; 8; 8; 4; 4].
Definition features_cut (m : TableFeatures) : nat -> finding :=
  followed 64 (fields features_front)
    (elements (map (fun p => (prop_size p, prop_cut p)) (TableFeatures_Properties m))).

(** The properties that list fields, and those that list types of instructions
    or actions. *)
Definition lists_fields (c : list XM -> TableProp) : Prop :=
  c = TMatch \/ c = TWildcards \/ exists miss, c = TWriteSetField miss \/ c = TApplySetField miss.
Definition lists_types (c : list N -> TableProp) : Prop :=
  exists miss, c = TInstructions miss \/ c = TWriteActions miss \/ c = TApplyActions miss.

(** Where the properties behind [l] begin. *)
Definition behind (l : list TableProp) : nat := 64 + list_sum (map prop_size l).

(** The table features a receiver has when the properties that arrive are [l]. *)
Definition arrives_with (l : list TableProp) (m : TableFeatures) : TableFeatures :=
  MkTableFeatures (TableFeatures_Table m) (firstn 32 (TableFeatures_Name m ++ zeros 32))
    (TableFeatures_MetadataMatch m) (TableFeatures_MetadataWrite m) (TableFeatures_Config m)
    (TableFeatures_MaxEntries m) l.
