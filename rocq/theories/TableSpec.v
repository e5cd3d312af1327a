(** What OpenFlow 1.3 (section 7.3.5.5) says about table features, independently
    of the encoders and decoders. *)
From Verif Require Import Bytes WireSpec MatchSpec TableModel.
From Verif Require Import ActionSpec InstructionSpec FixedSpec.

(** The length of a property, without its padding. *)
Definition prop_len (p : TableProp) : nat :=
  match p with
  | TInstructions _ l | TWriteActions _ l | TApplyActions _ l => 4 + 4 * length l
  | TNextTables _ l => 4 + length l
  | TMatch l | TWildcards l | TWriteSetField _ l | TApplySetField _ l => 4 + 4 * length l
  | TExperimenter _ _ _ d => 12 + length d
  end.
(** Properties are padded to a multiple of eight bytes. *)
Definition prop_size (p : TableProp) : nat := up8 (prop_len p).

(** An entry that names a field and carries no value. *)
Definition names_field (x : XM) : Prop :=
  (XM_Class x < 65536)%N /\ (XM_Type x < 128)%N /\ XM_Value x = [] /\ XM_Mask x = [].

Definition wf_TableProp (p : TableProp) : Prop :=
  match p with
  | TInstructions _ l | TWriteActions _ l | TApplyActions _ l => Forall (fits 2) l
  | TNextTables _ l => Forall (fits 1) l
  | TMatch l | TWildcards l | TWriteSetField _ l | TApplySetField _ l => Forall names_field l
  | TExperimenter _ e x _ => fits 4 e /\ fits 4 x
  end /\ (N.of_nat (prop_len p) < 65536)%N.

(** enum ofp_table_feature_prop_type: the table-miss variant is one more. *)
Definition ofptfpt (p : TableProp) : N :=
  match p with
  | TInstructions m _ => 0 + N.b2n m
  | TNextTables m _ => 2 + N.b2n m
  | TWriteActions m _ => 4 + N.b2n m
  | TApplyActions m _ => 6 + N.b2n m
  | TMatch _ => 8
  | TWildcards _ => 10
  | TWriteSetField m _ => 12 + N.b2n m
  | TApplySetField m _ => 14 + N.b2n m
  | TExperimenter m _ _ _ => 65534 + N.b2n m
  end%N.

(** struct ofp_table_feature_prop_*: type, length without padding, elements, padding. *)
Definition prop_layout (p : TableProp) : list (nat * item) :=
  [(0, Num 2 (ofptfpt p)); (2, Num 2 (N.of_nat (prop_len p)))]
  ++ match p with
     | TInstructions _ l | TWriteActions _ l | TApplyActions _ l =>
         one_after_another (fun _ => 4) (fun t => [(0, Num 2 t); (2, Num 2 4)]) 4 l
     | TNextTables _ l => one_after_another (fun _ => 1) (fun t => [(0, Num 1 t)]) 4 l
     | TMatch l | TWildcards l | TWriteSetField _ l | TApplySetField _ l =>
         one_after_another (fun _ => 4)
           (fun x => [(0, Num 2 (XM_Class x)); (2, Num 1 (2 * XM_Type x)); (3, Num 1 0)]) 4 l
     | TExperimenter _ e x d => [(4, Num 4 e); (8, Num 4 x); (12, Raw (length d) d)]
     end
  ++ [(prop_len p, Zero (prop_size p - prop_len p))].

(** What a receiver [z] holds after reading [p]: an experimenter property keeps
    the receiver's table-miss flag. *)
Definition prop_read (z p : TableProp) : TableProp :=
  match z, p with
  | TExperimenter m _ _ _, TExperimenter _ e x d => TExperimenter m e x d
  | _, _ => p
  end.
(** In a list of properties: an experimenter property is never one for table-miss. *)
Definition prop_arrives (p : TableProp) : TableProp :=
  match p with TExperimenter _ e x d => TExperimenter false e x d | _ => p end.

(** Two properties of the same kind. *)
Definition same_tprop (p q : TableProp) : Prop :=
  match p, q with
  | TInstructions _ _, TInstructions _ _ | TNextTables _ _, TNextTables _ _
  | TWriteActions _ _, TWriteActions _ _ | TApplyActions _ _, TApplyActions _ _
  | TMatch _, TMatch _ | TWildcards _, TWildcards _
  | TWriteSetField _ _, TWriteSetField _ _ | TApplySetField _ _, TApplySetField _ _
  | TExperimenter _ _ _ _, TExperimenter _ _ _ _ => True
  | _, _ => False
  end.

(** ** Table features *)
Definition features_size (m : TableFeatures) : nat :=
  64 + list_sum (map prop_size (TableFeatures_Properties m)).
Definition wf_TableFeatures (m : TableFeatures) : Prop :=
  fits 1 (TableFeatures_Table m) /\ fits 8 (TableFeatures_MetadataMatch m)
  /\ fits 8 (TableFeatures_MetadataWrite m) /\ fits 4 (TableFeatures_Config m)
  /\ fits 4 (TableFeatures_MaxEntries m)
  /\ Forall wf_TableProp (TableFeatures_Properties m) /\ (N.of_nat (features_size m) < 65536)%N.
(** struct ofp_table_features. *)
Definition features_layout (m : TableFeatures) : list (nat * item) :=
  [(0, Num 2 (N.of_nat (features_size m))); (2, Num 1 (TableFeatures_Table m)); (3, Zero 5);
   (8, Text 32 (TableFeatures_Name m)); (40, Num 8 (TableFeatures_MetadataMatch m));
   (48, Num 8 (TableFeatures_MetadataWrite m)); (56, Num 4 (TableFeatures_Config m));
   (60, Num 4 (TableFeatures_MaxEntries m))]
  ++ shift 64 (one_after_another prop_size prop_layout 0 (TableFeatures_Properties m)).

(** The receiver has the name cut or filled with NUL to 32 bytes. *)
Definition features_arrive (m : TableFeatures) : TableFeatures :=
  MkTableFeatures (TableFeatures_Table m) (firstn 32 (TableFeatures_Name m ++ zeros 32))
    (TableFeatures_MetadataMatch m) (TableFeatures_MetadataWrite m) (TableFeatures_Config m)
    (TableFeatures_MaxEntries m) (map prop_arrives (TableFeatures_Properties m)).

(** ** The standard form of the lists of fields

    An element is the header of a match entry: class, field, mask flag and the
    length a payload would have. *)
Record field_id := MkFieldId { id_class : N; id_field : N; id_masked : bool; id_len : N }.
Definition wf_field_id (i : field_id) : Prop :=
  (id_class i < 65536)%N /\ (id_field i < 128)%N /\ (id_len i < 256)%N.
Definition field_id_bytes (i : field_id) : bytes :=
  be_enc 2 (id_class i) ++ be_enc 1 (2 * id_field i + N.b2n (id_masked i)) ++ be_enc 1 (id_len i).
(** A property of type [t] with these elements. *)
Definition standard_fields (t : N) (l : list field_id) : bytes :=
  let n := 4 + 4 * length l in
  be_enc 2 t ++ be_enc 2 (N.of_nat n) ++ concat (map field_id_bytes l) ++ zeros (up8 n - n).
(** What the library makes of an element: an entry with a value (and mask) of zeros. *)
Definition field_id_read (i : field_id) : XM :=
  let n := N.to_nat (id_len i) in
  if id_masked i then MkXM (id_class i) (id_field i) (zeros (n / 2)) (zeros (n / 2))
  else MkXM (id_class i) (id_field i) (zeros n) [].

(** The property types the library knows. *)
Definition known_props : list N := [0; 1; 2; 3; 4; 5; 6; 7; 8; 10; 12; 13; 14; 15; 65534; 65535]%N.
