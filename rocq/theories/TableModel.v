(** Model of the table features of ofp/table.go:100-789. *)
From Verif Require Export GroupModel.

(** The Go types implementing TableProp, ofp/table.go:425-789 ([miss]: the
    property for the table-miss entry). *)
Inductive TableProp :=
| TInstructions (miss : bool) (l : list N)
| TNextTables (miss : bool) (l : list N)
| TWriteActions (miss : bool) (l : list N)
| TApplyActions (miss : bool) (l : list N)
| TMatch (l : list XM)
| TWildcards (l : list XM)
| TWriteSetField (miss : bool) (l : list XM)
| TApplySetField (miss : bool) (l : list XM)
| TExperimenter (miss : bool) (experimenter exptype : N) (d : bytes).

(** tablePropType, ofp/table.go:342-348. *)
Definition by_miss (miss : bool) (t m : N) : N := if miss then m else t.

(** The Type methods with the constants of ofp/table.go:206-261. *)
Definition prop_type (p : TableProp) : N :=
  match p with
  | TInstructions m _ => by_miss m 0 1
  | TNextTables m _ => by_miss m 2 3
  | TWriteActions m _ => by_miss m 4 5
  | TApplyActions m _ => by_miss m 6 7
  | TMatch _ => 8
  | TWildcards _ => 10
  | TWriteSetField m _ => by_miss m 12 13
  | TApplySetField m _ => by_miss m 14 15
  | TExperimenter m _ _ _ => by_miss m 65534 65535
  end%N.

(** tablePropMap, ofp/table.go:282-299. *)
Definition make_prop (t : N) : made TableProp :=
  (if (t =? 0) || (t =? 1) then MkOk (TInstructions false [])
   else if (t =? 2) || (t =? 3) then MkOk (TNextTables false [])
   else if (t =? 4) || (t =? 5) then MkOk (TWriteActions false [])
   else if (t =? 6) || (t =? 7) then MkOk (TApplyActions false [])
   else if t =? 8 then MkOk (TMatch [])
   else if t =? 10 then MkOk (TWildcards [])
   else if (t =? 12) || (t =? 13) then MkOk (TWriteSetField false [])
   else if (t =? 14) || (t =? 15) then MkOk (TApplySetField false [])
   else if (t =? 65534) || (t =? 65535) then MkOk (TExperimenter false 0 0 [])
   else MkUnknown)%N.

(** The struct tableProp, ofp/table.go:310-313, as written by binary.Write. *)
Definition prop_header (t len : N) : bytes := u16 t ++ u16 len.

(** A list of bare action or instruction headers (type and header length). *)
Definition bare (l : list N) : bytes := concat (map (fun t => u16 t ++ u16 4) l).

(** TablePropInstructions.WriteTo, ofp/table.go:450-467: the padding is computed
    from the 16-bit length. *)
Definition enc_prop_instructions (t : N) (l : list N) : bytes :=
  let proplen := 4 + 4 * length l in
  let len := uwrap 2 (N.of_nat proplen) in
  concat [prop_header t len; bare l; pad (pad_len (N.to_nat len))].

(** TablePropNextTables.WriteTo, ofp/table.go:524-530. *)
Definition enc_prop_tables (t : N) (l : list N) : bytes :=
  let headerlen := 4 + length l in
  concat [prop_header t (uwrap 2 (N.of_nat headerlen)); uarr 1 l; pad (pad_len headerlen)].

(** writeTablePropActions, ofp/table.go:384-396. *)
Definition enc_prop_actions (t : N) (l : list N) : bytes :=
  let proplen := 4 + 4 * length l in
  concat [prop_header t (uwrap 2 (N.of_nat proplen)); bare l; pad (pad_len proplen)].

(** writeTablePropXM, ofp/table.go:350-366: the length counts four bytes per
    entry, whatever an entry writes. *)
Definition enc_prop_xm (t : N) (l : list XM) : bytes :=
  let headerlen := 4 + 4 * length l in
  concat [prop_header t (uwrap 2 (N.of_nat headerlen)); concat (map enc_XM l); pad (pad_len headerlen)].

(** TablePropExperimenter.WriteTo, ofp/table.go:759-765. *)
Definition enc_prop_experimenter (t e x : N) (d : bytes) : bytes :=
  let len := uwrap 2 (N.of_nat (4 + length d + 8)) in
  concat [prop_header t len; u32 e; u32 x; d; pad (pad_len (N.to_nat len))].

(** The WriteTo methods: the above and ofp/table.go:573-575, 609-611, 633-635,
    657-659, 687-689, 723-725. *)
Definition enc_TableProp (p : TableProp) : bytes :=
  let t := prop_type p in
  match p with
  | TInstructions _ l => enc_prop_instructions t l
  | TNextTables _ l => enc_prop_tables t l
  | TWriteActions _ l | TApplyActions _ l => enc_prop_actions t l
  | TMatch l | TWildcards l | TWriteSetField _ l | TApplySetField _ l => enc_prop_xm t l
  | TExperimenter _ e x d => enc_prop_experimenter t e x d
  end.

(** Parameters of a property. *)
Definition set_miss (m : bool) (p : TableProp) : TableProp :=
  match p with
  | TInstructions _ l => TInstructions m l
  | TNextTables _ l => TNextTables m l
  | TWriteActions _ l => TWriteActions m l
  | TApplyActions _ l => TApplyActions m l
  | TWriteSetField _ l => TWriteSetField m l
  | TApplySetField _ l => TApplySetField m l
  | _ => p
  end.
Definition set_types (l : list N) (p : TableProp) : TableProp :=
  match p with
  | TInstructions m _ => TInstructions m l
  | TNextTables m _ => TNextTables m l
  | TWriteActions m _ => TWriteActions m l
  | TApplyActions m _ => TApplyActions m l
  | _ => p
  end.
Definition get_types (p : TableProp) : list N :=
  match p with TInstructions _ l | TNextTables _ l | TWriteActions _ l | TApplyActions _ l => l | _ => [] end.
Definition set_xms (l : list XM) (p : TableProp) : TableProp :=
  match p with
  | TMatch _ => TMatch l
  | TWildcards _ => TWildcards l
  | TWriteSetField m _ => TWriteSetField m l
  | TApplySetField m _ => TApplySetField m l
  | _ => p
  end.
Definition get_xms (p : TableProp) : list XM :=
  match p with TMatch l | TWildcards l | TWriteSetField _ l | TApplySetField _ l => l | _ => [] end.
Definition set_prop_experimenter (v : N) (p : TableProp) : TableProp :=
  match p with TExperimenter m _ x d => TExperimenter m v x d | _ => p end.
Definition set_prop_exptype (v : N) (p : TableProp) : TableProp :=
  match p with TExperimenter m e _ d => TExperimenter m e v d | _ => p end.
Definition set_prop_data (d : bytes) (p : TableProp) : TableProp :=
  match p with TExperimenter m e x _ => TExperimenter m e x d | _ => p end.

(** yieldTableProp, ofp/table.go:315-333: the header is one value of four bytes;
    the low bit of the type is the miss flag ([set_miss] leaves the kinds
    without the flag alone).  [header.Len] is the first component of the state. *)
Definition prop_head : step (N * TableProp) :=
  fbytes 4 (fun b s => (be_dec (skipn 2 b), set_miss (N.testbit (be_dec (firstn 2 b)) 0) (snd s))).

(** The readers of ofp/table.go that read elements through the limited reader
    (length [header.Len - 4], 16-bit arithmetic) and then the padding. *)
Definition prop_body (f : step TableProp) : step TableProp :=
  with_local 0%N
    (andthen prop_head
       (fun _ h => andthen (limited (Z.of_N (sub16 (fst h) 4)) (sub snd (fun x s => (fst s, x)) f))
                     (fun _ _ => fpad (pad_len (N.to_nat (fst h)))))).

(** The element headers, ofp/action.go:149-151 and ofp/instruction.go:83-85, of
    which only the type is kept. *)
Definition dec_bare : step N := seqr [fu 2 (fun v _ => v); fpad 2].

(** readTablePropActions, ofp/table.go:401-422, and TablePropInstructions.ReadFrom,
    ofp/table.go:471-496. *)
Definition dec_prop_types : step TableProp :=
  prop_body (pre (set_types []) (readfunc 0%N dec_bare (fun t p => set_types (get_types p ++ [t]) p))).

(** readTablePropXM, ofp/table.go:368-382. *)
Definition dec_prop_xm : step TableProp :=
  prop_body (pre (set_xms []) (sub get_xms set_xms (read_all_xm false))).

(** TablePropNextTables.ReadFrom, ofp/table.go:534-545: not limited; the slice is
    allocated before it is read. *)
Definition dec_prop_tables : step TableProp :=
  with_local 0%N
    (andthen prop_head
       (fun _ h =>
          let k := N.to_nat (sub16 (fst h) 4) in
          pre (fun s => (fst s, set_types (repeat 0%N k) (snd s)))
            (seqr [fus 1 k (fun l s => (fst s, set_types l (snd s))); fpad (pad_len (N.to_nat (fst h)))]))).

(** TablePropExperimenter.ReadFrom, ofp/table.go:769-789: 16-bit arithmetic for
    the limit and the padding; the miss flag is not set. *)
Definition dec_prop_experimenter : step TableProp :=
  with_local 0%N
    (andthen (seqr [fbytes 4 (fun b s => (be_dec (skipn 2 b), snd s));
                    sub snd (fun x s => (fst s, x)) (fu 4 set_prop_experimenter);
                    sub snd (fun x s => (fst s, x)) (fu 4 set_prop_exptype)])
       (fun _ h =>
          andthen (limited (Z.of_N (sub16 (fst h) 12)) (sub snd (fun x s => (fst s, x)) (readall set_prop_data)))
            (fun _ _ => fpad (N.to_nat (sub16 (uwrap 2 (fst h + 7) / 8 * 8) (fst h)))))).

(** The ReadFrom methods: the above and ofp/table.go:579-581, 615-617, 639-641,
    663-665, 693-695, 729-731. *)
Definition dec_TableProp : step TableProp := fun p =>
  match p with
  | TInstructions _ _ | TWriteActions _ _ | TApplyActions _ _ => dec_prop_types
  | TNextTables _ _ => dec_prop_tables
  | TMatch _ | TWildcards _ | TWriteSetField _ _ | TApplySetField _ _ => dec_prop_xm
  | TExperimenter _ _ _ _ => dec_prop_experimenter
  end p.

(** TableFeatures, ofp/table.go:111-132. *)
Record TableFeatures := MkTableFeatures {
  TableFeatures_Table : N; TableFeatures_Name : bytes; TableFeatures_MetadataMatch : N;
  TableFeatures_MetadataWrite : N; TableFeatures_Config : N; TableFeatures_MaxEntries : N;
  TableFeatures_Properties : list TableProp }.
(** Assignments to the fields of TableFeatures and its zero value (ofp/table.go:111-132). *)
Definition set_TableFeatures_Table (v : N) (s : TableFeatures) : TableFeatures := MkTableFeatures v (TableFeatures_Name s) (TableFeatures_MetadataMatch s) (TableFeatures_MetadataWrite s) (TableFeatures_Config s) (TableFeatures_MaxEntries s) (TableFeatures_Properties s).
Definition set_TableFeatures_Name (v : bytes) (s : TableFeatures) : TableFeatures := MkTableFeatures (TableFeatures_Table s) v (TableFeatures_MetadataMatch s) (TableFeatures_MetadataWrite s) (TableFeatures_Config s) (TableFeatures_MaxEntries s) (TableFeatures_Properties s).
Definition set_TableFeatures_MetadataMatch (v : N) (s : TableFeatures) : TableFeatures := MkTableFeatures (TableFeatures_Table s) (TableFeatures_Name s) v (TableFeatures_MetadataWrite s) (TableFeatures_Config s) (TableFeatures_MaxEntries s) (TableFeatures_Properties s).
Definition set_TableFeatures_MetadataWrite (v : N) (s : TableFeatures) : TableFeatures := MkTableFeatures (TableFeatures_Table s) (TableFeatures_Name s) (TableFeatures_MetadataMatch s) v (TableFeatures_Config s) (TableFeatures_MaxEntries s) (TableFeatures_Properties s).
Definition set_TableFeatures_Config (v : N) (s : TableFeatures) : TableFeatures := MkTableFeatures (TableFeatures_Table s) (TableFeatures_Name s) (TableFeatures_MetadataMatch s) (TableFeatures_MetadataWrite s) v (TableFeatures_MaxEntries s) (TableFeatures_Properties s).
Definition set_TableFeatures_MaxEntries (v : N) (s : TableFeatures) : TableFeatures := MkTableFeatures (TableFeatures_Table s) (TableFeatures_Name s) (TableFeatures_MetadataMatch s) (TableFeatures_MetadataWrite s) (TableFeatures_Config s) v (TableFeatures_Properties s).
Definition set_TableFeatures_Properties (v : list TableProp) (s : TableFeatures) : TableFeatures := MkTableFeatures (TableFeatures_Table s) (TableFeatures_Name s) (TableFeatures_MetadataMatch s) (TableFeatures_MetadataWrite s) (TableFeatures_Config s) (TableFeatures_MaxEntries s) v.
Definition zero_TableFeatures : TableFeatures := MkTableFeatures 0 [] 0 0 0 0 [].

(** TableFeatures.WriteTo, ofp/table.go:136-155: 16-bit conversion of the length. *)
Definition enc_TableFeatures (m : TableFeatures) : bytes :=
  let buf := concat (map enc_TableProp (TableFeatures_Properties m)) in
  concat [u16 (uwrap 2 (N.of_nat (64 + length buf))); u8 (TableFeatures_Table m); pad 5;
          fixtext 32 (TableFeatures_Name m); u64 (TableFeatures_MetadataMatch m);
          u64 (TableFeatures_MetadataWrite m); u32 (TableFeatures_Config m);
          u32 (TableFeatures_MaxEntries m); buf].

(** TableFeatures.ReadFrom, ofp/table.go:159-191: the name with its padding is
    assigned after the whole header was read; the list of properties is emptied
    and read through a reader limited in 64-bit signed arithmetic.  The locals
    [length] and [name] are the first component of the state. *)
Definition dec_TableFeatures : step TableFeatures :=
  with_local (0%N, [])
    (andthen (seqr [fu 2 (fun v s => ((v, snd (fst s)), snd s));
                    sub snd (fun m s => (fst s, m)) (fu 1 set_TableFeatures_Table); fpad 5;
                    fbytes 32 (fun b s => ((fst (fst s), b), snd s));
                    sub snd (fun m s => (fst s, m)) (fu 8 set_TableFeatures_MetadataMatch);
                    sub snd (fun m s => (fst s, m)) (fu 8 set_TableFeatures_MetadataWrite);
                    sub snd (fun m s => (fst s, m)) (fu 4 set_TableFeatures_Config);
                    sub snd (fun m s => (fst s, m)) (fu 4 set_TableFeatures_MaxEntries)])
       (fun n h =>
          pre (fun s => (fst s, set_TableFeatures_Properties [] (set_TableFeatures_Name (snd (fst s)) (snd s))))
            (limited (Z.of_N (fst (fst h)) - Z.of_nat n)
               (sub snd (fun m s => (fst s, m))
                  (sub TableFeatures_Properties set_TableFeatures_Properties (scan make_prop dec_TableProp)))))).
