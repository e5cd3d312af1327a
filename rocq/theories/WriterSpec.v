(** What a user expects of writing into a destination, in terms of the [Write]
    calls it gets and the bytes it keeps. *)
From Verif Require Export WriterModel.

(** A destination never reports more bytes than it was given. *)
Definition obeys (w : destination) : Prop := forall h b, fst (w h b) <= length b.

(** The bytes a destination keeps of the calls [cs], made after the calls [h]. *)
Fixpoint kept (w : destination) (h cs : list bytes) : bytes :=
  match cs with [] => [] | c :: cs' => firstn (fst (w h c)) c ++ kept w (h ++ [c]) cs' end.

(** All of these calls took everything and reported no error. *)
Fixpoint smooth (w : destination) (h cs : list bytes) : Prop :=
  match cs with [] => True | c :: cs' => w h c = (length c, None) /\ smooth w (h ++ [c]) cs' end.

(** The last call [c] failed with [e]: the error of the destination, or a short
    write it did not report. *)
Definition broke (w : destination) (h : list bytes) (c : bytes) (e : err) : Prop :=
  snd (w h c) = Some e \/ snd (w h c) = None /\ fst (w h c) < length c /\ e = EShort.

(** [ps] offered one after another after the calls [h]: either all were taken,
    or the first ones and then one call failed. *)
Definition offered (w : destination) (h ps cs : list bytes) (e : option err) : Prop :=
  match e with
  | None => cs = ps /\ smooth w h cs
  | Some x => exists f c t, ps = f ++ c :: t /\ cs = f ++ [c] /\ smooth w h f /\ broke w (h ++ f) c x
  end.

Definition filled (c : bytes) : bool := match c with [] => false | _ => true end.

(** The parts in which a value is handed over; empty ones are not. *)
Definition parts (v : value) : list bytes :=
  let head n b := firstn n b in
  match v with
  | OGroupMod m => head 8 (enc_GroupMod m) :: map enc_Bucket (GroupMod_Buckets m)
  | OMeterBands l => map enc_MeterBand l
  | OTableProp (TMatch l as p) | OTableProp (TWildcards l as p)
  | OTableProp (TWriteSetField _ l as p) | OTableProp (TApplySetField _ l as p) =>
      let b := enc_TableProp p in
      head 4 b :: map enc_XM l ++ [skipn (4 + length (concat (map enc_XM l))) b]
  | OTableProp (TInstructions _ l as p) =>
      let b := enc_TableProp p in [head (4 + 4 * length l) b; skipn (4 + 4 * length l) b]
  | _ => match encoding_of v with inl b => [b] | inr _ => [] end
  end.

(** Values that are handed over in one call. *)
Definition in_one_piece (v : value) : Prop :=
  match v with
  | OGroupMod _ | OMeterBands _ => False
  | OTableProp (TNextTables _ _) | OTableProp (TWriteActions _ _)
  | OTableProp (TApplyActions _ _) | OTableProp (TExperimenter _ _ _ _) => True
  | OTableProp _ => False
  | _ => True
  end.
