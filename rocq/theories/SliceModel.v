(** Go slices as windows on shared arrays, and the list readers of ofp on them.

    Elsewhere in the model a slice is the list of its elements.  Here the arrays
    behind slices are explicit, to say what a reader does to lists that were
    taken from a message before it was read again. *)
From Verif Require Export TableModel InstructionModel PortsModel MeterModel QueueModel HelloModel.

(** The arrays, in the order of their allocation. *)
Definition heap (A : Type) := list (list A).

(** A slice: the array it looks at, where its window starts, its length and its
    capacity.  A nil slice has capacity 0. *)
Record slice := MkSlice { arr : nat; off : nat; len : nat; cap : nat }.

Definition nil_slice : slice := MkSlice 0 0 0 0.

(** What is seen through a slice. *)
Definition view {A} (h : heap A) (s : slice) : list A := firstn (len s) (skipn (off s) (nth (arr s) h [])).

(** [s[:0]] *)
Definition truncated (s : slice) : slice := MkSlice (arr s) (off s) 0 (cap s).

Fixpoint set_cell {A} (i : nat) (x : A) (l : list A) : list A :=
  match l, i with
  | [], _ => []
  | _ :: l', O => x :: l'
  | y :: l', S i' => y :: set_cell i' x l'
  end.

(** [append(s, x)]: in place while there is room, else into a new array.  The
    capacity of the new array is up to the runtime: [grow n] for a full slice of
    [n] elements, at least one more than [n]; the cells behind the appended
    element hold [z]. *)
Definition append {A} (grow : nat -> nat) (z x : A) (h : heap A) (s : slice) : heap A * slice :=
  if len s <? cap s
  then (set_cell (arr s) (set_cell (off s + len s) x (nth (arr s) h [])) h,
        MkSlice (arr s) (off s) (S (len s)) (cap s))
  else let c := Nat.max (S (len s)) (grow (len s)) in
       (h ++ [view h s ++ [x] ++ repeat z (c - S (len s))], MkSlice (length h) 0 (S (len s)) c).

(** The arrays together with the slice variable a reader appends to. *)
Record store A := MkStore { cells : heap A; var : slice }.
Arguments MkStore {A}. Arguments cells {A}. Arguments var {A}.

(** [*l = append( *l, x)] *)
Definition push {A} (grow : nat -> nat) (z x : A) (s : store A) : store A :=
  let '(h, v) := append grow z x (cells s) (var s) in MkStore h v.

(** [reflect.Append(sliceValue, elem)] with its result dropped
    (internal/encoding/encoding.go:150-153): the arrays change, the variable does not. *)
Definition push_dropped {A} (grow : nat -> nat) (z x : A) (s : store A) : store A :=
  MkStore (fst (append grow z x (cells s) (var s))) (var s).

(** [ *l = ( *l)[:0]] and [ *l = nil]. *)
Definition truncate {A} (s : store A) : store A := MkStore (cells s) (truncated (var s)).
Definition forget {A} (s : store A) : store A := MkStore (cells s) nil_slice.

(** A method with a value receiver: the variable of the caller stays (meter.go:120,
    queue.go:70, handshake.go:60). *)
Definition by_value {A} (f : step (store A)) : step (store A) := fun s inp =>
  let r := f s inp in Res (MkStore (cells (val r)) (var s)) (cnt r) (fail r) (rest r).

(** ** The loops that append, with the append as a parameter

    [ScanFrom] with a maker that appends (internal/encoding/encoding.go:204-245).
    The element is a pointer to a fresh object, appended before it is read; the
    cell stands for the object. *)
Fixpoint scan_to {A St} (fuel : nat) (mk : N -> made A) (rd : step A) (put : A -> St -> St)
    (s : St) (inp : bytes) : res St :=
  match fuel with
  | O => Res s 0 (Some EFuel) []
  | S fuel' =>
      if length inp <? 2 then Res s 0 None []
      else
        match mk (be_dec (firstn 2 inp)) with
        | MkUnknown => Res s 0 (Some (EUnknown (be_dec (firstn 2 inp)))) []
        | MkPanic => Res s 0 (Some EPanic) []
        | MkOk a =>
            let r := rd a inp in
            match fail r with
            | Some e => Res (put (val r) s) (cnt r) (skip_eof (Some e)) []
            | None =>
                let r' := scan_to fuel' mk rd put (put (val r) s) (rest r) in
                Res (val r') (cnt r + cnt r') (fail r') (rest r')
            end
        end
  end.

Definition scanning {A St} (mk : N -> made A) (rd : step A) (put : A -> St -> St) : step St := fun s inp =>
  scan_to (S (length inp)) mk rd put s inp.

(** readAllXM, ofp/match.go:319-342. *)
Fixpoint xm_to {St} (fuel : nat) (payload : bool) (put : XM -> St -> St) (s : St) (inp : bytes) : St * option err :=
  match fuel with
  | O => (s, Some EFuel)
  | S fuel' =>
      if length inp <? 4 then (s, None)
      else
        let r := dec_xm payload zero_XM inp in
        match fail r with
        | Some e => (s, Some e)
        | None => xm_to fuel' payload put (put (val r) s) (rest r)
        end
  end.

Definition all_xm {St} (payload : bool) (put : XM -> St -> St) : step St := fun s inp =>
  let '(s', e) := xm_to (S (length inp)) payload put s inp in Res s' (length inp) e [].

(** Ports.ReadFrom, ofp/port.go:325-342. *)
Fixpoint ports_to {St} (fuel : nat) (put : Port -> St -> St) (s : St) (inp : bytes) : res St :=
  match fuel with
  | O => Res s 0 (Some EFuel) inp
  | S fuel' =>
      let r := dec_Port zero_Port inp in
      match fail r with
      | Some EOF => Res s (cnt r) None (rest r)
      | Some e => Res (put (val r) s) (cnt r) (Some e) (rest r)
      | None =>
          let r' := ports_to fuel' put (put (val r) s) (rest r) in
          Res (val r') (cnt r + cnt r') (fail r') (rest r')
      end
  end.

(** ** The readers *)

(** In the following the last argument of [push] only fills cells behind a
    slice, which are never read. *)

(** A table property with a list (ofp/table.go:425-735): the miss flag, if the
    kind has one, and the list.  [flag] says whether it has. *)
Definition list_prop A := (bool * store A)%type.

(** yieldTableProp, ofp/table.go:315-333. *)
Definition list_prop_head {A} (flag : bool) : step (N * list_prop A) :=
  fbytes 4 (fun b s => (be_dec (skipn 2 b),
                        ((if flag then N.testbit (be_dec (firstn 2 b)) 0 else fst (snd s)), snd (snd s)))).

(** The readers of ofp/table.go:368-422, 471-496: header, list, padding.  The
    list is emptied keeping its array (374, 409, 480). *)
Definition list_prop_body {A} (flag : bool) (f : step (store A)) : step (list_prop A) :=
  with_local 0%N
    (andthen (list_prop_head flag)
       (fun _ h => andthen (limited (Z.of_N (sub16 (fst h) 4))
                              (sub snd (fun x s => (fst s, x))
                                 (sub snd (fun x s => (fst s, x)) (pre truncate f))))
                     (fun _ _ => fpad (pad_len (N.to_nat (fst h)))))).

(** readTablePropActions, ofp/table.go:401-422, TablePropInstructions.ReadFrom, 471-496. *)
Definition slice_types (grow : nat -> nat) : step (list_prop N) :=
  list_prop_body true (readfunc 0%N dec_bare (push grow 0%N)).

(** readTablePropXM, ofp/table.go:368-382; with the miss flag for the set-field
    properties, without it for match and wildcards. *)
Definition slice_xms (grow : nat -> nat) (flag : bool) : step (list_prop XM) :=
  list_prop_body flag (all_xm false (push grow zero_XM)).

(** Actions.ReadFrom, ofp/action.go:197-214. *)
Definition slice_Actions (grow : nat -> nat) : step (store Action) :=
  pre forget (scanning make_action dec_Action (push grow ACopyTTLOut)).

(** The fields of a match, ofp/match.go:471 and 485 (readAllXM through the
    limited reader). *)
Definition slice_fields (grow : nat -> nat) : step (store XM) := pre forget (all_xm true (push grow zero_XM)).

(** The properties of table features, ofp/table.go:172-190. *)
Definition slice_props (grow : nat -> nat) : step (store TableProp) :=
  pre forget (scanning make_prop dec_TableProp (push grow (TMatch []))).

(** Instructions.ReadFrom, ofp/instruction.go:123-138: not emptied first. *)
Definition slice_Instructions (grow : nat -> nat) : step (store Instruction) :=
  scanning make_instruction dec_Instruction (push grow IClearActions).

(** Ports.ReadFrom, ofp/port.go:325-342: not emptied first. *)
Definition slice_Ports (grow : nat -> nat) : step (store Port) := fun s inp =>
  ports_to (S (length inp)) (push grow zero_Port) s inp.

(** MeterBands.ReadFrom, ofp/meter.go:122-138, QueueProps.ReadFrom, ofp/queue.go:72-88,
    HelloElems.ReadFrom, ofp/handshake.go:62-78: value receivers. *)
Definition slice_bands (grow : nat -> nat) : step (store MeterBand) :=
  by_value (scanning make_band dec_MeterBand (push grow (BandDrop 0 0))).
Definition slice_queue_props (grow : nat -> nat) : step (store QueueProp) :=
  by_value (scanning make_queue_prop dec_QueueProp (push grow (PropMinRate 0))).

Definition slice_elems (grow : nat -> nat) : step (store HelloElem) :=
  by_value (scanning make_hello_elem dec_HelloElem (push grow zero_HelloElem)).

(** The buckets of a group modification (ofp/group.go:108-118) or description
    (ofp/group.go:337-350): ReadSliceFrom, internal/encoding/encoding.go:148-154. *)
Definition slice_buckets (grow : nat -> nat) : step (store Bucket) := readfunc zero_Bucket dec_Bucket (push_dropped grow zero_Bucket).
(** The counters of group statistics (ofp/group.go:258-274), the band statistics
    (ofp/meter.go:487-501) and the queues of a reply (ofp/queue.go:365-380). *)
Definition slice_counters (grow : nat -> nat) : step (store BucketCounter) :=
  readfunc zero_BucketCounter dec_BucketCounter (push_dropped grow zero_BucketCounter).
Definition slice_band_stats (grow : nat -> nat) : step (store MeterBandStats) :=
  readfunc zero_MeterBandStats dec_MeterBandStats (push_dropped grow zero_MeterBandStats).
Definition slice_queues (grow : nat -> nat) : step (store PacketQueue) :=
  readfunc zero_PacketQueue dec_PacketQueue (push_dropped grow zero_PacketQueue).
