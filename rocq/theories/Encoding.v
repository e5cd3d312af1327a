(** Model of internal/encoding/encoding.go.

    A Go [io.Reader] is modelled by the bytes it still holds; when they are
    used up it reports [io.EOF].  (Readers that fragment their data are modelled
    separately in RequestModel.v: [io.ReadFull], used by [binary.Read], makes
    the functions of this file insensitive to fragmentation.) *)
From Verif Require Export Bytes.

(** Errors as values.  [EPanic] is a Go panic; [EFuel] marks a loop of the
    model running out of fuel and is proved unreachable. *)
Inductive err :=
| EOF                     (* io.EOF *)
| UnexpectedEOF           (* io.ErrUnexpectedEOF *)
| EUnknown (t : N)        (* "unknown ... type" *)
| ECorrupted              (* openflow.ErrCorruptedHeader *)
| ETooLong                (* openflow.ErrBodyTooLong *)
| EUser (e : N)           (* any other error, e.g. of a transport or payload *)
| EPanic
| EFuel.

(** Outcome of [x.ReadFrom(r)]: receiver afterwards, reported count, error,
    bytes left in the reader. *)
Record res (S : Type) := Res { val : S; cnt : nat; fail : option err; rest : bytes }.
Arguments Res {S}. Arguments val {S}. Arguments cnt {S}. Arguments fail {S}. Arguments rest {S}.

(** A decoder: old receiver and available bytes to outcome. *)
Definition step (S : Type) := S -> bytes -> res S.

(** [binary.Read] of a [k]-byte value (encoding.go:104 through the counting
    reader 13-23): [io.ReadFull] fails with [io.EOF] on no data and with
    [io.ErrUnexpectedEOF] on partial data, the partial bytes being consumed and
    counted; the destination is written only on success. *)
Definition take_full {S} (k : nat) (upd : bytes -> S -> S) : step S := fun s inp =>
  if length inp <? k
  then Res s (length inp) (Some (match inp with [] => EOF | _ => UnexpectedEOF end)) []
  else Res (upd (firstn k inp) s) k None (skipn k inp).

(** An unsigned integer field of [k] bytes. *)
Definition fu {S} (k : nat) (set : N -> S -> S) : step S :=
  take_full k (fun b s => set (be_dec b) s).

(** A fixed array or pre-allocated slice of [k] bytes. *)
Definition fbytes {S} (k : nat) (set : bytes -> S -> S) : step S := take_full k set.

(** Discarded bytes: [&defaultPadN] or a struct whose value is not kept. *)
Definition fpad {S} (k : nat) : step S := take_full k (fun _ s => s).

(** Split into [k] chunks of [w] bytes. *)
Fixpoint chunks (w k : nat) (l : bytes) : list bytes :=
  match k with O => [] | S k' => firstn w l :: chunks w k' (skipn w l) end.

(** An array (or pre-allocated slice) of [k] unsigned integers of [w] bytes. *)
Definition fus {S} (w k : nat) (set : list N -> S -> S) : step S :=
  take_full (w * k) (fun b s => set (map be_dec (chunks w k b)) s).

(** [ReadFrom(r, v...)], encoding.go:90-113: the elements in order, stopping at
    the first error, counts added. *)
Fixpoint seqr {S} (fs : list (step S)) : step S := fun s inp =>
  match fs with
  | [] => Res s 0 None inp
  | f :: fs' =>
      let r := f s inp in
      match fail r with
      | Some _ => r
      | None =>
          let r' := seqr fs' (val r) (rest r) in
          Res (val r') (cnt r + cnt r') (fail r') (rest r')
      end
  end.

(** An element that is itself an [io.ReaderFrom] (encoding.go:100-102), living
    in a part of the receiver. *)
Definition sub {S A} (get : S -> A) (set : A -> S -> S) (rd : step A) : step S := fun s inp =>
  let r := rd (get s) inp in Res (set (val r) s) (cnt r) (fail r) (rest r).

(** The Go idiom [n, err := a; if err != nil {return n, err}; nn, err := b;
    return n+nn, err], where [b] may use [n] and the values read by [a]. *)
Definition andthen {S} (a : step S) (b : nat -> S -> step S) : step S := fun s inp =>
  let r := a s inp in
  match fail r with
  | Some _ => r
  | None =>
      let r' := b (cnt r) (val r) (val r) (rest r) in
      Res (val r') (cnt r + cnt r') (fail r') (rest r')
  end.

(** The same idiom without the error check after [a]: the first error is
    overwritten (ofp/group.go:342-349, ofp/meter.go:492-500). *)
Definition andthen_ignoring {S} (a : step S) (b : nat -> S -> step S) : step S := fun s inp =>
  let r := a s inp in
  let r' := b (cnt r) (val r) (val r) (rest r) in
  Res (val r') (cnt r + cnt r') (fail r') (rest r').

(** Local variables of a decoder: run with extra state [l], drop it at the end. *)
Definition with_local {L S} (l : L) (f : step (L * S)) : step S := fun s inp =>
  let r := f (l, s) inp in Res (snd (val r)) (cnt r) (fail r) (rest r).

(** Assignments before decoding. *)
Definition pre {S} (g : S -> S) (f : step S) : step S := fun s inp => f (g s) inp.

(** [io.LimitReader(r, z)]: a non-positive limit is immediate EOF. *)
Definition limited {S} (z : Z) (f : step S) : step S := fun s inp =>
  let k := Z.to_nat z in
  let r := f s (firstn k inp) in
  Res (val r) (cnt r) (fail r) (rest r ++ skipn k inp).

(** [ioutil.ReadAll] into a field. *)
Definition readall {S} (set : bytes -> S -> S) : step S := fun s inp =>
  Res (set inp s) (length inp) None [].

(** [SkipEOF], encoding.go:249-255. *)
Definition skip_eof (e : option err) : option err :=
  match e with Some EOF => None | _ => e end.

(** Result of [rm.MakeReader()] for a type tag: unknown tag (error), a panic in
    the type assertion of encoding.go:192, or a fresh zero element. *)
Inductive made (A : Type) := MkUnknown | MkPanic | MkOk (a : A).
Arguments MkUnknown {A}. Arguments MkPanic {A}. Arguments MkOk {A}.

(** [ScanFrom], encoding.go:204-245, for a two-byte type tag.  [Peek] failing
    (fewer than two bytes left) ends the scan with [SkipEOF].  The element is
    appended to the list when made (before it is read), so a partially read
    element stays in the list.  Simplification: when the scan stops early the
    rest of the reader counts as consumed by the [bufio.Reader]; exact for
    readers holding at most 4096 bytes. *)
Fixpoint scan_loop {A} (fuel : nat) (mk : N -> made A) (rd : step A)
    (acc : list A) (inp : bytes) : res (list A) :=
  match fuel with
  | O => Res acc 0 (Some EFuel) []
  | S fuel' =>
      if length inp <? 2 then Res acc 0 None []
      else
        match mk (be_dec (firstn 2 inp)) with
        | MkUnknown => Res acc 0 (Some (EUnknown (be_dec (firstn 2 inp)))) []
        | MkPanic => Res acc 0 (Some EPanic) []
        | MkOk a =>
            let r := rd a inp in
            match fail r with
            | Some e => Res (acc ++ [val r]) (cnt r) (skip_eof (Some e)) []
            | None =>
                let r' := scan_loop fuel' mk rd (acc ++ [val r]) (rest r) in
                Res (val r') (cnt r + cnt r') (fail r') (rest r')
            end
        end
  end.

Definition scan {A} (mk : N -> made A) (rd : step A) : step (list A) := fun old inp =>
  scan_loop (S (length inp)) mk rd old inp.

(** [ReadFunc], encoding.go:160-178: read fresh elements until one fails, hand
    each complete element to [fn]. *)
Fixpoint readfunc_loop {A S} (fuel : nat) (zero : A) (rd : step A) (fn : A -> S -> S)
    (s : S) (inp : bytes) : res S :=
  match fuel with
  | O => Res s 0 (Some EFuel) []
  | Datatypes.S fuel' =>
      let r := rd zero inp in
      match fail r with
      | Some e => Res s (cnt r) (skip_eof (Some e)) (rest r)
      | None =>
          let r' := readfunc_loop fuel' zero rd fn (fn (val r) s) (rest r) in
          Res (val r') (cnt r + cnt r') (fail r') (rest r')
      end
  end.

Definition readfunc {A S} (zero : A) (rd : step A) (fn : A -> S -> S) : step S := fun s inp =>
  readfunc_loop (Datatypes.S (length inp)) zero rd fn s inp.

(** [ReadSliceFrom], encoding.go:148-154: the result of [reflect.Append] is
    discarded, so the caller's slice keeps its old contents.  (For the elements
    written into spare capacity behind the slice see SliceModel.v.) *)
Definition readslice {A S} (zero : A) (rd : step A) : step S :=
  readfunc zero rd (fun _ s => s).

(** Encoders ([WriteTo(w, v...)], encoding.go:66-88) are concatenations. *)
Definition u8 (n : N) : bytes := be_enc 1 n.
Definition u16 (n : N) : bytes := be_enc 2 n.
Definition u32 (n : N) : bytes := be_enc 4 n.
Definition u64 (n : N) : bytes := be_enc 8 n.
Definition pad (k : nat) : bytes := zeros k.
Definition uarr (w : nat) (l : list N) : bytes := concat (map (be_enc w) l).

(** [copy(make([]byte, k), s)]: truncated or NUL-padded text. *)
Definition fixtext (k : nat) (s : bytes) : bytes :=
  firstn k s ++ zeros (k - length s).

(** [padLen], ofp/pad.go:28-30. *)
Definition pad_len (len : nat) : nat := (len + 7) / 8 * 8 - len.
