(** The lock of a multiplexer, with matchers that use the multiplexer (mux.go:59-162).

    Goroutines register entries and dispatch requests on one multiplexer; while a
    matcher is asked, it may itself register and dispatch on it.  The lock is a
    sync.RWMutex: Lock first takes its turn among the writers and announces
    itself, from then on RLock waits; Lock goes on when nobody holds the lock for
    reading.  The lock does not know goroutines: a goroutine that holds it for
    reading can wait for itself.
    Simplifications: a request is a number; what the handler does comes after the
    dispatch and is part of the program of the goroutine; taking the turn among
    the writers and announcing is one step, and so are a write section and Unlock. *)
From Coq Require Export List Arith Bool Lia.
Export ListNotations.

(** Handle and HandleOnce (mux.go:96-106) with matcher number [p], and Serve or
    Handler (mux.go:114-169). *)
Inductive lop := LRegister (p : nat) (once : bool) | LServe (r : nat).

(** What matchers do with a request before they answer, and the answer. *)
Record matchers := MkMatchers { inner : nat -> nat -> list lop; says : nat -> nat -> bool }.

(** What a write section does: add an entry (mux.go:79-92; a matcher that is
    registered panics and changes nothing), remove one (mux.go:153-161). *)
Inductive section := Add (p : nat) (once : bool) | Remove (p : nat).

Definition entry := (nat * bool)%type.
Definition there (p : nat) (es : list entry) : bool := existsb (fun e => fst e =? p) es.
Definition apply (w : section) (es : list entry) : list entry :=
  match w with
  | Add p once => if there p es then es else (p, once) :: es
  | Remove p => filter (fun e => negb (fst e =? p)) es
  end.

(** Calls a goroutine is in, the innermost first.  [Todo]: operations to do, of the
    goroutine itself or of a matcher.  [Looking]: in the loop of Handler
    (mux.go:124-128).  [Asking]: in the call of Match, the frame above is the
    matcher.  [Wants]: in front of Lock.  [Announced]: in Lock, announced. *)
Inductive frame :=
| Todo (l : list lop) | Looking (rest : list entry) (r : nat) | Asking (e : entry) (rest : list entry) (r : nat)
| Wants (w : section) | Announced (w : section).

(** What is finished: a dispatch with the entry that was found, a write section
    with what was there before. *)
Inductive done := Found (e : option entry) | Wrote (w : section) (before : list entry).

(** [rds]: the goroutines that hold the lock for reading, as often as they do;
    [ann]: the goroutine that has announced itself in Lock. *)
Record lmux := MkLmux {
  ents : list entry; rds : list nat; ann : option nat; stacks : nat -> list frame; fin : list (nat * done) }.

Definition set (i : nat) (st : list frame) (f : nat -> list frame) : nat -> list frame := fun j => if j =? i then st else f j.

(** RUnlock gives one of the holds back. *)
Fixpoint release (i : nat) (l : list nat) : list nat :=
  match l with [] => [] | j :: l' => if j =? i then l' else j :: release i l' end.

(** The order of the map is arbitrary. *)
Fixpoint choose (n : nat) (e : entry) (l : list entry) : entry * list entry :=
  match n, l with
  | S n', f :: l' => let '(x, rest) := choose n' f l' in (x, e :: rest)
  | _, _ => (e, l)
  end.

(** One step of goroutine [i]; [n] says which entry comes next. *)
Definition lstep (ms : matchers) (i n : nat) (s : lmux) : option lmux :=
  match stacks s i with
  | Todo (LServe r :: l) :: st =>
      match ann s with
      | Some _ => None
      | None => Some (MkLmux (ents s) (i :: rds s) None (set i (Looking (ents s) r :: Todo l :: st) (stacks s)) (fin s))
      end
  | Todo (LRegister p once :: l) :: st =>
      match ann s with
      | Some _ => None
      | None => Some (MkLmux (ents s) (rds s) (Some i) (set i (Announced (Add p once) :: Todo l :: st) (stacks s)) (fin s))
      end
  | Wants w :: st =>
      match ann s with
      | Some _ => None
      | None => Some (MkLmux (ents s) (rds s) (Some i) (set i (Announced w :: st) (stacks s)) (fin s))
      end
  | Announced w :: st =>
      match rds s with
      | _ :: _ => None
      | [] => Some (MkLmux (apply w (ents s)) [] None (set i st (stacks s)) (fin s ++ [(i, Wrote w (ents s))]))
      end
  | Looking [] r :: st =>
      Some (MkLmux (ents s) (release i (rds s)) (ann s) (set i st (stacks s)) (fin s ++ [(i, Found None)]))
  | Looking (e0 :: rest0) r :: st =>
      let '(e, rest) := choose n e0 rest0 in
      Some (MkLmux (ents s) (rds s) (ann s) (set i (Todo (inner ms (fst e) r) :: Asking e rest r :: st) (stacks s)) (fin s))
  | Todo [] :: Asking e rest r :: st =>
      if says ms (fst e) r
      then if snd e
           then Some (MkLmux (ents s) (release i (rds s)) (ann s) (set i (Wants (Remove (fst e)) :: st) (stacks s)) (fin s))
           else Some (MkLmux (ents s) (release i (rds s)) (ann s) (set i st (stacks s)) (fin s ++ [(i, Found (Some e))]))
      else Some (MkLmux (ents s) (rds s) (ann s) (set i (Looking rest r :: st) (stacks s)) (fin s))
  | _ => None
  end.

Definition lact (ms : matchers) (s : lmux) (a : nat * nat) : lmux :=
  match lstep ms (fst a) (snd a) s with Some s' => s' | None => s end.
Definition lrun (ms : matchers) (sch : list (nat * nat)) (s : lmux) : lmux := fold_left (lact ms) sch s.

(** A multiplexer with entries [es] and goroutines with [prog i] to do. *)
Definition lstart (es : list entry) (prog : nat -> list lop) : lmux := MkLmux es [] None (fun i => [Todo (prog i)]) [].
