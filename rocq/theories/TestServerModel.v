(** Model of ofptest/server.go: the test server, its accept loop, calls of Close
    and of CloseClientConnections. *)
From Coq Require Export List Arith Bool Lia.
Export ListNotations.

(** Where a call of Close stands, ofptest/server.go:141-152.  [CWaiting n]: [n]
    closing goroutines have not been heard of yet (127-134). *)
Inductive cpc :=
| CStart                        (* not called yet, or before s.mu.Lock *)
| CLocked                       (* s.closed was false and is now true *)
| CSpawn                        (* after s.Listener.Close *)
| CWaiting (n : nat)
| CReturned.

(** Where a direct call of CloseClientConnections stands, ofptest/server.go:119-137:
    it takes no lock. *)
Inductive dpc := DStart | DRanging | DReturned.

(** The accept loop of Config.Serve (server.go:243-272, started in
    ofptest/server.go:103-109) as far as it matters here: in Accept,
    between Accept and the lock of the callback set by wrap (79-100), ended. *)
Inductive apc := AWait | AGot (c : nat) | AEnded.

(** [owner] is the holder of s.mu.  [fresh] numbers the connections accepted.
    [recorded] is s.conns.  [pending]: closing goroutines that have not run yet
    (113-116).  [acks]: messages in the channel of the call of Close.  [shut]:
    connections closed by the test server.  [raced]: s.conns was written while it was
    ranged over, after which Go promises nothing (the runtime stops the program
    when it notices).
    Simplifications: a connection is closed when its peer closes it, which is
    not followed; the steps of the closing goroutine are one; the channel of a
    direct call of CloseClientConnections is not followed (it returns at any
    time, like on a timeout). *)
Record tserver := MkTs {
  accepting : apc; listening : bool; fresh : nat; recorded : list nat; tclosed : bool;
  owner : option nat; closes : nat -> cpc; directs : nat -> dpc;
  pending : list nat; acks : nat; shut : list nat; raced : bool }.

Definition put {A} (f : nat -> A) (i : nat) (a : A) : nat -> A := fun j => if j =? i then a else f j.

Fixpoint remove_nth {A} (k : nat) (l : list A) : list A :=
  match l, k with
  | [], _ => []
  | _ :: l', O => l'
  | x :: l', S k' => x :: remove_nth k' l'
  end.

(** Scheduling: the accept loop moves; call [i] of Close, direct call [j] moves;
    the five seconds of call [i] are over (127-134); closing goroutine [k] runs;
    the closing goroutine of a direct call for connection [c] runs. *)
Inductive tmove :=
| TAccept | TClose (i : nat) | TTimeout (i : nat) | TCloser (k : nat) | TDirect (j : nat) | TDirectCloser (c : nat).

Definition ranging (s : tserver) (j : nat) : bool := match directs s j with DRanging => true | _ => false end.

(** One step; [None] if it is not possible.  [n] bounds the direct calls looked
    at for a conflict. *)
Definition tstep (n : nat) (m : tmove) (s : tserver) : option tserver :=
  let '(MkTs a l f r cl o cs ds p k sh bad) := s in
  if bad then None else
  match m with
  | TAccept =>
      match a with
      | AWait => if l then Some (MkTs (AGot f) l (S f) r cl o cs ds p k sh bad)
                 else Some (MkTs AEnded l f r cl o cs ds p k sh bad)
      | AGot c =>
          match o with
          | Some _ => None
          | None => Some (MkTs AWait l f (r ++ [c]) cl o cs ds p k sh (existsb (ranging s) (seq 0 n)))
          end
      | AEnded => None
      end
  | TClose i =>
      match cs i with
      | CStart =>
          match o with
          | Some _ => None
          | None => if cl then Some (MkTs a l f r cl o (put cs i CReturned) ds p k sh bad)
                    else Some (MkTs a l f r true (Some i) (put cs i CLocked) ds p k sh bad)
          end
      | CLocked => Some (MkTs a false f r cl o (put cs i CSpawn) ds p k sh bad)
      | CSpawn => Some (MkTs a l f r cl o (put cs i (CWaiting (length r))) ds r 0 sh bad)
      | CWaiting O => Some (MkTs a l f r cl None (put cs i CReturned) ds p k sh bad)
      | CWaiting (S w) =>
          match k with
          | O => None
          | S k' => Some (MkTs a l f r cl o (put cs i (CWaiting w)) ds p k' sh bad)
          end
      | CReturned => None
      end
  | TTimeout i =>
      match cs i with
      | CWaiting _ => Some (MkTs a l f r cl None (put cs i CReturned) ds p k sh bad)
      | _ => None
      end
  | TCloser j =>
      match nth_error p j with
      | None => None
      | Some c => Some (MkTs a l f r cl o cs ds (remove_nth j p) (S k) (c :: sh) bad)
      end
  | TDirect j =>
      if j <? n then
        match ds j with
        | DStart => Some (MkTs a l f r cl o cs (put ds j DRanging) p k sh bad)
        | DRanging => Some (MkTs a l f r cl o cs (put ds j DReturned) p k sh bad)
        | DReturned => None
        end
      else None
  | TDirectCloser c =>
      if existsb (fun j => match ds j with DStart => false | _ => true end) (seq 0 n) && existsb (Nat.eqb c) r
      then Some (MkTs a l f r cl o cs ds p k (c :: sh) bad)
      else None
  end.

Definition tact (n : nat) (s : tserver) (m : tmove) : tserver := match tstep n m s with Some s' => s' | None => s end.
Definition trun (n : nat) (sch : list tmove) (s : tserver) : tserver := fold_left (tact n) sch s.

(** A started server ([NewServer], ofptest/server.go:32-36). *)
Definition tstart : tserver :=
  MkTs AWait true 0 [] false None (fun _ => CStart) (fun _ => DStart) [] 0 [] false.
