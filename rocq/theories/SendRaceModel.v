(** One Request value in the hands of several goroutines that send it. *)
From Verif Require Export RequestModel.

(** Request.WriteTo, request.go:132-174, of a request whose body comes from a
    WriterTo that writes [b] each time (NewRequest, request.go:105-116, 52-58),
    as the steps between which another goroutine can act on the shared header:
    the assignment of line 135; copying the body, which changes nothing shared,
    and the test of line 153; the load and the store of the addition of line 157;
    reading the header, line 162 (header.go:233-235); the Write, line 173.
    One call per goroutine: the calls of a goroutine that sends several times are
    the calls of several goroutines that act in turn.
    Simplification: memory is sequentially consistent, and the destinations accept
    what they are given (Write of a connection happens under its lock). *)
Inductive spc :=
| SBegin | SCopy | SLoad | SStore (v : N) | SHeader | SWrite (f : bytes) | SDone.

(** The shared header, where the goroutines are, and the Write calls made so far
    with the goroutine that made each. *)
Record race := MkRace { rhdr : Header; rpcs : list spc; rout : list (nat * bytes) }.

Fixpoint put (i : nat) (p : spc) (l : list spc) : list spc :=
  match l, i with
  | [], _ => []
  | _ :: l', O => p :: l'
  | x :: l', S i' => x :: put i' p l'
  end.

Definition rmove (b : bytes) (s : race) (i : nat) : race :=
  match nth_error (rpcs s) i with
  | None | Some SDone => s
  | Some SBegin => MkRace (set_Header_Length 8 (rhdr s)) (put i SCopy (rpcs s)) (rout s)
  | Some SCopy =>
      if (65535 <? lenN b + 8)%N then MkRace (rhdr s) (put i SDone (rpcs s)) (rout s)
      else MkRace (rhdr s) (put i SLoad (rpcs s)) (rout s)
  | Some SLoad => MkRace (rhdr s) (put i (SStore (Header_Length (rhdr s))) (rpcs s)) (rout s)
  | Some (SStore v) =>
      MkRace (set_Header_Length (uwrap 2 (v + uwrap 2 (lenN b))) (rhdr s)) (put i SHeader (rpcs s)) (rout s)
  | Some SHeader => MkRace (rhdr s) (put i (SWrite (enc_Header (rhdr s) ++ b)) (rpcs s)) (rout s)
  | Some (SWrite f) => MkRace (rhdr s) (put i SDone (rpcs s)) (rout s ++ [(i, f)])
  end.

Definition rrun (b : bytes) (sch : list nat) (s : race) : race := fold_left (rmove b) sch s.

(** [m] goroutines about to call Send with the request. *)
Definition rstart (h : Header) (m : nat) : race := MkRace h (repeat SBegin m) [].
