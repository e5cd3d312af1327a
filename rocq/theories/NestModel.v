(** Handlers that use multiplexers while they run: they register handlers, dispatch
    requests to other multiplexers, or are multiplexers themselves (mux.go). *)
From Verif Require Export MuxModel.

(** Operations on multiplexer number [m]: Handle and HandleOnce (mux.go:96-106),
    Serve (mux.go:166-169), and Handler called for its result (mux.go:114-162). *)
Inductive nop :=
| NHandle (m : nat) (k : option mkey) (h : option nat) (once : bool)
| NServe (m : nat) (r : Request)
| NHandler (m : nat) (r : Request).

Definition nmux_of (o : nop) : nat := match o with NHandle m _ _ _ | NServe m _ | NHandler m _ => m end.

(** What the operation does to that multiplexer itself. *)
Definition nmop (o : nop) : mop :=
  match o with NHandle _ k h once => OHandle k h once | NServe _ r | NHandler _ r => OServe r end.

(** A handler run with a request performs [body h r]: a multiplexer [m] registered
    as a handler (mux.go:166-169; TypeMux, mux.go:206-208) has the body
    [[NServe m r]], the handler that discards has none.  Serve calls the handler
    that was chosen and DiscardHandler or DefaultHandler otherwise; Handler calls
    nothing (mux.go:161, 168).
    Simplification: matchers do not use multiplexers; DefaultHandler is not replaced. *)
Definition ncalls (body : nat -> Request -> list nop) (o : nop) (x : outcome) : list nop :=
  match o, x with
  | NServe _ _, Served _ _ (Chosen e) r' => body (ehandler e) r'
  | _, _ => []
  end.

(** Each goroutine has operations to do and may be inside one of them ([nin]).  Each
    multiplexer is a [mux] of MuxModel, whose goroutines have at most the
    operation they are in to do.  [nlog]: the finished operations with the goroutine. *)
Record nest := MkNest {
  nmux : nat -> mux; ntodo : nat -> list nop; nin : nat -> option nop; nlog : list (nat * nop * outcome) }.

Definition put {A} (i : nat) (x : A) (f : nat -> A) : nat -> A := fun j => if j =? i then x else f j.

(** Goroutine [i] begins [o] on the multiplexer. *)
Definition begun (i : nat) (o : mop) (s : mux) : mux :=
  MkMux (entries s) (readers s) (nextid s) (mupd i (MkMThread [o] MIdle) s) (mresults s).

(** One step of goroutine [i] inside [o], with [l] to do behind it. *)
Definition ninside (fs : nat -> Request -> verdict) (body : nat -> Request -> list nop) (i n : nat)
    (o : nop) (l : list nop) (M : mux) (s : nest) : option nest :=
  match mstep fs i n M with
  | None => None
  | Some M' =>
      Some match skipn (length (mresults M)) (mresults M') with
           | [] => MkNest (put (nmux_of o) M' (nmux s)) (put i l (ntodo s)) (put i (Some o) (nin s)) (nlog s)
           | (_, x) :: _ => MkNest (put (nmux_of o) M' (nmux s)) (put i (ncalls body o x ++ l) (ntodo s))
                                   (put i None (nin s)) (nlog s ++ [(i, o, x)])
           end
  end.

Definition nstep (fs : nat -> Request -> verdict) (body : nat -> Request -> list nop) (i n : nat) (s : nest) : option nest :=
  match nin s i with
  | Some o => ninside fs body i n o (ntodo s i) (nmux s (nmux_of o)) s
  | None =>
      match ntodo s i with
      | [] => None
      | o :: l => ninside fs body i n o l (begun i (nmop o) (nmux s (nmux_of o))) s
      end
  end.

Definition nact (fs : nat -> Request -> verdict) (body : nat -> Request -> list nop) (s : nest) (a : nat * nat) : nest :=
  match nstep fs body (fst a) (snd a) s with Some s' => s' | None => s end.

Definition nrun (fs : nat -> Request -> verdict) (body : nat -> Request -> list nop) (sch : list (nat * nat)) (s : nest) : nest :=
  fold_left (nact fs body) sch s.

(** Empty multiplexers (NewServeMux, mux.go:65-67; NewTypeMux, mux.go:178-180;
    DefaultMux, mux.go:212) and goroutines about to perform [prog i]. *)
Definition nstart (prog : nat -> list nop) : nest :=
  MkNest (fun _ => mstart (fun _ => [])) prog (fun _ => None) [].
