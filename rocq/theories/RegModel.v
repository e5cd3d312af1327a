(** Registrations with the values the interface types Matcher and Handler can
    have in Go.  mux.go:13-24, 75-111, 166-208, 211-229; server.go:30-35. *)
From Verif Require Export MuxModel.

(** A Matcher: the nil interface; a TypeMatcher; a pointer to a MatcherFunc; the
    nil pointer of type *MatcherFunc; a value of a type that cannot be a map key
    (a function type or a structure with a slice, having a Match method). *)
Inductive gmatcher := GNone | GType (t : N) | GFunc (p : nat) | GNilFunc | GUncomparable.

(** A Handler: the nil interface; a HandlerFunc without function; any other. *)
Inductive ghandler := HNone | HNilFunc | HSome (h : nat).

(** The map keys and handlers of MuxModel they stand for. *)
Definition key_of (m : gmatcher) : option mkey :=
  match m with
  | GNone | GUncomparable => None
  | GType t => Some (KType t)
  | GNilFunc => Some (KPtr 0)
  | GFunc p => Some (KPtr (S p))
  end.
Definition handler_of (h : ghandler) : option nat :=
  match h with HNone => None | HNilFunc => Some 0 | HSome h => Some (S h) end.

(** MatcherFunc.Match, mux.go:22-24, of the pointers: [funcs p] is the Func
    member.  A nil pointer is dereferenced, a nil function is called. *)
Definition matchers (funcs : nat -> option (Request -> verdict)) (p : nat) (r : Request) : verdict :=
  match p with
  | O => Panics
  | S p' => match funcs p' with Some f => f r | None => Panics end
  end.

(** ServeMux.handle, mux.go:75-93, with these values.  Looking up a key that
    cannot be a map key panics (line 86); the deferred Unlock runs in all cases. *)
Inductive attempt := Accepted | Refused.
Definition handle (m : gmatcher) (h : ghandler) (once : bool) (id : nat) (es : list entry) : list entry * attempt :=
  match m with
  | GNone => (es, Refused)
  | _ =>
      match h with
      | HNone => (es, Refused)
      | _ =>
          match key_of m, handler_of h with
          | Some k, Some f => if registered k es then (es, Refused) else (MkEntry k f once id :: es, Accepted)
          | _, _ => (es, Refused)
          end
      end
  end.

(** HandleFunc, mux.go:109-111, 186-188 and 227-229: the function becomes a
    HandlerFunc, which is not the nil interface even if the function is nil. *)
Definition func_handler (f : option nat) : ghandler := match f with None => HNilFunc | Some h => HSome h end.

(** Operations of goroutines; in MuxModel a refused registration is one without
    matcher (it changes nothing and releases the lock). *)
Inductive gop := GHandle (m : gmatcher) (h : ghandler) (once : bool) | GServe (r : Request).
Definition as_mop (o : gop) : mop :=
  match o with GHandle m h once => OHandle (key_of m) (handler_of h) once | GServe r => OServe r end.
Definition gstart (prog : nat -> list gop) : mux := mstart (fun i => map as_mop (prog i)).

(** ServeMux.Serve, mux.go:166-169, after the choice: HandlerFunc.Serve
    (server.go:33-35) calls its function; DefaultHandler and DiscardHandler do
    nothing (server.go:37-39). *)
Inductive effect := Calls (h : nat) | Discards | Crashes.
Definition effect_of (c : choice) : effect :=
  match c with
  | Chosen e => match ehandler e with O => Crashes | S h => Calls h end
  | NoMatch | Lost => Discards
  end.
