(** A program with a server whose handler panics on some requests. *)
From Verif Require Export ServerModel FlowModel GroupModel.

(** A handler that reads the body of a request into a zero value of some type of
    the library before it does anything else ([ReadFrom] of that type). *)
Inductive decoding := Decoding (A : Type) (rd : step A) (zero : A).

(** Whether handling [q] panics: [reads] says what the handler reads from the
    bodies of which message types.  Received bodies are buffers (request.go:200-216). *)
Definition dies (reads : N -> option decoding) (q : Request) : bool :=
  match reads (Header_Type (Request_Header q)), Request_Body q with
  | Some (Decoding A rd zero), BBuf b => match fail (rd zero b) with Some EPanic => true | _ => false end
  | _, _ => false
  end.

(** The call of a handler that panics. *)
Definition fatal (dies : Request -> bool) (e : event) : bool :=
  match e with ECall _ _ q => dies q | _ => false end.

(** A run of the program.  Handlers are called at server.go:333 from the serve
    goroutine or one of their own (server.go:302, runner.go:17-34); nothing in
    server.go, runner.go or mux.go recovers, so that a panic of any goroutine ends
    the process: no move follows.  The result tells whether that has happened. *)
Fixpoint prun (dies : Request -> bool) (sch : list move) (s : server) : server * bool :=
  match sch with
  | [] => (s, false)
  | m :: l =>
      let t := sact s m in
      if existsb (fatal dies) (skipn (length (trace s)) (trace t)) then (t, true) else prun dies l t
  end.
