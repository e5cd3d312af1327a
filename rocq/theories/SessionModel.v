(** A served connection from the bytes of its peer to the bytes of its replies:
    what the handler calls and flushes of the server (ServerModel.v) do to the
    write half of the connection (ConnModel.v). *)
From Verif Require Export HandlerModel MuxModel ServerModel.

(** The effect of a visible action on the connection it belongs to.  The handler
    gets the response writer of server.go:325-334 (its Write is server.go:58-90);
    c.Flush is server.go:338.  The other actions do not touch the write half
    before the close.
    Simplification: everything a handler writes is attributed to the moment of
    its call; between call and return nobody else writes to the connection if
    handlers run in sequence. *)
Definition enact (h : handler conn) (c : conn) (e : event) : conn :=
  match e with
  | ECall _ w q => h (fun hd p c => c_respond (wversion w) hd p c) q c
  | EFlush _ => snd (c_flush c)
  | _ => c
  end.
Definition enacts (h : handler conn) (l : list event) (c : conn) : conn := fold_left (enact h) l c.

(** A handler that writes the given replies, whatever Write returns. *)
Definition writes {W} (f : Request -> list (Header * option payload)) : handler W :=
  fun rw q w => fold_left (fun w hp => snd (rw (fst hp) (snd hp) w)) (f q) w.

(** TypeMux.Serve with permanent handlers (mux.go:199-208, 114-162): the handler
    registered for the type, else DefaultHandler, which discards (mux.go:70, server.go:37-39). *)
Definition type_serve {W} (hs : nat -> handler W) (es : list entry) : handler W := fun rw q w =>
  match find (fun e => mkey_eqb (ekey e) (KType (Header_Type (Request_Header q)))) es with
  | Some e => hs (ehandler e) rw q w
  | None => w
  end.

(** A controller as in the documentation (server.go:139-146, ofputil/handler.go):
    HelloHandler(version) for hello messages, EchoHandler for echo requests.
    [None] of [echo_handler] is a panic, which ends the program; it is excluded
    by theorem C60_unreadable for received requests, whose body is a buffer. *)
Definition controller_handlers (version : N) (i : nat) : handler conn := fun rw q c =>
  match i with
  | 0 => hello_handler version None rw q c
  | _ => match echo_handler None rw q c with Some c' => c' | None => c end
  end.
