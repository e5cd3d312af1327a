(** Handlers that also send messages of their own on the connection, and other
    goroutines that use the connection at the same time. *)
From Verif Require Export SessionModel.

(** What code with a connection and a response writer can do with them: Write of
    the response writer (server.go:58-90), Send and Flush of the connection
    (net.go:178-187, 158-162; request.go:126-128 gives the handler the connection).
    Simplification: a request value is sent once; for more see C11 and C120. *)
Inductive wop := WReply (h : Header) (w : option payload) | WSend (r : Request) | WFlush.

Definition wdo (v : N) (o : wop) (c : conn) : option err * conn :=
  match o with
  | WReply h w => c_respond v h w c
  | WSend r => c_send r c
  | WFlush => c_flush c
  end.

(** A handler call: its response writer, the request, what it still has to do,
    whether it has returned. *)
Definition hcall : Type := writer * Request * list wop * bool.

(** What was done, in order: by which handler call ([None]: by the server or any
    other goroutine), the version of the response writer, the operation, its result. *)
Definition deed : Type := option nat * N * wop * option err.

Definition party : Type := conn * list hcall * list deed.

(** One action: an event of the server (server.go:315-343), an operation of a
    running handler, or one of another goroutine.  Each reaches the connection in
    one piece, because the messages are serialized before and the mutex of the
    connection is held (net.go:150-175).  The handler does [f q], whatever the
    operations return.
    Simplification: a run ends before the connection is closed. *)
Inductive pstep (f : Request -> list wop) : option event -> party -> party -> Prop :=
| PCalled k w q c ts lg : pstep f (Some (ECall k w q)) (c, ts, lg) (c, ts ++ [(w, q, f q, false)], lg)
| PDoes a w q o os b c lg :
    pstep f None (c, a ++ (w, q, o :: os, false) :: b, lg)
      (snd (wdo (wversion w) o c), a ++ (w, q, os, false) :: b, lg ++ [(Some (length a), wversion w, o, fst (wdo (wversion w) o c))])
| PElsewhere v o c ts lg : pstep f None (c, ts, lg) (snd (wdo v o c), ts, lg ++ [(None, v, o, fst (wdo v o c))])
| PReturns k a w q b c lg :
    pstep f (Some (EReturn k q)) (c, a ++ (w, q, [], false) :: b, lg) (c, a ++ (w, q, [], true) :: b, lg)
| PFlushes k c ts lg :
    pstep f (Some (EFlush k)) (c, ts, lg) (snd (c_flush c), ts, lg ++ [(None, 0%N, WFlush, fst (c_flush c))])
| PStates k x c ts lg : pstep f (Some (EState k x)) (c, ts, lg) (c, ts, lg).

(** Runs in which the server does the events [l]. *)
Inductive gathering (f : Request -> list wop) : list event -> party -> party -> Prop :=
| gathering_nil s : gathering f [] s s
| gathering_event e l s1 s2 s3 : gathering f l s1 s2 -> pstep f (Some e) s2 s3 -> gathering f (l ++ [e]) s1 s3
| gathering_op l s1 s2 s3 : gathering f l s1 s2 -> pstep f None s2 s3 -> gathering f l s1 s3.
