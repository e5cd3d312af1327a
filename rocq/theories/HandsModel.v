(** Handlers of one connection that run at the same time, and what they write. *)
From Verif Require Export SessionModel.

(** A handler call: its response writer, the request, the replies it still has to
    write, whether it has returned. *)
Definition task : Type := writer * Request * list (Header * option payload) * bool.

(** The connection, the handler calls so far in the order of the calls, and the
    replies written so far with the number of the call that wrote each. *)
Definition hands_state : Type := conn * list task * list (nat * (Header * option payload)).

(** One action: an event of the server (server.go:315-343) or a Write of a running
    handler (server.go:58-90).  A Write reaches the connection in one piece: it
    serializes the message first and calls forceWrite, which holds the mutex of
    the connection (net.go:165-175), as Flush does (net.go:158-162).  The handler
    writes the replies [f q], whatever Write returns.
    Simplification: a run ends before the connection is closed; writes after that
    are the subject of EndModel.v. *)
Inductive hstep (f : Request -> list (Header * option payload)) : option event -> hands_state -> hands_state -> Prop :=
| HCalled k w q c ts lg :
    hstep f (Some (ECall k w q)) (c, ts, lg) (c, ts ++ [(w, q, f q, false)], lg)
| HWrites a w q hp rs b c lg :
    hstep f None (c, a ++ (w, q, hp :: rs, false) :: b, lg)
      (snd (c_respond (wversion w) (fst hp) (snd hp) c), a ++ (w, q, rs, false) :: b, lg ++ [(length a, hp)])
| HReturns k a w q b c lg :
    hstep f (Some (EReturn k q)) (c, a ++ (w, q, [], false) :: b, lg) (c, a ++ (w, q, [], true) :: b, lg)
| HFlushes k c ts lg : hstep f (Some (EFlush k)) (c, ts, lg) (snd (c_flush c), ts, lg)
| HStates k x c ts lg : hstep f (Some (EState k x)) (c, ts, lg) (c, ts, lg).

(** Runs in which the server does the events [l]. *)
Inductive hrun (f : Request -> list (Header * option payload)) : list event -> hands_state -> hands_state -> Prop :=
| hrun_nil s : hrun f [] s s
| hrun_event e l s1 s2 s3 : hrun f l s1 s2 -> hstep f (Some e) s2 s3 -> hrun f (l ++ [e]) s1 s3
| hrun_write l s1 s2 s3 : hrun f l s1 s2 -> hstep f None s2 s3 -> hrun f l s1 s3.
