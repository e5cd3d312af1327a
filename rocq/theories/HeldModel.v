(** Closing a connection with bytes in its buffer. *)
From Verif Require Export ConnModel.

(** Send of several requests, one after another, without Flush (net.go:178-187):
    the errors returned and the connection afterwards. *)
Fixpoint sends (rs : list Request) (c : conn) : list (option err) * conn :=
  match rs with
  | [] => ([], c)
  | r :: l => let '(e, c1) := c_send r c in let '(es, c2) := sends l c1 in (e :: es, c2)
  end.

(** conn.Close, net.go:191-193: only the network connection is closed; what is in
    the buffer stays there.  The peer can read what has been written and then finds
    the end.  [sizes] fragments its reads. *)
Definition closed (sizes : list nat) (c : conn) : reader := MkReader (wire (btr (cbw c))) sizes EOF false.
