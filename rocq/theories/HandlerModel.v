(** Model of ofputil/handler.go and ofptest/recorder.go. *)
From Verif Require Export DataModel ConnModel.

(** A ResponseWriter over some world [W]: what Write does to it and the error it
    returns. *)
Definition response_writer (W : Type) := Header -> option payload -> W -> option err * W.

(** A Handler that is not looked into: what it does with the writer and the
    request it is given. *)
Definition handler (W : Type) := response_writer W -> Request -> W -> W.

(** [ioutil.ReadAll] on a request body: [Read] until an error, which EOF is not.
    A nil body is a nil pointer dereference.  Buffers of 512 bytes. *)
Fixpoint body_all (fuel : nat) (acc : bytes) (b : body) : bytes * option err * body :=
  match fuel with
  | O => (acc, Some EFuel, b)
  | S fuel' =>
      let '(got, e, b') := body_read 512 b in
      match e with
      | None => body_all fuel' (acc ++ got) b'
      | Some EOF => (acc ++ got, None, b')
      | Some x => (acc ++ got, Some x, b')
      end
  end.

Definition body_fuel (b : body) : nat :=
  match b with
  | BNil => 1
  | BCopy w rbuf _ _ => S (S (length rbuf + match w with Some p => length (pbytes p) | None => 0 end))
  | BBuf x => S (S (length x))
  | BReader r => fuel_of r
  end.

Definition read_body_all (b : body) : bytes * option err * body := body_all (body_fuel b) [] b.

(** EchoHandler, ofputil/handler.go:16-42.  The result of Write is dropped.
    [None]: the goroutine panics.  The write to the log is not modelled. *)
Definition echo_handler {W} (h : option (handler W)) (rw : response_writer W) (r : Request) (w : W) : option W :=
  let '(d, e, b) := read_body_all (Request_Body r) in
  match e with
  | Some EPanic => None
  | Some _ => Some w
  | None =>
      let header := set_Header_Type 3 (Request_Header r) in
      let w1 := snd (rw header (Some (MkPayload (enc_EchoReply (MkEchoReply d)) None)) w) in
      Some (match h with None => w1 | Some f => f rw (set_body b r) w1 end)
  end.

(** HelloHandler, ofputil/handler.go:49-66. *)
Definition hello_handler {W} (version : N) (h : option (handler W)) (rw : response_writer W) (r : Request) (w : W) : W :=
  let header := set_Header_Version version (Request_Header r) in
  let w1 := snd (rw header None w) in
  match h with None => w1 | Some f => f rw r w1 end.

(** The ResponseWriter of the server for a request (server.go:58-90, 325-334). *)
Definition server_writer (q : Request) : response_writer conn := fun h w c => reply_to q h w c.

(** ofptest.ResponseRecorder, ofptest/recorder.go:11-54: the requests recorded.
    NewRequest wraps the payload, the header is then replaced. *)
Definition recorder := list Request.
Definition new_recorder : recorder := [].
Definition record_write : response_writer recorder := fun h w l =>
  (None, l ++ [set_header h (new_request (Header_Type h) w)]).

(** First, Last, All, ofptest/recorder.go:38-54; [None]: index out of range. *)
Definition rec_first (l : recorder) : option Request := nth_error l 0.
Definition rec_last (l : recorder) : option Request :=
  match l with [] => None | _ => nth_error l (length l - 1) end.
Definition rec_all (l : recorder) : list Request := l.
