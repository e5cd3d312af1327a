(** Request multiplexers and matchers: mux.go, header.go:247-261, cookie.go. *)
From Verif Require Export RequestModel.

(** ** Matchers

    A matcher is called with a request that it may change (cookie.go:72-98
    replaces or empties the body), and answers or panics. *)
Inductive verdict := Says (b : bool) (r : Request) | Panics.

(** Map keys: a [TypeMatcher] is compared by value (mux.go:26-31), every other
    matcher of the library is a pointer.  Simplification: matcher types that are
    not comparable (whose registration panics in the map access) are left out. *)
Inductive mkey := KType (t : N) | KPtr (p : nat).

Definition mkey_eqb (a b : mkey) : bool :=
  match a, b with KType t, KType u => (t =? u)%N | KPtr p, KPtr q => p =? q | _, _ => false end.

(** TypeMatcher.Match, mux.go:29-31 *)
Definition type_match (t : N) (r : Request) : verdict := Says (Header_Type (Request_Header r) =? t)%N r.

(** MultiMatcher, mux.go:35-47: stops at the first part that refuses. *)
Fixpoint multi_match (ms : list (Request -> verdict)) (r : Request) : verdict :=
  match ms with
  | [] => Says true r
  | m :: ms' =>
      match m r with
      | Says true r' => multi_match ms' r'
      | x => x
      end
  end.

(** TransactionMatcher, header.go:247-261: [draw] is the value of rand.Uint32.
    Returns the header as the caller sees it afterwards and the matcher. *)
Definition transaction_matcher (draw : N) (h : Header) : Header * (Request -> verdict) :=
  let h' := if (Header_Transaction h =? 0)%N then set_Header_Transaction draw h else h in
  let transaction := Header_Transaction h' in
  (h', fun r => Says (Header_Transaction (Request_Header r) =? transaction)%N r).

(** What a matcher in the map does; [fs] gives the pointer matchers. *)
Definition match_of (fs : nat -> Request -> verdict) (k : mkey) (r : Request) : verdict :=
  match k with KType t => type_match t r | KPtr p => fs p r end.

(** ** The handler map

    [eid] numbers the successful registrations (it is not in the Go code and
    no decision depends on it; it tells registrations apart in statements). *)
Record entry := MkEntry { ekey : mkey; ehandler : nat; eonce : bool; eid : nat }.

Definition registered (k : mkey) (es : list entry) : bool := existsb (fun e => mkey_eqb (ekey e) k) es.
Definition removed (k : mkey) (es : list entry) : list entry := filter (fun e => negb (mkey_eqb (ekey e) k)) es.

Inductive regres := RegOk (e : entry) | NilMatcher | NilHandler | Duplicate.

(** ServeMux.handle, mux.go:75-93: the three panics, then the assignment. *)
Definition register (m : option mkey) (h : option nat) (once : bool) (id : nat) (es : list entry) : list entry * regres :=
  match m with
  | None => (es, NilMatcher)
  | Some k =>
      match h with
      | None => (es, NilHandler)
      | Some f =>
          if registered k es then (es, Duplicate)
          else let e := MkEntry k f once id in (e :: es, RegOk e)
      end
  end.

(** ** The multiplexer shared by goroutines

    Operations: Handle/HandleOnce (mux.go:96-106) and Serve, of which only the
    choice of the handler is of interest (mux.go:114-162).  The lock is a
    read-write lock: [readers] lists the goroutines that hold it for reading;
    a write section (registration, removal of a disposable entry) is one step
    that needs [readers = []].  The map cannot change during a scan; the order
    of iteration is arbitrary: each step says by its number which of the
    entries not yet visited comes next. *)
Inductive mop := OHandle (m : option mkey) (h : option nat) (once : bool) | OServe (r : Request).

Inductive choice := Chosen (e : entry) | NoMatch | Lost.   (* Lost, NoMatch: the request is discarded *)

Inductive outcome :=
| Registered (x : regres)
| Served (r : Request) (snap : list entry) (c : choice) (r' : Request).

Inductive mpc :=
| MIdle
| MScan (snap rest : list entry) (r0 r : Request)
    (* holding the read lock: entries at the start, entries left, request given, request now *)
| MTaking (snap : list entry) (e : entry) (r0 r : Request)   (* before the second lock section *)
| MDead.                                                     (* a matcher panicked; the read lock is still held *)

Record mthread := MkMThread { mtodo : list mop; mat : mpc }.

Record mux := MkMux {
  entries : list entry; readers : list nat; nextid : nat;
  mthreads : nat -> mthread; mresults : list (nat * outcome) }.

Definition mupd (i : nat) (t : mthread) (s : mux) : nat -> mthread := fun j => if j =? i then t else mthreads s j.

Definition drop_reader (i : nat) (l : list nat) : list nat := filter (fun j => negb (j =? i)) l.

(** The entry visited next and those left. *)
Fixpoint pick (n : nat) (e : entry) (l : list entry) : entry * list entry :=
  match n, l with
  | S n', f :: l' => let '(x, rest) := pick n' f l' in (x, e :: rest)
  | _, _ => (e, l)
  end.

Definition mstep (fs : nat -> Request -> verdict) (i n : nat) (s : mux) : option mux :=
  let t := mthreads s i in
  let goto p := mupd i (MkMThread (mtodo t) p) s in
  match mat t with
  | MIdle =>
      match mtodo t with
      | [] => None
      | OServe r :: l =>
          Some (MkMux (entries s) (i :: readers s) (nextid s)
                      (mupd i (MkMThread l (MScan (entries s) (entries s) r r)) s) (mresults s))
      | OHandle m h once :: l =>
          match readers s with
          | _ :: _ => None
          | [] =>
              let '(es, x) := register m h once (nextid s) (entries s) in
              Some (MkMux es [] (S (nextid s)) (mupd i (MkMThread l MIdle) s) (mresults s ++ [(i, Registered x)]))
          end
      end
  | MScan snap [] r0 r =>
      Some (MkMux (entries s) (drop_reader i (readers s)) (nextid s) (goto MIdle)
                  (mresults s ++ [(i, Served r0 snap NoMatch r)]))
  | MScan snap (e0 :: rest0) r0 r =>
      let '(e, rest) := pick n e0 rest0 in
      match match_of fs (ekey e) r with
      | Panics => Some (MkMux (entries s) (readers s) (nextid s) (goto MDead) (mresults s))
      | Says false r' => Some (MkMux (entries s) (readers s) (nextid s) (goto (MScan snap rest r0 r')) (mresults s))
      | Says true r' =>
          if eonce e
          then Some (MkMux (entries s) (drop_reader i (readers s)) (nextid s) (goto (MTaking snap e r0 r')) (mresults s))
          else Some (MkMux (entries s) (drop_reader i (readers s)) (nextid s) (goto MIdle)
                           (mresults s ++ [(i, Served r0 snap (Chosen e) r')]))
      end
  | MTaking snap e r0 r =>
      match readers s with
      | _ :: _ => None
      | [] =>
          let '(es, c) := if registered (ekey e) (entries s) then (removed (ekey e) (entries s), Chosen e)
                          else (entries s, Lost) in
          Some (MkMux es [] (nextid s) (goto MIdle) (mresults s ++ [(i, Served r0 snap c r)]))
      end
  | MDead => None
  end.

Definition mact (fs : nat -> Request -> verdict) (s : mux) (a : nat * nat) : mux :=
  match mstep fs (fst a) (snd a) s with Some s' => s' | None => s end.

Definition mrun (fs : nat -> Request -> verdict) (sch : list (nat * nat)) (s : mux) : mux := fold_left (mact fs) sch s.

(** NewServeMux, mux.go:65-67, and goroutines about to perform [prog i]. *)
Definition mstart (prog : nat -> list mop) : mux :=
  MkMux [] [] 0 (fun i => MkMThread (prog i) MIdle) [].

(** ** CookieMatcher.Match, cookie.go:72-98

    [ioutil.ReadAll(r.Body)] for bodies other than [*bytes.Buffer]: what is read
    and the error (EOF is not an error).  A [copyReader] (request.go:28-68) is
    filled by its first Read and reports a failure of its payload from the
    second Read on, unless the first finds nothing.
    Simplification: the first Read asks for 512 bytes, the initial size of
    ioutil.ReadAll's buffer. *)
Definition readall_body (b : body) : bytes * option err :=
  match b with
  | BNil => ([], Some EPanic)
  | BBuf x => (x, None)
  | BReader r => let '(x, e, _) := drain (fuel_of r) [] r in (x, e)
  | BCopy w rbuf rerr once =>
      match rerr with
      | Some e => ([], Some e)
      | None =>
          let '(x, e) := if once then (rbuf, None) else copy_write w in
          match x, e with
          | [], _ => ([], None)
          | _, None => (x, None)
          | _, Some y => (firstn 512 x, Some y)
          end
      end
  end.

(** [decode] is the configured cookie reader (cookie.go:103-123): the cookie it
    finds in the given bytes, or an error; a panic of the decoder is a panic of
    the matcher.  A [*bytes.Buffer] body is emptied
    by the deferred Reset whatever happens; another body is read to its end
    and replaced by a buffer of what was read.
    A nil body panics in ioutil.ReadAll. *)
Definition cookie_match (decode : bytes -> N + err) (want : N) (r : Request) : verdict :=
  let decide x r' := match decode x with
    | inl c => Says (c =? want)%N r' | inr EPanic => Panics | inr _ => Says false r' end in
  match Request_Body r with
  | BNil => Panics
  | BBuf x => decide x (set_body (BBuf []) r)
  | b =>
      let '(x, e) := readall_body b in
      match e with Some _ => Says false (set_body (BBuf x) r) | None => decide x (set_body (BBuf x) r) end
  end.

(** NewCookieMatcher, cookie.go:50-65: the cookie is glued from two random halves. *)
Definition new_cookie (low high : N) : N := N.lor (N.shiftl high 32) low.
