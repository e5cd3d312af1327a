(** What multiplexers promise, in terms of registrations and outcomes. *)
From Verif Require Import RequestSpec.
From Verif Require Import MuxModel.

(** What the matcher registered under a key answers: a type accepts the requests
    of that type, and only looks at them. *)
Definition asked (fs : nat -> Request -> verdict) (k : mkey) (r : Request) : verdict :=
  match k with KType t => Says (Header_Type (Request_Header r) =? t)%N r | KPtr p => fs p r end.

(** Whether two keys are the same. *)
Definition same_key (a b : mkey) : bool :=
  match a, b with KType t, KType u => (t =? u)%N | KPtr p, KPtr q => p =? q | _, _ => false end.

Definition accepts (fs : nat -> Request -> verdict) (e : entry) (r : Request) : Prop :=
  exists r', asked fs (ekey e) r = Says true r'.

(** A matcher that only looks. *)
Definition plain (m : Request -> verdict) : Prop := forall r, exists b, m r = Says b r.

(** Every matcher the programs register only looks. *)
Definition plain_prog (fs : nat -> Request -> verdict) (prog : nat -> list mop) : Prop :=
  forall i k h once, In (OHandle (Some k) h once) (prog i) -> plain (asked fs k).

(** Successful registrations, and selections of disposable handlers, so far. *)
Definition registrations (s : mux) : list entry :=
  flat_map (fun x => match snd x with Registered (RegOk e) => [e] | _ => [] end) (mresults s).
Definition disposed (s : mux) : list entry :=
  flat_map (fun x => match snd x with Served _ _ (Chosen e) _ => if eonce e then [e] else [] | _ => [] end) (mresults s).

Definition count (k : mkey) (l : list entry) : nat := length (filter (fun e => same_key (ekey e) k) l).

(** A correct choice among the entries of [snap] for request [r]. *)
Definition right_choice (fs : nat -> Request -> verdict) (snap : list entry) (r : Request) (c : choice) : Prop :=
  match c with
  | Chosen e => In e snap /\ accepts fs e r
  | NoMatch => forall e, In e snap -> ~ accepts fs e r
  | Lost => exists e, In e snap /\ accepts fs e r /\ eonce e = true
  end.

Definition mbusy (s : mux) (i : nat) : Prop := mtodo (mthreads s i) <> [] \/ mat (mthreads s i) <> MIdle.

(** A sequence of registrations on an empty multiplexer, with their results. *)
Definition reg := (option mkey * option nat * bool)%type.
Fixpoint register_all (l : list reg) (es : list entry) : list entry * list regres :=
  match l with
  | [] => (es, [])
  | (m, h, once) :: l' =>
      let '(es', x) := register m h once (length es) es in
      let '(es'', xs) := register_all l' es' in (es'', x :: xs)
  end.

(** The first well-formed registration of a key. *)
Fixpoint first_for (k : mkey) (l : list reg) : option (nat * bool) :=
  match l with
  | [] => None
  | (Some k', Some f, once) :: l' => if same_key k' k then Some (f, once) else first_for k l'
  | _ :: l' => first_for k l'
  end.
