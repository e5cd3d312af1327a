(** A multiplexer whose operations happen one at a time, and what it means that
    a list of results is one of such a multiplexer. *)
From Verif Require Import MuxModel MuxSpec.

(** What is registered for each matcher: the handler and whether it is disposable. *)
Definition handlers := mkey -> option (nat * bool).
Definition nothing : handlers := fun _ => None.

(** [M'] is [M] with [v] for [k]. *)
Definition updated (k : mkey) (v : option (nat * bool)) (M M' : handlers) : Prop :=
  M' k = v /\ forall j, j <> k -> M' j = M j.
Definition same_handlers (M M' : handlers) : Prop := forall k, M' k = M k.

(** Operation [op] on the handlers [M] may have result [o] and leaves [M'].
    With [lossy], a request may also be discarded without reason. *)
Inductive does (fs : nat -> Request -> verdict) (lossy : bool) (M : handlers) : mop -> outcome -> handlers -> Prop :=
| DNilMatcher h once M' : same_handlers M M' -> does fs lossy M (OHandle None h once) (Registered NilMatcher) M'
| DNilHandler k once M' : same_handlers M M' -> does fs lossy M (OHandle (Some k) None once) (Registered NilHandler) M'
| DDuplicate k f once M' : M k <> None -> same_handlers M M' ->
    does fs lossy M (OHandle (Some k) (Some f) once) (Registered Duplicate) M'
| DRegistered k f once id M' : M k = None -> updated k (Some (f, once)) M M' ->
    does fs lossy M (OHandle (Some k) (Some f) once) (Registered (RegOk (MkEntry k f once id))) M'
| DPermanent r snap e M' : M (ekey e) = Some (ehandler e, false) -> asked fs (ekey e) r = Says true r -> eonce e = false ->
    same_handlers M M' -> does fs lossy M (OServe r) (Served r snap (Chosen e) r) M'
| DDisposable r snap e M' : M (ekey e) = Some (ehandler e, true) -> asked fs (ekey e) r = Says true r -> eonce e = true ->
    updated (ekey e) None M M' -> does fs lossy M (OServe r) (Served r snap (Chosen e) r) M'
| DNoMatch r snap M' : (forall k, M k <> None -> asked fs k r = Says false r) -> same_handlers M M' ->
    does fs lossy M (OServe r) (Served r snap NoMatch r) M'
| DDropped r snap M' : lossy = true -> same_handlers M M' -> does fs lossy M (OServe r) (Served r snap Lost r) M'.

(** The number of results of goroutine [i]. *)
Definition results_of (i : nat) (h : list (nat * outcome)) : nat := length (filter (fun x => fst x =? i) h).

(** [h] lists results of the operations of [prog], those of each goroutine in
    the order of its program, as they are when the operations happen one at a
    time in the order of [h]; [M] is registered in the end. *)
Inductive one_at_a_time (fs : nat -> Request -> verdict) (lossy : bool) (prog : nat -> list mop)
  : list (nat * outcome) -> handlers -> Prop :=
| ONone M : same_handlers nothing M -> one_at_a_time fs lossy prog [] M
| ONext h M i op o M' : one_at_a_time fs lossy prog h M -> nth_error (prog i) (results_of i h) = Some op ->
    does fs lossy M op o M' -> one_at_a_time fs lossy prog (h ++ [(i, o)]) M'.

(** No disposable handlers. *)
Definition permanent_only (prog : nat -> list mop) : Prop := forall i m h, ~ In (OHandle m h true) (prog i).
