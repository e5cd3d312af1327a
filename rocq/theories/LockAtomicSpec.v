(** Operations on a multiplexer that happen one at a time. *)
From Verif Require Import LockModel.

(** What one operation does to the entries [M] and what it results in, when it is alone.
    Registering a matcher twice changes nothing; a request gets any entry that accepts
    it, none only if there is none. *)
Inductive alone (ms : matchers) (M : list entry) : lop -> done -> list entry -> Prop :=
| AAdds p once : (forall o, ~ In (p, o) M) -> alone ms M (LRegister p once) (Wrote (Add p once) M) ((p, once) :: M)
| ATwice p once o : In (p, o) M -> alone ms M (LRegister p once) (Wrote (Add p once) M) M
| AFinds r e : In e M -> says ms (fst e) r = true -> alone ms M (LServe r) (Found (Some e)) M
| AMisses r : (forall e, In e M -> says ms (fst e) r = false) -> alone ms M (LServe r) (Found None) M.

(** How many operations of goroutine [i] are among [h]. *)
Definition share (i : nat) (h : list (nat * done)) : nat := length (filter (fun x => fst x =? i) h).

(** The same with disposable entries, after the operations with the results [h]: a request
    takes an entry that accepts it and removes it, or is lost because the entry that accepts
    it has been taken by another request. *)
Inductive taking (ms : matchers) (h : list (nat * done)) (M : list entry) : lop -> done -> list entry -> Prop :=
| GAlone o d M' : alone ms M o d M' -> (forall e, d = Found (Some e) -> snd e = false) -> taking ms h M o d M'
| GTakes r p o : In (p, o) M -> says ms p r = true ->
    taking ms h M (LServe r) (Wrote (Remove p) M) (filter (fun e => negb (fst e =? p)) M)
| GLost r p j M0 o : (forall o, ~ In (p, o) M) -> says ms p r = true -> In (j, Wrote (Remove p) M0) h -> In (p, o) M0 ->
    taking ms h M (LServe r) (Wrote (Remove p) M) M.

(** [h] are results of the operations of [prog], those of each goroutine in its order, as
    they are when all happen one after the other in the order of [h], each as [step] says;
    [M] are the entries in the end. *)
Inductive in_turn (step : list (nat * done) -> list entry -> lop -> done -> list entry -> Prop) (prog : nat -> list lop) :
    list (nat * done) -> list entry -> Prop :=
| ZNone : in_turn step prog [] []
| ZNext h M i o d M' : in_turn step prog h M -> nth_error (prog i) (share i h) = Some o -> step h M o d M' ->
    in_turn step prog (h ++ [(i, d)]) M'.

(** Only permanent entries. *)
Definition permanent (l : list lop) : Prop := forall p, ~ In (LRegister p true) l.
