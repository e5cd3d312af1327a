(** What arbitrary bytes say as a group modification or as one of its buckets,
    independently of the decoders (OpenFlow 1.3, section 7.3.4.2). *)
From Verif Require Import Bytes Encoding WireSpec MatchSpec ActionSpec GroupModel InstrListSpec MeterBytesSpec QueueBytesSpec.

(** [b] begins with a bucket saying [k], with the report [v] due to its actions: those
    within its length field as far as they are there. *)
Definition bucket_says (b : bytes) (k : Bucket) (v : option err) : Prop :=
  16 <= length b /\ Bucket_Weight k = num 2 2 b /\ Bucket_WatchPort k = num 4 4 b /\ Bucket_WatchGroup k = num 8 4 b
  /\ actions_end (firstn (beyond16 (num 0 2 b)) (skipn 16 b)) (Bucket_Actions k) v.

(** Where members of the head of a bucket begin. *)
Definition bucket_stops : list nat := [0; 2; 4; 8; 12].

(** The report about a list of buckets. *)
Inductive buckets_report : bytes -> option err -> Prop :=
| buckets_end b : length b < 16 ->
    buckets_report b (if existsb (Nat.eqb (length b)) bucket_stops then None else Some UnexpectedEOF)
| buckets_stop b k e : bucket_says b k (Some e) -> buckets_report b (Some e)
| buckets_next b k v : bucket_says b k None -> buckets_report (skipn (16 + beyond16 (num 0 2 b)) b) v -> buckets_report b v.
