(** What arbitrary bytes say as a queue configuration reply, independently of the decoder. *)
From Verif Require Import Bytes Encoding WireSpec MatchSpec ActionSpec MeterBytesSpec QueueBytesSpec.

(** The report about a list of queues: each has a head of sixteen bytes and as many bytes
    of properties as its length field leaves. *)
Inductive queues_report : bytes -> option err -> Prop :=
| queues_end b : length b < 16 ->
    queues_report b (if existsb (Nat.eqb (length b)) [0; 4; 8; 10] then None else Some UnexpectedEOF)
| queues_stop b e : 16 <= length b -> props_report (firstn (beyond16 (num 8 2 b)) (skipn 16 b)) (Some e) -> queues_report b (Some e)
| queues_next b v : 16 <= length b -> props_report (firstn (beyond16 (num 8 2 b)) (skipn 16 b)) None ->
    queues_report (skipn (beyond16 (num 8 2 b)) (skipn 16 b)) v -> queues_report b v.
