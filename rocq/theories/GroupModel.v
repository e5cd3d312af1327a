(** Model of the messages of ofp/group.go that carry lists.  Records,
    assignments and zero values as in [FixedModel]. *)
From Verif Require Export FixedModel ActionModel.

(** 16-bit subtraction. *)
Definition sub16 (a b : N) : N := uwrap 2 (a + 65536 - b).

(** Bucket, ofp/group.go:127-144. *)
Record Bucket := MkBucket { Bucket_Weight : N; Bucket_WatchPort : N; Bucket_WatchGroup : N; Bucket_Actions : (list Action) }.
(** Assignments to the fields of Bucket and its zero value (ofp/group.go:127-144). *)
Definition set_Bucket_Weight (v : N) (s : Bucket) : Bucket := MkBucket v (Bucket_WatchPort s) (Bucket_WatchGroup s) (Bucket_Actions s).
Definition set_Bucket_WatchPort (v : N) (s : Bucket) : Bucket := MkBucket (Bucket_Weight s) v (Bucket_WatchGroup s) (Bucket_Actions s).
Definition set_Bucket_WatchGroup (v : N) (s : Bucket) : Bucket := MkBucket (Bucket_Weight s) (Bucket_WatchPort s) v (Bucket_Actions s).
Definition set_Bucket_Actions (v : (list Action)) (s : Bucket) : Bucket := MkBucket (Bucket_Weight s) (Bucket_WatchPort s) (Bucket_WatchGroup s) v.
Definition zero_Bucket : Bucket := MkBucket 0%N 0%N 0%N [].
(** Bucket.WriteTo, ofp/group.go:148-160: 16-bit conversion of the length. *)
Definition enc_Bucket (m : Bucket) : bytes :=
  let actions := enc_Actions (Bucket_Actions m) in
  concat [u16 (uwrap 2 (N.of_nat (16 + length actions))); u16 (Bucket_Weight m); u32 (Bucket_WatchPort m); u32 (Bucket_WatchGroup m); pad 4; actions].
(** Bucket.ReadFrom, ofp/group.go:164-181; the local [length] is the first
    component of the state. *)
Definition dec_Bucket : step Bucket :=
  with_local 0%N
    (andthen (seqr [fu 2 (fun v s => (v, snd s)); sub snd (fun m s => (fst s, m)) (fu 2 set_Bucket_Weight); sub snd (fun m s => (fst s, m)) (fu 4 set_Bucket_WatchPort); sub snd (fun m s => (fst s, m)) (fu 4 set_Bucket_WatchGroup); fpad 4])
      (fun _ h => limited (Z.of_N (sub16 (fst h) 16))
         (pre (fun s => (fst s, set_Bucket_Actions [] (snd s)))
            (sub snd (fun m s => (fst s, m)) (sub Bucket_Actions set_Bucket_Actions dec_Actions))))).

(** GroupMod, ofp/group.go:74-92. *)
Record GroupMod := MkGroupMod { GroupMod_Command : N; GroupMod_Type : N; GroupMod_Group : N; GroupMod_Buckets : (list Bucket) }.
(** Assignments to the fields of GroupMod and its zero value (ofp/group.go:74-92). *)
Definition set_GroupMod_Command (v : N) (s : GroupMod) : GroupMod := MkGroupMod v (GroupMod_Type s) (GroupMod_Group s) (GroupMod_Buckets s).
Definition set_GroupMod_Type (v : N) (s : GroupMod) : GroupMod := MkGroupMod (GroupMod_Command s) v (GroupMod_Group s) (GroupMod_Buckets s).
Definition set_GroupMod_Group (v : N) (s : GroupMod) : GroupMod := MkGroupMod (GroupMod_Command s) (GroupMod_Type s) v (GroupMod_Buckets s).
Definition set_GroupMod_Buckets (v : (list Bucket)) (s : GroupMod) : GroupMod := MkGroupMod (GroupMod_Command s) (GroupMod_Type s) (GroupMod_Group s) v.
Definition zero_GroupMod : GroupMod := MkGroupMod 0%N 0%N 0%N [].
(** GroupMod.WriteTo, ofp/group.go:96-104. *)
Definition enc_GroupMod (m : GroupMod) : bytes :=
  concat [u16 (GroupMod_Command m); u8 (GroupMod_Type m); pad 1; u32 (GroupMod_Group m); concat (map enc_Bucket (GroupMod_Buckets m))].
(** GroupMod.ReadFrom, ofp/group.go:108-118. *)
Definition dec_GroupMod : step GroupMod :=
  andthen (seqr [fu 2 set_GroupMod_Command; fu 1 set_GroupMod_Type; fpad 1; fu 4 set_GroupMod_Group]) (fun _ _ => readslice zero_Bucket dec_Bucket).

(** GroupStats, ofp/group.go:216-239. *)
Record GroupStats := MkGroupStats { GroupStats_Group : N; GroupStats_RefCount : N; GroupStats_PacketCount : N; GroupStats_ByteCount : N; GroupStats_DurationSec : N; GroupStats_DurationNSec : N; GroupStats_BucketStats : (list BucketCounter) }.
(** Assignments to the fields of GroupStats and its zero value (ofp/group.go:216-239). *)
Definition set_GroupStats_Group (v : N) (s : GroupStats) : GroupStats := MkGroupStats v (GroupStats_RefCount s) (GroupStats_PacketCount s) (GroupStats_ByteCount s) (GroupStats_DurationSec s) (GroupStats_DurationNSec s) (GroupStats_BucketStats s).
Definition set_GroupStats_RefCount (v : N) (s : GroupStats) : GroupStats := MkGroupStats (GroupStats_Group s) v (GroupStats_PacketCount s) (GroupStats_ByteCount s) (GroupStats_DurationSec s) (GroupStats_DurationNSec s) (GroupStats_BucketStats s).
Definition set_GroupStats_PacketCount (v : N) (s : GroupStats) : GroupStats := MkGroupStats (GroupStats_Group s) (GroupStats_RefCount s) v (GroupStats_ByteCount s) (GroupStats_DurationSec s) (GroupStats_DurationNSec s) (GroupStats_BucketStats s).
Definition set_GroupStats_ByteCount (v : N) (s : GroupStats) : GroupStats := MkGroupStats (GroupStats_Group s) (GroupStats_RefCount s) (GroupStats_PacketCount s) v (GroupStats_DurationSec s) (GroupStats_DurationNSec s) (GroupStats_BucketStats s).
Definition set_GroupStats_DurationSec (v : N) (s : GroupStats) : GroupStats := MkGroupStats (GroupStats_Group s) (GroupStats_RefCount s) (GroupStats_PacketCount s) (GroupStats_ByteCount s) v (GroupStats_DurationNSec s) (GroupStats_BucketStats s).
Definition set_GroupStats_DurationNSec (v : N) (s : GroupStats) : GroupStats := MkGroupStats (GroupStats_Group s) (GroupStats_RefCount s) (GroupStats_PacketCount s) (GroupStats_ByteCount s) (GroupStats_DurationSec s) v (GroupStats_BucketStats s).
Definition set_GroupStats_BucketStats (v : (list BucketCounter)) (s : GroupStats) : GroupStats := MkGroupStats (GroupStats_Group s) (GroupStats_RefCount s) (GroupStats_PacketCount s) (GroupStats_ByteCount s) (GroupStats_DurationSec s) (GroupStats_DurationNSec s) v.
Definition zero_GroupStats : GroupStats := MkGroupStats 0%N 0%N 0%N 0%N 0%N 0%N [].
(** GroupStats.WriteTo, ofp/group.go:243-254: 16-bit conversion of the length. *)
Definition enc_GroupStats (m : GroupStats) : bytes :=
  let buf := concat (map enc_BucketCounter (GroupStats_BucketStats m)) in
  concat [u16 (uwrap 2 (N.of_nat (40 + length buf))); pad 2; u32 (GroupStats_Group m); u32 (GroupStats_RefCount m); pad 4; u64 (GroupStats_PacketCount m); u64 (GroupStats_ByteCount m); u32 (GroupStats_DurationSec m); u32 (GroupStats_DurationNSec m); buf].
(** GroupStats.ReadFrom, ofp/group.go:258-274. *)
Definition dec_GroupStats : step GroupStats :=
  with_local 0%N
    (andthen (seqr [fu 2 (fun v s => (v, snd s)); fpad 2; sub snd (fun m s => (fst s, m)) (fu 4 set_GroupStats_Group); sub snd (fun m s => (fst s, m)) (fu 4 set_GroupStats_RefCount); fpad 4; sub snd (fun m s => (fst s, m)) (fu 8 set_GroupStats_PacketCount); sub snd (fun m s => (fst s, m)) (fu 8 set_GroupStats_ByteCount); sub snd (fun m s => (fst s, m)) (fu 4 set_GroupStats_DurationSec); sub snd (fun m s => (fst s, m)) (fu 4 set_GroupStats_DurationNSec)])
      (fun _ h => limited (Z.of_N (sub16 (fst h) 40)) (readslice zero_BucketCounter dec_BucketCounter))).

(** GroupDescStats, ofp/group.go:306-316. *)
Record GroupDescStats := MkGroupDescStats { GroupDescStats_Type : N; GroupDescStats_Group : N; GroupDescStats_Buckets : (list Bucket) }.
(** Assignments to the fields of GroupDescStats and its zero value (ofp/group.go:306-316). *)
Definition set_GroupDescStats_Type (v : N) (s : GroupDescStats) : GroupDescStats := MkGroupDescStats v (GroupDescStats_Group s) (GroupDescStats_Buckets s).
Definition set_GroupDescStats_Group (v : N) (s : GroupDescStats) : GroupDescStats := MkGroupDescStats (GroupDescStats_Type s) v (GroupDescStats_Buckets s).
Definition set_GroupDescStats_Buckets (v : (list Bucket)) (s : GroupDescStats) : GroupDescStats := MkGroupDescStats (GroupDescStats_Type s) (GroupDescStats_Group s) v.
Definition zero_GroupDescStats : GroupDescStats := MkGroupDescStats 0%N 0%N [].
(** GroupDescStats.WriteTo, ofp/group.go:320-333: 16-bit conversion of the length. *)
Definition enc_GroupDescStats (m : GroupDescStats) : bytes :=
  let buf := concat (map enc_Bucket (GroupDescStats_Buckets m)) in
  concat [u16 (uwrap 2 (N.of_nat (8 + length buf))); u8 (GroupDescStats_Type m); pad 1; u32 (GroupDescStats_Group m); buf].
(** GroupDescStats.ReadFrom, ofp/group.go:337-350: an error of the header is
    overwritten by the outcome of the list. *)
Definition dec_GroupDescStats : step GroupDescStats :=
  with_local 0%N
    (andthen_ignoring (seqr [fu 2 (fun v s => (v, snd s)); sub snd (fun m s => (fst s, m)) (fu 1 set_GroupDescStats_Type); fpad 1; sub snd (fun m s => (fst s, m)) (fu 4 set_GroupDescStats_Group)])
      (fun _ h => limited (Z.of_N (sub16 (fst h) 8)) (readslice zero_Bucket dec_Bucket))).
