(** Model of the messages of ofp/meter.go that carry lists. *)
From Verif Require Export GroupModel.

(** A decoder method with a value receiver (ofp/meter.go:122, ofp/queue.go:72,
    ofp/handshake.go:62): what it assigns to the receiver is lost.  (For
    elements written into spare capacity behind the caller's slice see SliceModel.v.) *)
Definition lost {S} (f : step S) : step S := fun s inp =>
  let r := f s inp in Res s (cnt r) (fail r) (rest r).

(** The Go types implementing the MeterBand interface, ofp/meter.go:142-237. *)
Inductive MeterBand :=
| BandDrop (rate burst : N)
| BandDSCPRemark (rate burst prec : N)
| BandExperimenter (rate burst experimenter : N).

(** The Type methods with the constants of ofp/meter.go:65-74: the second is
    [1 + iota] at iota one. *)
Definition band_type (x : MeterBand) : N :=
  match x with BandDrop _ _ => 1 | BandDSCPRemark _ _ _ => 2 | BandExperimenter _ _ _ => 65535 end%N.

(** meterBandMap, ofp/meter.go:76-80. *)
Definition make_band (t : N) : made MeterBand :=
  (if t =? 1 then MkOk (BandDrop 0 0)
   else if t =? 2 then MkOk (BandDSCPRemark 0 0 0)
   else if t =? 65535 then MkOk (BandExperimenter 0 0 0)
   else MkUnknown)%N.

(** The WriteTo methods, ofp/meter.go:158-161, 193-197, 226-230: the header
    struct (84-87) is written as two numbers. *)
Definition enc_MeterBand (x : MeterBand) : bytes :=
  match x with
  | BandDrop r b => concat [u16 (band_type x); u16 16; u32 r; u32 b; pad 4]
  | BandDSCPRemark r b p => concat [u16 (band_type x); u16 16; u32 r; u32 b; u8 p; pad 3]
  | BandExperimenter r b e => concat [u16 (band_type x); u16 16; u32 r; u32 b; u32 e]
  end.

(** Parameters of a band. *)
Definition set_rate (v : N) (x : MeterBand) : MeterBand :=
  match x with BandDrop _ b => BandDrop v b | BandDSCPRemark _ b p => BandDSCPRemark v b p
             | BandExperimenter _ b e => BandExperimenter v b e end.
Definition set_burst (v : N) (x : MeterBand) : MeterBand :=
  match x with BandDrop r _ => BandDrop r v | BandDSCPRemark r _ p => BandDSCPRemark r v p
             | BandExperimenter r _ e => BandExperimenter r v e end.
Definition set_third (v : N) (x : MeterBand) : MeterBand :=
  match x with BandDrop r b => BandDrop r b | BandDSCPRemark r b _ => BandDSCPRemark r b v
             | BandExperimenter r b _ => BandExperimenter r b v end.

(** The ReadFrom methods, ofp/meter.go:165-168, 201-204, 234-237: the header is
    read as one value of four bytes and dropped. *)
Definition dec_MeterBand : step MeterBand := fun x =>
  match x with
  | BandDrop _ _ => seqr [fpad 4; fu 4 set_rate; fu 4 set_burst; fpad 4]
  | BandDSCPRemark _ _ _ => seqr [fpad 4; fu 4 set_rate; fu 4 set_burst; fu 1 set_third; fpad 3]
  | BandExperimenter _ _ _ => seqr [fpad 4; fu 4 set_rate; fu 4 set_burst; fu 4 set_third]
  end x.

(** MeterBands.WriteTo and ReadFrom, ofp/meter.go:105-118, 122-138. *)
Definition enc_MeterBands (l : list MeterBand) : bytes := concat (map enc_MeterBand l).
Definition dec_MeterBands : step (list MeterBand) := lost (scan make_band dec_MeterBand).

(** MeterMod, ofp/meter.go:256-273. *)
Record MeterMod := MkMeterMod { MeterMod_Command : N; MeterMod_Flags : N; MeterMod_Meter : N; MeterMod_Bands : (list MeterBand) }.
(** Assignments to the fields of MeterMod and its zero value (ofp/meter.go:256-273). *)
Definition set_MeterMod_Command (v : N) (s : MeterMod) : MeterMod := MkMeterMod v (MeterMod_Flags s) (MeterMod_Meter s) (MeterMod_Bands s).
Definition set_MeterMod_Flags (v : N) (s : MeterMod) : MeterMod := MkMeterMod (MeterMod_Command s) v (MeterMod_Meter s) (MeterMod_Bands s).
Definition set_MeterMod_Meter (v : N) (s : MeterMod) : MeterMod := MkMeterMod (MeterMod_Command s) (MeterMod_Flags s) v (MeterMod_Bands s).
Definition set_MeterMod_Bands (v : (list MeterBand)) (s : MeterMod) : MeterMod := MkMeterMod (MeterMod_Command s) (MeterMod_Flags s) (MeterMod_Meter s) v.
Definition zero_MeterMod : MeterMod := MkMeterMod 0%N 0%N 0%N [].
(** MeterMod.WriteTo, ofp/meter.go:277-279. *)
Definition enc_MeterMod (m : MeterMod) : bytes :=
  concat [u16 (MeterMod_Command m); u16 (MeterMod_Flags m); u32 (MeterMod_Meter m); enc_MeterBands (MeterMod_Bands m)].
(** MeterMod.ReadFrom, ofp/meter.go:283-285. *)
Definition dec_MeterMod : step MeterMod :=
  seqr [fu 2 set_MeterMod_Command; fu 2 set_MeterMod_Flags; fu 4 set_MeterMod_Meter; sub MeterMod_Bands set_MeterMod_Bands dec_MeterBands].

(** MeterConfig, ofp/meter.go:312-321. *)
Record MeterConfig := MkMeterConfig { MeterConfig_Flags : N; MeterConfig_Meter : N; MeterConfig_Bands : (list MeterBand) }.
(** Assignments to the fields of MeterConfig and its zero value (ofp/meter.go:312-321). *)
Definition set_MeterConfig_Flags (v : N) (s : MeterConfig) : MeterConfig := MkMeterConfig v (MeterConfig_Meter s) (MeterConfig_Bands s).
Definition set_MeterConfig_Meter (v : N) (s : MeterConfig) : MeterConfig := MkMeterConfig (MeterConfig_Flags s) v (MeterConfig_Bands s).
Definition set_MeterConfig_Bands (v : (list MeterBand)) (s : MeterConfig) : MeterConfig := MkMeterConfig (MeterConfig_Flags s) (MeterConfig_Meter s) v.
Definition zero_MeterConfig : MeterConfig := MkMeterConfig 0%N 0%N [].
(** MeterConfig.WriteTo, ofp/meter.go:325-336: 16-bit conversion of the length. *)
Definition enc_MeterConfig (m : MeterConfig) : bytes :=
  let buf := enc_MeterBands (MeterConfig_Bands m) in
  concat [u16 (uwrap 2 (N.of_nat (8 + length buf))); u16 (MeterConfig_Flags m); u32 (MeterConfig_Meter m); buf].
(** MeterConfig.ReadFrom, ofp/meter.go:340-354. *)
Definition dec_MeterConfig : step MeterConfig :=
  with_local 0%N
    (andthen (seqr [fu 2 (fun v s => (v, snd s)); sub snd (fun m s => (fst s, m)) (fu 2 set_MeterConfig_Flags); sub snd (fun m s => (fst s, m)) (fu 4 set_MeterConfig_Meter)])
      (fun _ h => limited (Z.of_N (sub16 (fst h) 8))
         (sub snd (fun m s => (fst s, m)) (sub MeterConfig_Bands set_MeterConfig_Bands dec_MeterBands)))).

(** MeterStats, ofp/meter.go:441-463. *)
Record MeterStats := MkMeterStats { MeterStats_Meter : N; MeterStats_FlowCount : N; MeterStats_PacketInCount : N; MeterStats_ByteInCount : N; MeterStats_DurationSec : N; MeterStats_DurationNSec : N; MeterStats_BandStats : (list MeterBandStats) }.
(** Assignments to the fields of MeterStats and its zero value (ofp/meter.go:441-463). *)
Definition set_MeterStats_Meter (v : N) (s : MeterStats) : MeterStats := MkMeterStats v (MeterStats_FlowCount s) (MeterStats_PacketInCount s) (MeterStats_ByteInCount s) (MeterStats_DurationSec s) (MeterStats_DurationNSec s) (MeterStats_BandStats s).
Definition set_MeterStats_FlowCount (v : N) (s : MeterStats) : MeterStats := MkMeterStats (MeterStats_Meter s) v (MeterStats_PacketInCount s) (MeterStats_ByteInCount s) (MeterStats_DurationSec s) (MeterStats_DurationNSec s) (MeterStats_BandStats s).
Definition set_MeterStats_PacketInCount (v : N) (s : MeterStats) : MeterStats := MkMeterStats (MeterStats_Meter s) (MeterStats_FlowCount s) v (MeterStats_ByteInCount s) (MeterStats_DurationSec s) (MeterStats_DurationNSec s) (MeterStats_BandStats s).
Definition set_MeterStats_ByteInCount (v : N) (s : MeterStats) : MeterStats := MkMeterStats (MeterStats_Meter s) (MeterStats_FlowCount s) (MeterStats_PacketInCount s) v (MeterStats_DurationSec s) (MeterStats_DurationNSec s) (MeterStats_BandStats s).
Definition set_MeterStats_DurationSec (v : N) (s : MeterStats) : MeterStats := MkMeterStats (MeterStats_Meter s) (MeterStats_FlowCount s) (MeterStats_PacketInCount s) (MeterStats_ByteInCount s) v (MeterStats_DurationNSec s) (MeterStats_BandStats s).
Definition set_MeterStats_DurationNSec (v : N) (s : MeterStats) : MeterStats := MkMeterStats (MeterStats_Meter s) (MeterStats_FlowCount s) (MeterStats_PacketInCount s) (MeterStats_ByteInCount s) (MeterStats_DurationSec s) v (MeterStats_BandStats s).
Definition set_MeterStats_BandStats (v : (list MeterBandStats)) (s : MeterStats) : MeterStats := MkMeterStats (MeterStats_Meter s) (MeterStats_FlowCount s) (MeterStats_PacketInCount s) (MeterStats_ByteInCount s) (MeterStats_DurationSec s) (MeterStats_DurationNSec s) v.
Definition zero_MeterStats : MeterStats := MkMeterStats 0%N 0%N 0%N 0%N 0%N 0%N [].
(** MeterStats.WriteTo, ofp/meter.go:467-483: 16-bit conversion of the length. *)
Definition enc_MeterStats (m : MeterStats) : bytes :=
  let buf := concat (map enc_MeterBandStats (MeterStats_BandStats m)) in
  concat [u32 (MeterStats_Meter m); u16 (uwrap 2 (N.of_nat (40 + length buf))); pad 6; u32 (MeterStats_FlowCount m); u64 (MeterStats_PacketInCount m); u64 (MeterStats_ByteInCount m); u32 (MeterStats_DurationSec m); u32 (MeterStats_DurationNSec m); buf].
(** MeterStats.ReadFrom, ofp/meter.go:487-501: an error of the header is
    overwritten by the outcome of the list. *)
Definition dec_MeterStats : step MeterStats :=
  with_local 0%N
    (andthen_ignoring (seqr [sub snd (fun m s => (fst s, m)) (fu 4 set_MeterStats_Meter); fu 2 (fun v s => (v, snd s)); fpad 6; sub snd (fun m s => (fst s, m)) (fu 4 set_MeterStats_FlowCount); sub snd (fun m s => (fst s, m)) (fu 8 set_MeterStats_PacketInCount); sub snd (fun m s => (fst s, m)) (fu 8 set_MeterStats_ByteInCount); sub snd (fun m s => (fst s, m)) (fu 4 set_MeterStats_DurationSec); sub snd (fun m s => (fst s, m)) (fu 4 set_MeterStats_DurationNSec)])
      (fun _ h => limited (Z.of_N (sub16 (fst h) 40)) (readslice zero_MeterBandStats dec_MeterBandStats))).
