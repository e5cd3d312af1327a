(** Model of ofp/action.go: actions and action lists. *)
From Verif Require Export MatchModel.

(** The Go types implementing the Action interface, ofp/action.go:221-642.
    (ActionPopPBB, 617-619, has no methods and implements no interface.) *)
Inductive Action :=
| AOutput (port maxlen : N)
| ACopyTTLOut
| ACopyTTLIn
| ASetMPLSTTL (ttl : N)
| ADecMPLSTTL
| APushVLAN (ethertype : N)
| APopVLAN
| APushMPLS (ethertype : N)
| APopMPLS (ethertype : N)
| ASetQueue (queue : N)
| AGroup (group : N)
| ASetNetworkTTL (ttl : N)
| ADecNetworkTTL
| ASetField (field : XM)
| APushPBB (ethertype : N)
| AExperimenter (experimenter : N).

(** The Type methods with the constants of ofp/action.go:26-88. *)
Definition action_type (a : Action) : N :=
  match a with
  | AOutput _ _ => 0
  | ACopyTTLOut => 11
  | ACopyTTLIn => 12
  | ASetMPLSTTL _ => 15
  | ADecMPLSTTL => 16
  | APushVLAN _ => 17
  | APopVLAN => 18
  | APushMPLS _ => 19
  | APopMPLS _ => 20
  | ASetQueue _ => 21
  | AGroup _ => 22
  | ASetNetworkTTL _ => 23
  | ADecNetworkTTL => 24
  | ASetField _ => 25
  | APushPBB _ => 26
  | AExperimenter _ => 65535
  end%N.

(** actionMap, ofp/action.go:110-128, with the type assertion of
    encoding.go:192 panicking for ActionPopPBB. *)
Definition make_action (t : N) : made Action :=
  (if t =? 0 then MkOk (AOutput 0 0)
   else if t =? 11 then MkOk ACopyTTLOut
   else if t =? 12 then MkOk ACopyTTLIn
   else if t =? 15 then MkOk (ASetMPLSTTL 0)
   else if t =? 16 then MkOk ADecMPLSTTL
   else if t =? 17 then MkOk (APushVLAN 0)
   else if t =? 18 then MkOk APopVLAN
   else if t =? 19 then MkOk (APushMPLS 0)
   else if t =? 20 then MkOk (APopMPLS 0)
   else if t =? 21 then MkOk (ASetQueue 0)
   else if t =? 22 then MkOk (AGroup 0)
   else if t =? 23 then MkOk (ASetNetworkTTL 0)
   else if t =? 24 then MkOk ADecNetworkTTL
   else if t =? 25 then MkOk (ASetField zero_XM)
   else if t =? 26 then MkOk (APushPBB 0)
   else if t =? 27 then MkPanic
   else if t =? 65535 then MkOk (AExperimenter 0)
   else MkUnknown)%N.

(** The header struct action, ofp/action.go:142-147, as written by binary.Write. *)
Definition action_header (t len : N) : bytes := u16 t ++ u16 len.

(** ActionSetField.WriteTo, ofp/action.go:547-567. *)
Definition enc_set_field (f : XM) : bytes :=
  let buf := enc_XM f in
  let length' := length buf + 4 in
  let buf' := buf ++ (if length' mod 8 =? 0 then [] else pad (8 - length' mod 8)) in
  action_header 25 (uwrap 2 (N.of_nat (length buf' + 4))) ++ buf'.

(** The WriteTo methods: 239-241 (output), 260-262, 281-283, 305-307, 326-328,
    353-356, 375-377, 398-401, 423-426, 453-455, 478-480, 502-504, 523-525,
    547-567 (set field), 606-609, 634-636 of ofp/action.go. *)
Definition enc_Action (a : Action) : bytes :=
  let t := action_type a in
  match a with
  | AOutput p m => concat [action_header t 16; u32 p; u16 m; pad 6]
  | ACopyTTLOut | ACopyTTLIn | ADecMPLSTTL | APopVLAN | ADecNetworkTTL =>
      concat [action_header t 8; pad 4]
  | ASetMPLSTTL x | ASetNetworkTTL x => concat [action_header t 8; u8 x; pad 3]
  | APushVLAN x | APushMPLS x | APopMPLS x | APushPBB x => concat [action_header t 8; u16 x; pad 2]
  | ASetQueue x | AGroup x | AExperimenter x => concat [action_header t 8; u32 x]
  | ASetField f => enc_set_field f
  end.

(** Assignment to the only parameter of a one-parameter action. *)
Definition set_arg (v : N) (a : Action) : Action :=
  match a with
  | ASetMPLSTTL _ => ASetMPLSTTL v
  | APushVLAN _ => APushVLAN v
  | APushMPLS _ => APushMPLS v
  | APopMPLS _ => APopMPLS v
  | ASetQueue _ => ASetQueue v
  | AGroup _ => AGroup v
  | ASetNetworkTTL _ => ASetNetworkTTL v
  | APushPBB _ => APushPBB v
  | AExperimenter _ => AExperimenter v
  | _ => a
  end.
(** Assignments to the parameters of the output action. *)
Definition set_port (v : N) (a : Action) : Action :=
  match a with AOutput _ m => AOutput v m | _ => a end.
Definition set_maxlen (v : N) (a : Action) : Action :=
  match a with AOutput p _ => AOutput p v | _ => a end.
(** The field of the set field action. *)
Definition get_field (a : Action) : XM := match a with ASetField f => f | _ => zero_XM end.
Definition set_field (f : XM) (a : Action) : Action := match a with ASetField _ => ASetField f | _ => a end.

(** ActionSetField.ReadFrom, ofp/action.go:571-591: the limit is 16-bit
    arithmetic; the bytes after the field are read and dropped.  The local
    [header.Len] is the first component of the state. *)
Definition dec_set_field : step Action :=
  with_local 0%N
    (andthen (seqr [fpad 2; fu 2 (fun v s => (v, snd s))])
       (fun _ h =>
          limited (Z.of_N (uwrap 2 (fst h + 65532)))
            (sub snd (fun x s => (fst s, x))
               (andthen (sub get_field set_field dec_XM)
                  (fun _ _ => readall (fun _ a => a)))))).

(** The ReadFrom methods: 245-247 (output), 266-268, 287-289, 311-313, 332-334,
    360-362, 381-383, 405-407, 430-432, 459-461, 484-486, 508-510, 529-531,
    571-591 (set field), 613-615, 640-642 of ofp/action.go; the header struct is
    read as two fields (149-151) or skipped as four bytes. *)
Definition dec_Action : step Action := fun a =>
  match a with
  | AOutput _ _ => seqr [fpad 2; fpad 2; fu 4 set_port; fu 2 set_maxlen; fpad 6]
  | ACopyTTLOut | ACopyTTLIn | ADecMPLSTTL | APopVLAN | ADecNetworkTTL => seqr [fpad 8]
  | ASetMPLSTTL _ => seqr [fpad 2; fpad 2; fu 1 set_arg; fpad 3]
  | ASetNetworkTTL _ => seqr [fpad 4; fu 1 set_arg; fpad 3]
  | APushVLAN _ | APushMPLS _ | APopMPLS _ | APushPBB _ => seqr [fpad 4; fu 2 set_arg; fpad 2]
  | ASetQueue _ | AGroup _ | AExperimenter _ => seqr [fpad 4; fu 4 set_arg]
  | ASetField _ => dec_set_field
  end a.

(** Actions.WriteTo, ofp/action.go:172-193. *)
Definition enc_Actions (l : list Action) : bytes := concat (map enc_Action l).

(** Actions.ReadFrom, ofp/action.go:197-214: the receiver is reset first. *)
Definition dec_Actions : step (list Action) :=
  pre (fun _ => []) (scan make_action dec_Action).
