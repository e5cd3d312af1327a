(** Model of ofp/match.go: extensible match entries and matches. *)
From Verif Require Export FixedModel.

(** XM, ofp/match.go:302-313.  A nil and an empty mask are not distinguished
    (the code only looks at its length). *)
Record XM := MkXM { XM_Class : N; XM_Type : N; XM_Value : bytes; XM_Mask : bytes }.
(** Assignments to the fields of XM and its zero value (ofp/match.go:302-313). *)
Definition set_XM_Class (v : N) (s : XM) : XM := MkXM v (XM_Type s) (XM_Value s) (XM_Mask s).
Definition set_XM_Type (v : N) (s : XM) : XM := MkXM (XM_Class s) v (XM_Value s) (XM_Mask s).
Definition set_XM_Value (v : bytes) (s : XM) : XM := MkXM (XM_Class s) (XM_Type s) v (XM_Mask s).
Definition set_XM_Mask (v : bytes) (s : XM) : XM := MkXM (XM_Class s) (XM_Type s) (XM_Value s) v.
Definition zero_XM : XM := MkXM 0%N 0%N [] [].

(** XM.WriteTo, ofp/match.go:389-401: the field byte and the length are 8-bit
    arithmetic. *)
Definition enc_XM (m : XM) : bytes :=
  let hasmask := match XM_Mask m with [] => 0%N | _ => 1%N end in
  let field := N.lor (uwrap 1 (2 * XM_Type m)) hasmask in
  concat [u16 (XM_Class m); u8 field;
          u8 (uwrap 1 (N.of_nat (length (XM_Mask m) + length (XM_Value m))));
          XM_Value m; XM_Mask m].

(** The value and mask halves of a payload, ofp/match.go:376-382: [length] is
    halved (rounding down), the mask is copied out of the second half. *)
Definition halve (len : nat) (s : XM) : XM :=
  let h := len / 2 in
  set_XM_Value (firstn h (XM_Value s)) (set_XM_Mask (firstn h (skipn h (XM_Value s))) s).

(** XM.readFrom, ofp/match.go:353-385 (ReadFrom, 346-348, has [payload] true).
    The local variable [length] is the first component of the state. *)
Definition dec_xm (payload : bool) : step XM :=
  with_local 0%N
    (andthen (seqr [sub snd (fun x s => (fst s, x)) (fu 2 set_XM_Class);
                    sub snd (fun x s => (fst s, x)) (fu 1 set_XM_Type);
                    fu 1 (fun v s => (v, snd s))])
       (fun _ h =>
          let len := N.to_nat (fst h) in
          let hasmask := N.testbit (XM_Type (snd h)) 0 in
          sub snd (fun x s => (fst s, x))
            (pre (fun x => set_XM_Mask [] (set_XM_Value (zeros len)
                             (set_XM_Type (N.shiftr (XM_Type x) 1) x)))
               (andthen (if payload then fslice XM_Value set_XM_Value else assign (fun x => x))
                  (fun _ _ => assign (if hasmask then halve len else fun x => x)))))).

(** XM.ReadFrom, ofp/match.go:346-348. *)
Definition dec_XM : step XM := dec_xm true.

(** The loop of readAllXM, ofp/match.go:330-339: at least four bytes left (the
    constant xmlen, ofp/match.go:284-288). *)
Fixpoint xm_loop (fuel : nat) (payload : bool) (acc : list XM) (inp : bytes) : list XM * option err :=
  match fuel with
  | O => (acc, Some EFuel)
  | S fuel' =>
      if length inp <? 4 then (acc, None)
      else
        let r := dec_xm payload zero_XM inp in
        match fail r with
        | Some e => (acc, Some e)
        | None => xm_loop fuel' payload (acc ++ [val r]) (rest r)
        end
  end.

(** readAllXM, ofp/match.go:319-342: everything available is read first and
    counted; the entries decoded before an error stay in the list. *)
Definition read_all_xm (payload : bool) : step (list XM) := fun old inp =>
  let '(l, e) := xm_loop (S (length inp)) payload old inp in
  Res l (length inp) e [].

(** Match, ofp/match.go:441-449. *)
Record Match := MkMatch { Match_Type : N; Match_Fields : list XM }.
(** Assignments to the fields of Match and its zero value (ofp/match.go:441-449). *)
Definition set_Match_Type (v : N) (s : Match) : Match := MkMatch v (Match_Fields s).
Definition set_Match_Fields (v : list XM) (s : Match) : Match := MkMatch (Match_Type s) v.
Definition zero_Match : Match := MkMatch 0%N [].

(** Match.Field, ofp/match.go:452-460: the first entry of the given type. *)
Definition match_field (m : Match) (t : N) : option XM :=
  find (fun x => (XM_Type x =? t)%N) (Match_Fields m).

(** Match.WriteTo, ofp/match.go:497-513. *)
Definition enc_Match (m : Match) : bytes :=
  let buf := concat (map enc_XM (Match_Fields m)) in
  let length' := length buf + 4 in
  concat [u16 (Match_Type m); u16 (uwrap 2 (N.of_nat length')); buf; pad (pad_len length')].

(** Match.ReadFrom, ofp/match.go:464-493.  The local variable [length] is the
    first component of the state. *)
Definition dec_Match : step Match :=
  pre (fun _ => zero_Match)
    (with_local 0%N
       (andthen (seqr [sub snd (fun x s => (fst s, x)) (fu 2 set_Match_Type);
                       fu 2 (fun v s => (v, snd s))])
          (fun _ h =>
             sub snd (fun x s => (fst s, x))
               (andthen (limited (Z.of_N (fst h) - 4)
                           (sub Match_Fields set_Match_Fields (read_all_xm true)))
                  (fun _ _ => fpad (pad_len (N.to_nat (fst h)))))))).

(** XMValue.UInt32, UInt16, UInt8, ofp/match.go:407-422: a decoding error is
    ignored and leaves zero. *)
Definition xm_uint (k : nat) (v : bytes) : N :=
  val (fu k (fun n _ => n) 0%N v).
