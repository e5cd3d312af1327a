(** Model of the hello message, ofp/handshake.go:1-168. *)
From Verif Require Export MeterModel.

(** HelloElemVersionBitmap, ofp/handshake.go:120-122, the only Go type implementing
    the HelloElem interface. *)
Record HelloElem := MkHelloElem { HelloElem_Bitmaps : list N }.
Definition zero_HelloElem : HelloElem := MkHelloElem [].

(** helloElemMap, ofp/handshake.go:29-32. *)
Definition make_hello_elem (t : N) : made HelloElem :=
  if (t =? 1)%N then MkOk zero_HelloElem else MkUnknown.

(** HelloElemVersionBitmap.WriteTo, ofp/handshake.go:131-145. *)
Definition enc_HelloElem (m : HelloElem) : bytes :=
  let maplen := length (HelloElem_Bitmaps m) * 4 in
  let padding := (4 + maplen) mod 8 in
  concat [u16 1; u16 (uwrap 2 (N.of_nat (4 + maplen + padding))); uarr 4 (HelloElem_Bitmaps m); pad padding].

(** HelloElemVersionBitmap.ReadFrom, ofp/handshake.go:149-168: the header is one
    value of four bytes; the slice is allocated before it is read. *)
Definition dec_HelloElem : step HelloElem :=
  with_local 0%N
    (andthen (seqr [fbytes 4 (fun b s => (be_dec (skipn 2 b), snd s))])
       (fun _ h =>
          let k := N.to_nat (sub16 (fst h) 4 / 4) in
          limited (Z.of_N (sub16 (fst h) 4))
            (pre (fun s => (fst s, MkHelloElem (repeat 0%N k)))
               (fus 4 k (fun l s => (fst s, MkHelloElem l)))))).

(** HelloElems.WriteTo and ReadFrom, ofp/handshake.go:48-58, 62-78. *)
Definition enc_HelloElems (l : list HelloElem) : bytes := concat (map enc_HelloElem l).
Definition dec_HelloElems : step (list HelloElem) := lost (scan make_hello_elem dec_HelloElem).

(** Hello, ofp/handshake.go:93-109. *)
Record Hello := MkHello { Hello_Elements : list HelloElem }.
Definition set_Hello_Elements (l : list HelloElem) (_ : Hello) : Hello := MkHello l.
Definition zero_Hello : Hello := MkHello [].
Definition enc_Hello (m : Hello) : bytes := enc_HelloElems (Hello_Elements m).
Definition dec_Hello : step Hello := seqr [sub Hello_Elements set_Hello_Elements dec_HelloElems].
