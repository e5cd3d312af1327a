(** Theorems on reading into a request that was used before: C98. *)
From Coq Require Import Lia.
From Verif Require Import RequestModel RequestSpec RequestFacts.

(** The first [c < 8] bytes of a header over an older one: fields that are
    complete are new, the others old. *)
Definition patched (d : bytes) (h : Header) : Header :=
  let field k (new old : N) := if k <=? length d then new else old in
  MkHeader (field 1 (be_dec (firstn 1 d)) (Header_Version h))
           (field 2 (be_dec (firstn 1 (skipn 1 d))) (Header_Type h))
           (field 4 (be_dec (firstn 2 (skipn 2 d))) (Header_Length h))
           (field 8 (be_dec (firstn 4 (skipn 4 d))) (Header_Transaction h)).

Lemma hdr_field_any k set h h' n e r :
  snd (fst (fst (hdr_field k set (h, n, e, r)))) = snd (fst (fst (hdr_field k set (h', n, e, r)))) /\
  snd (fst (hdr_field k set (h, n, e, r))) = snd (fst (hdr_field k set (h', n, e, r))) /\
  snd (hdr_field k set (h, n, e, r)) = snd (hdr_field k set (h', n, e, r)).
Proof.
  unfold hdr_field. destruct e; [auto|]. destruct (read_full _ _ _ _) as [[b [x|]] r']; auto.
Qed.

Lemma hdr_fields_any k set s s' :
  snd (fst (fst s)) = snd (fst (fst s')) -> snd (fst s) = snd (fst s') -> snd s = snd s' ->
  snd (fst (fst (hdr_field k set s))) = snd (fst (fst (hdr_field k set s'))) /\
  snd (fst (hdr_field k set s)) = snd (fst (hdr_field k set s')) /\
  snd (hdr_field k set s) = snd (hdr_field k set s').
Proof.
  destruct s as [[[h n] e] r], s' as [[[h' n'] e'] r']. cbn [fst snd]. intros -> -> ->. apply hdr_field_any.
Qed.

Lemma read_header_any h h' r :
  snd (fst (fst (read_header h r))) = snd (fst (fst (read_header h' r))) /\
  snd (fst (read_header h r)) = snd (fst (read_header h' r)) /\ snd (read_header h r) = snd (read_header h' r).
Proof.
  unfold read_header. pose proof (hdr_field_any 1 set_Header_Version h h' 0 None r) as (A1 & A2 & A3).
  destruct (hdr_fields_any 1 set_Header_Type _ _ A1 A2 A3) as (B1 & B2 & B3).
  destruct (hdr_fields_any 2 set_Header_Length _ _ B1 B2 B3) as (C1 & C2 & C3).
  exact (hdr_fields_any 4 set_Header_Transaction _ _ C1 C2 C3).
Qed.

(** C98: what ReadFrom reports and consumes never depends on what the request
    held before; if it succeeds nothing of that is left. *)
Theorem C98_success : forall req req' r,
  let y := read_from req r in let y' := read_from req' r in
  rcount y = rcount y' /\ rfail y = rfail y' /\ rreader y = rreader y' /\ (rfail y = None -> rreq y = rreq y').
Proof.
  intros req req' r. cbn zeta. destruct (Nat.le_gt_cases 8 (length (data r))) as [L|L].
  - unfold read_from. destruct (read_header_ok (Request_Header req) r L) as (r1 & E1 & _).
    destruct (read_header_ok (Request_Header req') r L) as (r2 & E2 & _).
    destruct (read_header_any (Request_Header req) (Request_Header req') r) as (_ & _ & E3).
    rewrite E1, E2 in E3 |- *. cbn [snd] in E3. subst r2.
    destruct (_ <? 0)%Z; [cbn [rcount rfail rreader rreq]; repeat split; discriminate|].
    destruct (read_body _ _ _ _) as [[b [x|]] r']; cbn [rcount rfail rreader rreq]; repeat split; discriminate.
  - unfold read_from. destruct (read_header_short (Request_Header req) r L) as (h1 & r1 & E1 & _).
    destruct (read_header_short (Request_Header req') r L) as (h2 & r2 & E2 & _).
    destruct (read_header_any (Request_Header req) (Request_Header req') r) as (_ & _ & E3).
    rewrite E1, E2 in E3 |- *. cbn [snd] in E3. subst r2. cbn [rcount rfail rreader rreq]. repeat split; discriminate.
Qed.
Print Assumptions C98_success.

(** If it fails after the header, the request has the new header and version
    numbers with the old body and content length; *)
Theorem C98_failure : forall req r e, 8 <= length (data r) -> rfail (read_from req r) = Some e ->
  let q := rreq (read_from req r) in
  Request_Header q = header_at (data r) /\ Request_ProtoMajor q = 1%Z /\
  Request_Body q = Request_Body req /\ Request_ContentLength q = Request_ContentLength req.
Proof.
  intros req r e L. unfold read_from. destruct (read_header_ok (Request_Header req) r L) as (r1 & -> & _).
  destruct (_ <? 0)%Z; [cbn; auto|]. destruct (read_body _ _ _ _) as [[b [x|]] r']; cbn; [auto|discriminate].
Qed.
Print Assumptions C98_failure.

(** if it fails within the header, some fields of the header are new. *)
Theorem C98_short : forall req r, length (data r) < 8 ->
  rreq (read_from req r) = set_header (patched (data r) (Request_Header req)) req.
Proof.
  intros req r L. unfold read_from.
  assert (E : fst (fst (fst (read_header (Request_Header req) r))) = patched (data r) (Request_Header req)
              /\ exists x, snd (fst (read_header (Request_Header req) r)) = Some x).
  { set (h := Request_Header req). unfold patched. destruct (read_header_short h r L) as (h0 & r0 & E0 & _).
    split; [|rewrite E0; eexists; reflexivity]. clear E0 h0 r0. unfold read_header.
    destruct (Nat.ltb_spec (length (data r)) 1) as [C|C].
    { destruct (hdr_field_short 1 set_Header_Version h 0 r C) as (r1 & -> & A1). rewrite !hdr_field_err. cbn [fst].
      destruct (length (data r)); [destruct h; reflexivity|lia]. }
    destruct (hdr_field_ok 1 set_Header_Version h 0 r ltac:(lia)) as (r1 & -> & A1).
    assert (L1 : length (data r1) = length (data r) - 1) by (destruct A1 as (-> & _); apply skipn_length).
    assert (D1 : data r1 = skipn 1 (data r)) by apply A1.
    rewrite (proj2 (Nat.leb_le 1 _)) by lia. rewrite (proj2 (Nat.leb_gt 8 (length (data r)))) by lia.
    destruct (Nat.ltb_spec (length (data r1)) 1) as [C1|C1].
    { match goal with |- context [hdr_field 1 set_Header_Type (?h', ?n', None, r1)] =>
        destruct (hdr_field_short 1 set_Header_Type h' n' r1 C1) as (r2 & -> & A2) end.
      rewrite !hdr_field_err. cbn [fst]. rewrite (proj2 (Nat.leb_gt 2 _)), (proj2 (Nat.leb_gt 4 _)) by lia. reflexivity. }
    match goal with |- context [hdr_field 1 set_Header_Type (?h', ?n', None, r1)] =>
      destruct (hdr_field_ok 1 set_Header_Type h' n' r1 ltac:(lia)) as (r2 & -> & A2) end.
    pose proof (after_trans _ _ _ _ _ A1 A2) as B2.
    assert (L2 : length (data r2) = length (data r) - 2) by (destruct B2 as (-> & _); apply skipn_length).
    assert (D2 : data r2 = skipn 2 (data r)) by apply B2.
    rewrite (proj2 (Nat.leb_le 2 _)) by lia.
    destruct (Nat.ltb_spec (length (data r2)) 2) as [C2|C2].
    { match goal with |- context [hdr_field 2 set_Header_Length (?h', ?n', None, r2)] =>
        destruct (hdr_field_short 2 set_Header_Length h' n' r2 C2) as (r3 & -> & A3) end.
      rewrite !hdr_field_err. cbn [fst]. rewrite (proj2 (Nat.leb_gt 4 _)) by lia. rewrite D1. reflexivity. }
    match goal with |- context [hdr_field 2 set_Header_Length (?h', ?n', None, r2)] =>
      destruct (hdr_field_ok 2 set_Header_Length h' n' r2 ltac:(lia)) as (r3 & -> & A3) end.
    pose proof (after_trans _ _ _ _ _ B2 A3) as B3.
    assert (L3 : length (data r3) = length (data r) - 4) by (destruct B3 as (-> & _); apply skipn_length).
    rewrite (proj2 (Nat.leb_le 4 _)) by lia.
    match goal with |- context [hdr_field 4 set_Header_Transaction (?h', ?n', None, r3)] =>
      destruct (hdr_field_short 4 set_Header_Transaction h' n' r3 ltac:(lia)) as (r4 & -> & A4) end.
    cbn [fst]. rewrite D1, D2. reflexivity. }
  destruct (read_header (Request_Header req) r) as [[[h n] e] r']. cbn [fst snd] in E. destruct E as [-> [x ->]]. reflexivity.
Qed.
Print Assumptions C98_short.

(** So a request whose read failed can be sent, and puts a message on the wire
    that nobody wrote: the new type, version and transaction with the old body. *)
Theorem C98_mixture_sent : forall req r e b, 8 <= length (data r) -> rfail (read_from req r) = Some e ->
  content (Request_Body req) = (b, None) -> (lenN b <= 65527)%N ->
  let h := header_at (data r) in
  exists f, wcalls (write_to sink (rreq (read_from req r))) = [f] /\ werr (write_to sink (rreq (read_from req r))) = None /\
    is_frame f (Header_Version h) (Header_Type h) (Header_Transaction h) b.
Proof.
  intros req r e b L F C B. cbn zeta. destruct (C98_failure req r e L F) as (H & _ & Q & _).
  destruct (write_sink (rreq (read_from req r)) b) as (f & W1 & W2 & _ & W3); [now rewrite Q|exact B|].
  rewrite H in W3. exists f. auto.
Qed.
Print Assumptions C98_mixture_sent.

(** An echo request was received; then a flow modification breaks off. *)
Example C98_mixture_ex :
  let first := MkReader [x04; x02; x00; x0a; x00; x00; x00; x01; xaa; xbb] [] EOF false in
  let second := MkReader [x04; x0e; x00; x50; x00; x00; x00; x07; x01] [] EOF false in
  let q := rreq (read_from (rreq (read_from zero_Request first)) second) in
  rfail (read_from (rreq (read_from zero_Request first)) second) = Some EOF /\
  wcalls (write_to sink q) = [[x04; x0e; x00; x0a; x00; x00; x00; x07; xaa; xbb]].
Proof. vm_compute. auto. Qed.

Example C98_short_ex :
  let q := MkRequest (MkHeader 1 2 3 4) BNil 1 0 0 in
  Request_Header (rreq (read_from q (MkReader [x04; x05; x06] [] EOF false))) = MkHeader 4 5 3 4.
Proof. reflexivity. Qed.
