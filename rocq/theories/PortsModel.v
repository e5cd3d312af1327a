(** Lists of port descriptions, ofp/port.go:321-342. *)
From Verif Require Import Encoding FixedModel.

(** Ports.ReadFrom, ofp/port.go:325-342.  Every round reads into a fresh [Port];
    [io.EOF], wherever in the port it occurs, ends the list without error and
    without that port; any other error ends it with the partly read port
    appended.  The receiver is not emptied first. *)
Fixpoint ports_loop (fuel : nat) (acc : list Port) (inp : bytes) : res (list Port) :=
  match fuel with
  | O => Res acc 0 (Some EFuel) inp
  | S fuel' =>
      let r := dec_Port zero_Port inp in
      match fail r with
      | Some EOF => Res acc (cnt r) None (rest r)
      | Some e => Res (acc ++ [val r]) (cnt r) (Some e) (rest r)
      | None =>
          let r' := ports_loop fuel' (acc ++ [val r]) (rest r) in
          Res (val r') (cnt r + cnt r') (fail r') (rest r')
      end
  end.

(** Enough fuel for one round per port and one for the end. *)
Definition dec_Ports : step (list Port) := fun old inp => ports_loop (S (length inp)) old inp.
