(** Specification of networks that cannot be told apart by what a transaction says, and of addresses of other networks.  On the wire
    format; nothing of the library's code. *)

From Verif Require Import Base SpecWire Builder SpecTx SpecCharge.

(** Both are the main network, or neither is. *)
Definition alike (n n' : network) : Prop := n = NetMainnet <-> n' = NetMainnet.

(** A standard principal whose version is not of the network. *)
Definition foreign (n : network) (p : wval) : Prop :=
  match p with WStd v _ => v <> charged_version n x00 /\ v <> charged_version n x01 | _ => False end.
