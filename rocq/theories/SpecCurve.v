(** ECDSA over secp256k1 as published (SEC 1 version 2, sections 4.1.4 and 4.1.6), on the points and the addition
    law of EcGroup.v.  Literal constants; no reference to the model of signing and recovery. *)

From Coq Require Import ZArith List.
From Verif Require Import Base SpecText SpecWire Hash SpecSign EcField EcGroup EcMul.
Local Open Scope Z_scope.

(** SEC 2: the order of the base point, and the base point. *)
Definition curve_order : Z := 0xFFFFFFFFFFFFFFFFFFFFFFFFFFFFFFFEBAAEDCE6AF48A03BBFD25E8CD0364141.
Definition base_point : pt :=
  Aff (of_Z 0x79BE667EF9DCBBAC55A06295CE870B07029BFCDB2DCE28D959F2815B16F81798)
      (of_Z 0x483ADA7726A3C4655DA4FBFC0E1108A8FD17B448A68554199C47D08FFB10D4B8).

(** A number of 32 bytes, most significant first. *)
Definition scalar_z (b : bytes) : Z := Z.of_N (scalar b).
Definition sig_r (g : rsig) : Z := scalar_z (firstn 32 (rs_bytes g)).
Definition sig_s (g : rsig) : Z := scalar_z (skipn 32 (rs_bytes g)).

(** The 33 bytes of a point: parity of the second coordinate, first coordinate. *)
Definition point_bytes (P : pt) (b : bytes) : Prop :=
  exists x y r, P = Aff x y /\ b = (if Z.odd (fv y) then x03 else x02) :: r /\ length r = 32%nat /\ scalar_z r = fv x.

(** Verification ends in the point [R]. *)
Definition verifies_at (Q : pt) (z r s : Z) (R : pt) : Prop :=
  0 < r < curve_order /\ 0 < s < curve_order
  /\ exists w, (s * w) mod curve_order = 1 /\ add (zmul (z * w) base_point) (zmul (r * w) Q) = R.

(** [(r, s)] is a signature of [z] under the key [Q]. *)
Definition ecdsa_valid (Q : pt) (z r s : Z) : Prop :=
  exists x y, verifies_at Q z r s (Aff x y) /\ fv x mod curve_order = r.

(** The key that goes with a digest and a signature with recovery id. *)
Definition key_recovered (d : bytes) (g : rsig) (pk : bytes) : Prop :=
  exists Q x y, on_curve Q /\ point_bytes Q pk /\ verifies_at Q (scalar_z d) (sig_r g) (sig_s g) (Aff x y)
    /\ fv x = sig_r g + (if N.testbit (rs_id g) 1 then curve_order else 0)
    /\ Z.odd (fv y) = N.testbit (rs_id g) 0.

(** The other signature that goes with a signature: the negated second half, the other parity. *)
Definition twin (g : rsig) : rsig :=
  {| rs_id := N.lxor (rs_id g) 1; rs_bytes := firstn 32 (rs_bytes g) ++ big_endian 32 (Z.to_N (curve_order - sig_s g)) |}.
