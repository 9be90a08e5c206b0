(** Shared modelling vocabulary: bytes, machine integers, outcomes.

    Conventions (see DESIGN.md):
    - Rust [u8] is Coq's [byte] (256 constructors, so range is by typing);
    - [Vec<u8>], [&[u8]], and the UTF-8 contents of [String]/[&str] are [list byte];
    - wider integers are [N] / [Z]; ranges are explicit predicates;
    - a computation is [Ok], [Err] (a Rust [Err(_)]), [Panic] (the Rust code panics) or [NoFuel]
      (artefact of the fuelled decoder, proved unreachable). *)

From Coq Require Import Strings.String.
From Coq Require Export List NArith ZArith Bool.
From Coq Require Export Strings.Byte.
Export ListNotations.

Local Open Scope N_scope.

Notation bytes := (list byte).

(** [u8::from] / [u32::from(b)]. *)
Definition b2n (b : byte) : N := Byte.to_N b.

(** [n as u8]: truncation modulo 256. *)
Definition n2b (n : N) : byte :=
  match Byte.of_N (n mod 256) with
  | Some b => b
  | None => x00
  end.

Definition byte_eqb (a b : byte) : bool := Byte.eqb a b.

(** Slice / string equality. *)
Fixpoint bytes_eqb (a b : bytes) : bool :=
  match a, b with
  | [], [] => true
  | x :: a', y :: b' => byte_eqb x y && bytes_eqb a' b'
  | _, _ => false
  end.

(** String literals as their UTF-8 bytes. *)
Definition str (s : string) : bytes := list_byte_of_string s.

(** Reasons for a panic in the Rust code. *)
Inductive panic :=
| PIndex          (* index or slice range out of bounds *)
| POverflow       (* arithmetic overflow (debug / overflow-checks build) *)
| PCopyLen        (* [copy_from_slice] with different lengths *)
| PUnimplemented  (* [unimplemented!()] *)
| PExplicit       (* [panic!(..)] *).

(** Outcome of a Rust computation returning [Result<A, E>]. *)
Inductive res (E A : Type) :=
| Ok (a : A)
| Err (e : E)
| Panic (p : panic)
| NoFuel.
Arguments Ok {E A} _.
Arguments Err {E A} _.
Arguments Panic {E A} _.
Arguments NoFuel {E A}.

Definition bind {E A B} (r : res E A) (k : A -> res E B) : res E B :=
  match r with
  | Ok a => k a
  | Err e => Err e
  | Panic p => Panic p
  | NoFuel => NoFuel
  end.

Notation "'let*' x := e 'in' k" := (bind e (fun x => k))
  (at level 200, x pattern, e at level 200, k at level 200, right associativity).

(** The [?] operator with a [From] conversion of the error. *)
Definition map_err {E F A} (f : E -> F) (r : res E A) : res F A :=
  match r with
  | Ok a => Ok a
  | Err e => Err (f e)
  | Panic p => Panic p
  | NoFuel => NoFuel
  end.

(** [to_be_bytes] of a [k]-byte unsigned integer. *)
Fixpoint be_bytes (k : nat) (n : N) : bytes :=
  match k with
  | O => []
  | S k' => be_bytes k' (n / 256) ++ [n2b n]
  end.

(** [from_be_bytes]. *)
Definition be_val (bs : bytes) : N :=
  fold_left (fun acc b => acc * 256 + b2n b) bs 0.

(** Two's-complement reading of a 128-bit pattern ([i128::from_be_bytes]) and back. *)
Definition i128_of_u128 (n : N) : Z :=
  if n <? 2 ^ 127 then Z.of_N n else (Z.of_N n - 2 ^ 128)%Z.
Definition u128_of_i128 (z : Z) : N := Z.to_N (z mod 2 ^ 128)%Z.

(** [len] of a slice as a machine integer. *)
Definition lenN {A} (l : list A) : N := N.of_nat (length l).

(** [bytes[..n].to_vec()] for a length read off the wire; panics when out of range.
    Structural in the slice, so that huge [n] costs nothing. *)
Fixpoint take_slice {E} (n : N) (bs : bytes) : res E bytes :=
  if n =? 0 then Ok []
  else match bs with
       | [] => Panic PIndex
       | b :: r => let* t := take_slice (n - 1) r in Ok (b :: t)
       end.

(** [&bytes[n..]]; panics when [n] exceeds the length. *)
Definition drop_slice {E} (n : nat) (bs : bytes) : res E bytes :=
  if Nat.leb n (length bs) then Ok (skipn n bs) else Panic PIndex.

(** [bytes[i]]. *)
Definition index {E} (i : nat) (bs : bytes) : res E byte :=
  match nth_error bs i with
  | Some b => Ok b
  | None => Panic PIndex
  end.

(** [&bytes[i..i + n]] with constant bounds. *)
Definition sub_slice {E} (i n : nat) (bs : bytes) : res E bytes :=
  if Nat.leb (i + n) (length bs) then Ok (firstn n (skipn i bs)) else Panic PIndex.

(** [str.is_ascii()]. *)
Definition is_ascii (s : bytes) : bool := forallb (fun b => b2n b <? 128) s.
