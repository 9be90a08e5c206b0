(** Specification of the consensus wire format of Clarity values (SIP-005, "Clarity Value
    Representation"), with literal constants and no reference to the model's encoder or decoder. *)

From Verif Require Import Base SpecText SpecAddr Clarity.
From Verif Require Export SpecUtf8.
Local Open Scope N_scope.

(** [k]-octet big-endian form: the octets of weight [256^(k-1) .. 256^0]. *)
Definition big_endian (k : nat) (n : N) : bytes :=
  map (fun i => octet (n / 256 ^ N.of_nat i)) (rev (seq 0 k)).

(** Two's complement, 128 bits. *)
Definition twos_complement (z : Z) : bytes := big_endian 16 (Z.to_N (z mod 2 ^ 128)).

Definition count {A} (l : list A) : N := N.of_nat (length l).

(** ** Wire values *)

(** What a byte string on the wire stands for. Principals are a version and a hash. [WName] and [WArgs]
    are not Clarity values of SIP-005 but the two components the library also treats as such: a
    length-prefixed name and the argument vector of a contract call. *)
Inductive wval :=
| WInt (z : Z)
| WUInt (n : N)
| WBuf (b : bytes)
| WTrue
| WFalse
| WStd (ver : byte) (hash : bytes)
| WCon (ver : byte) (hash name : bytes)
| WOk (v : wval)
| WErr (v : wval)
| WNone
| WSome (v : wval)
| WList (l : list wval)
| WTuple (l : list (bytes * wval))
| WAscii (s : bytes)
| WUtf8 (s : bytes)
| WName (s : bytes)
| WArgs (l : list wval).

Fixpoint wser (w : wval) : bytes :=
  match w with
  | WInt z => x00 :: twos_complement z
  | WUInt n => x01 :: big_endian 16 n
  | WBuf b => x02 :: big_endian 4 (count b) ++ b
  | WTrue => [x03]
  | WFalse => [x04]
  | WStd ver hash => x05 :: ver :: hash
  | WCon ver hash name => x06 :: ver :: hash ++ big_endian 1 (count name) ++ name
  | WOk v => x07 :: wser v
  | WErr v => x08 :: wser v
  | WNone => [x09]
  | WSome v => x0a :: wser v
  | WList l => x0b :: big_endian 4 (count l) ++ flat_map wser l
  | WTuple l =>
    x0c :: big_endian 4 (count l)
        ++ flat_map (fun kv => big_endian 1 (count (fst kv)) ++ fst kv ++ wser (snd kv)) l
  | WAscii s => x0d :: big_endian 4 (count s) ++ s
  | WUtf8 s => x0e :: big_endian 4 (count s) ++ s
  | WName s => big_endian 1 (count s) ++ s
  | WArgs l => big_endian 4 (count l) ++ flat_map wser l
  end.

(** ** Traversals *)

Definition every {A} (P : A -> Prop) : list A -> Prop :=
  fix go l := match l with [] => True | x :: r => P x /\ go r end.

Definition every2 {A B} (R : A -> B -> Prop) : list A -> list B -> Prop :=
  fix go l m :=
    match l, m with
    | [], [] => True
    | x :: r, y :: s => R x y /\ go r s
    | _, _ => False
    end.

(** [P] at every node. *)
Fixpoint wall (P : wval -> Prop) (w : wval) : Prop :=
  P w /\
  match w with
  | WOk v | WErr v | WSome v => wall P v
  | WList l | WArgs l => every (wall P) l
  | WTuple l => every (fun kv => wall P (snd kv)) l
  | _ => True
  end.

(** Node conditions. *)

(** Counts fit their fields, names have at most 128 bytes, ASCII strings are ASCII. *)
Definition fits1 (w : wval) : Prop :=
  match w with
  | WBuf b => count b < 2 ^ 32
  | WCon _ _ name => count name <= 128
  | WList l => count l < 2 ^ 32
  | WTuple l => count l < 2 ^ 32 /\ every (fun kv => count (fst kv) <= 128) l
  | WAscii s => ascii s /\ count s < 2 ^ 32
  | WUtf8 s => count s < 2 ^ 32
  | WName s => count s <= 128
  | WArgs l => count l < 2 ^ 32
  | _ => True
  end.

(** Integers are 128-bit. *)
Definition range1 (w : wval) : Prop :=
  match w with
  | WInt z => (- 2 ^ 127 <= z < 2 ^ 127)%Z
  | WUInt n => n < 2 ^ 128
  | _ => True
  end.

(** A SIP-005 Clarity value proper. *)
Definition std1 (w : wval) : Prop := match w with WName _ | WArgs _ => False | _ => True end.

(** Principal hashes have 20 bytes. *)
Definition hash1 (w : wval) : Prop :=
  match w with WStd _ h | WCon _ h _ => length h = 20%nat | _ => True end.

(** Principal versions are those of Stacks. *)
Definition ver1 (w : wval) : Prop :=
  match w with WStd v _ | WCon v _ _ => stacks_version v | _ => True end.

(** Texts are UTF-8. *)
Definition text1 (w : wval) : Prop :=
  match w with
  | WCon _ _ s | WAscii s | WUtf8 s | WName s => utf8 s
  | WTuple l => every (fun kv => utf8 (fst kv)) l
  | _ => True
  end.

(** ** Meaning of the library's values *)

(** [denotes A c w]: the value [c] stands for the wire value [w], where [A h ver a] says which texts
    [a] name the principal of hash [h] and version [ver]. *)
Fixpoint denotes (A : bytes -> byte -> bytes -> Prop) (c : cval) (w : wval) : Prop :=
  match c, w with
  | CInt z, WInt z' => z = z'
  | CUInt n, WUInt n' => n = n'
  | CBuffer b, WBuf b' => b = b'
  | CTrue, WTrue => True
  | CFalse, WFalse => True
  | CPrinStd a, WStd v h => A h v a
  | CPrinCon a n, WCon v h n' => A h v a /\ n = n'
  | CRespOk x, WOk y => denotes A x y
  | CRespErr x, WErr y => denotes A x y
  | CNone, WNone => True
  | CSome x, WSome y => denotes A x y
  | CList l, WList m => every2 (denotes A) l m
  | CTuple l, WTuple m => every2 (fun a b => fst a = fst b /\ denotes A (snd a) (snd b)) l m
  | CAscii s, WAscii s' => s = s'
  | CUtf8 s, WUtf8 s' => s = s'
  | CLps s, WName s' => s = s'
  | CFnArgs l, WArgs m => every2 (denotes A) l m
  | _, _ => False
  end.

(** Any accepted spelling of the addresses; or exactly the canonical texts. *)
Notation means := (denotes address_spelling).
Notation canonically_means := (denotes address_text).

(** A wire value every Stacks node and this library agree on. *)
Definition proper (w : wval) : Prop :=
  wall fits1 w /\ wall range1 w /\ wall std1 w /\ wall hash1 w /\ wall ver1 w /\ wall text1 w.

(** What [decode_clarity_type] accepts: [proper] except that names may have up to 255 bytes and ASCII
    strings may be any UTF-8 as long as they are not inside a list or tuple. *)
Fixpoint decodable (w : wval) : Prop :=
  match w with
  | WInt _ | WUInt _ => range1 w
  | WBuf b => count b < 2 ^ 32
  | WTrue | WFalse | WNone => True
  | WStd v h => stacks_version v /\ length h = 20%nat
  | WCon v h n => stacks_version v /\ length h = 20%nat /\ count n < 256 /\ utf8 n
  | WOk x | WErr x | WSome x => decodable x
  | WList l => count l < 2 ^ 32 /\ every (fun x => decodable x /\ wall fits1 x) l
  | WTuple l => count l < 2 ^ 32
                /\ every (fun kv => count (fst kv) < 256 /\ utf8 (fst kv)
                                    /\ decodable (snd kv) /\ wall fits1 (snd kv)) l
  | WAscii s | WUtf8 s => count s < 2 ^ 32 /\ utf8 s
  | WName _ | WArgs _ => False
  end.

(** ** Names *)

(** The names (contract names, tuple keys, length-prefixed names) occurring in a wire value. *)
Fixpoint names (w : wval) : list bytes :=
  match w with
  | WCon _ _ n => [n]
  | WOk x | WErr x | WSome x => names x
  | WList l | WArgs l => flat_map names l
  | WTuple l => flat_map (fun kv => fst kv :: names (snd kv)) l
  | WName s => [s]
  | _ => []
  end.

(** The strings (addresses included) occurring in a value of the library. *)
Fixpoint texts (c : cval) : list bytes :=
  match c with
  | CPrinStd a => [a]
  | CPrinCon a n => [a; n]
  | CRespOk x | CRespErr x | CSome x => texts x
  | CList l | CFnArgs l => flat_map texts l
  | CTuple l => flat_map (fun kv => fst kv :: texts (snd kv)) l
  | CAscii s | CUtf8 s | CLps s => [s]
  | _ => []
  end.

(** [fits1] without the limit on names. *)
Definition roomy1 (w : wval) : Prop :=
  match w with
  | WBuf b => count b < 2 ^ 32
  | WList l => count l < 2 ^ 32
  | WTuple l => count l < 2 ^ 32
  | WAscii s => ascii s /\ count s < 2 ^ 32
  | WUtf8 s => count s < 2 ^ 32
  | WArgs l => count l < 2 ^ 32
  | _ => True
  end.

(** ** How a value was built *)

Definition built_as (t : cty) (v : cval) : Prop :=
  match t with
  | TInt => exists z, v = CInt z
  | TUInt => exists n, v = CUInt n
  | TBuffer => exists b, v = CBuffer b
  | TTrue => v = CTrue
  | TFalse => v = CFalse
  | TPrinStd => exists a, v = CPrinStd a
  | TPrinCon => exists a n, v = CPrinCon a n
  | TRespOk => exists x, v = CRespOk x
  | TRespErr => exists x, v = CRespErr x
  | TNone => v = CNone
  | TSome => exists x, v = CSome x
  | TList => exists l, v = CList l
  | TTuple => exists l, v = CTuple l
  | TAscii => exists s, v = CAscii s
  | TUtf8 => exists s, v = CUtf8 s
  | TLps => exists s, v = CLps s
  | TFnArgs => exists l, v = CFnArgs l
  end.

(** ** Finite maps, as reference for tuples *)

Definition fmap := bytes -> option cval.
Definition fm_set (k : bytes) (v : cval) (m : fmap) : fmap :=
  fun k' => if list_eq_dec Byte.byte_eq_dec k' k then Some v else m k'.
Definition fm_del (k : bytes) (m : fmap) : fmap :=
  fun k' => if list_eq_dec Byte.byte_eq_dec k' k then None else m k'.

(** Tuple operations: [insert], [remove], and writing through [get_mut]. *)
Inductive tup_op := OpInsert (k : bytes) (v : cval) | OpRemove (k : bytes) | OpWrite (k : bytes) (v : cval).

Definition fm_op (m : fmap) (o : tup_op) : fmap :=
  match o with
  | OpInsert k v => fm_set k v m
  | OpRemove k => fm_del k m
  | OpWrite k v => match m k with Some _ => fm_set k v m | None => m end
  end.
(** Every insert is of an absent key. *)
Fixpoint fresh_inserts (m : fmap) (os : list tup_op) : Prop :=
  match os with
  | [] => True
  | o :: r => match o with OpInsert k _ => m k = None | _ => True end /\ fresh_inserts (fm_op m o) r
  end.
