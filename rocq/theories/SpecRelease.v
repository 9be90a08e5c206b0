(** Small spec for release builds: what wraps, and what stays as in a debug build. *)

From Verif Require Import Base Hash SpecText SpecWire Clarity Tx SpecTx Signer SpecSign Release.
Local Open Scope N_scope.

(** A release build does what a debug build does wherever the latter does not stop on an overflow. *)
Definition agrees {E A} (debug release : res E A) : Prop := debug <> Panic POverflow -> release = debug.

(** When a release build accepts a condition: the signatures are counted modulo 256, and the opcodes need not fit. *)
Inductive satisfied_mod (E : ecdsa) (typ : byte) (h : bytes) : scond -> bytes -> Prop :=
| satm_single s pk :
    recovers E (digest h typ (std_fee s) (std_nonce s)) (std_sig s) pk ->
    key_address (std_mode s) pk = Some (std_signer s) ->
    satisfied_mod E typ h (SStd s) (link (digest h typ (std_fee s) (std_nonce s)) (std_sig s))
| satm_multi m ks n h' :
    chain E typ (ms_fee m) (ms_nonce m) h (ms_fields m) ks n h' ->
    Byte.to_N (ms_required m) <= n mod 256 ->
    keys_address (ms_mode m) (Byte.to_N (ms_required m)) ks = Some (ms_signer m) ->
    satisfied_mod E typ h (SMulti m) h'.

(** The signer's operations in a release build. *)
Definition perform_rel (E : ecdsa) (s : signer) (o : op) : signer * res tx_err unit :=
  match o with
  | SignOrigin sk => sign_origin_rel E s sk
  | SignSponsor sk => sign_sponsor_rel E s sk
  | AppendOrigin pk => append_origin s pk
  end.

(** The results of a sequence of operations, one by one, and the signer at the end. *)
Fixpoint outcomes (f : signer -> op -> signer * res tx_err unit) (s : signer) (l : list op) : list (res tx_err unit) * signer :=
  match l with
  | [] => ([], s)
  | o :: r => let '(s', x) := f s o in let '(xs, t) := outcomes f s' r in (x :: xs, t)
  end.

(** Fewer signatures are held than a 16-bit counter can count. *)
Definition countable (t : tx) : Prop :=
  held (origin_of t) < 2 ^ 16 /\ forall p, sponsor_of t = Some p -> held p < 2 ^ 16.
