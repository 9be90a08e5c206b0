(** C85: every refusal of the codecs names the first fault; what is neither readable nor faulty is too short. *)

From Coq Require Import Strings.String.
From Verif Require Import Base BaseFacts SpecText SpecAddr C32 Clarity SpecWire ClarityFacts ClarityTotal ClarityShort Tx SpecTx SpecFault FaultThms FaultDecThms.
Local Open Scope N_scope.

(** ** C85 *)
Theorem C85_address : forall s e, c32_address_decode s = Err e <-> bad_address s e.
Proof. exact address_refused. Qed.
Print Assumptions C85_address.

Theorem C85_encode : forall v e, encode v = Err e <-> misfit v e.
Proof. exact encode_refused. Qed.
Print Assumptions C85_encode.

Theorem C85_conditions : forall l e, enc_conditions l = Err e <-> bad_conds l e.
Proof. exact conds_refused. Qed.
Print Assumptions C85_conditions.

Theorem C85_payload : forall p e, enc_payload p = Err e <-> bad_payload p e.
Proof. exact payload_refused. Qed.
Print Assumptions C85_payload.

Theorem C85_transaction : forall t e, enc_tx t = Err e <-> bad_tx t e.
Proof. exact tx_refused. Qed.
Print Assumptions C85_transaction.

Theorem C85_decode : forall b e, decode_clarity_type b = Err e <-> faulty b e.
Proof. exact decode_refused. Qed.
Print Assumptions C85_decode.

Theorem C85_decode_typed : forall t tag b r e, In (t, tag) tagged ->
  decode_as t (b :: r) = Err e <-> (b <> tag /\ e = ClBadIdentifier tag b) \/ (b = tag /\ faulty (b :: r) e).
Proof. exact typed_refused. Qed.
Print Assumptions C85_decode_typed.

Theorem C85_decode_utf8 : forall b r e, decode_as TUtf8 (b :: r) = Err e <-> faulty (x0e :: r) e.
Proof. exact utf8_refused. Qed.
Print Assumptions C85_decode_utf8.

Theorem C85_decode_name : forall b e, decode_as TLps b = Err e <->
  exists k t, b = ser_name k ++ t /\ count k < 256 /\ ~ utf8 k /\ e = ClTryFromUtf8.
Proof. exact lps_refused. Qed.
Print Assumptions C85_decode_name.

Theorem C85_decode_args : forall b e, decode_as TFnArgs b = Err e <->
  exists n r, b = big_endian 4 n ++ r /\ n < 2 ^ 32 /\ faulty_items n r e.
Proof. exact fnargs_refused. Qed.
Print Assumptions C85_decode_args.

Theorem C85_decode_payload : forall b e, dec_payload b = Err e <-> faulty_payload b e.
Proof. exact payload_dec_refused. Qed.
Print Assumptions C85_decode_payload.

(** The fault is determined. *)
Theorem C85_one_fault : (forall s e f, bad_address s e -> bad_address s f -> e = f)
  /\ (forall v e f, misfit v e -> misfit v f -> e = f) /\ (forall t e f, bad_tx t e -> bad_tx t f -> e = f)
  /\ (forall b e f, faulty b e -> faulty b f -> e = f) /\ (forall b e f, faulty_payload b e -> faulty_payload b f -> e = f).
Proof.
  split; [|split; [|split; [|split]]]; intros x e f E F.
  - apply address_refused in E, F. congruence.
  - apply encode_refused in E, F. congruence.
  - apply tx_refused in E, F. congruence.
  - apply decode_refused in E, F. congruence.
  - apply payload_dec_refused in E, F. congruence.
Qed.
Print Assumptions C85_one_fault.

(** Nothing is both good and faulty, and what can be written is exactly what has no fault. *)
Theorem C85_fine : forall v, fine v <-> forall e, ~ misfit v e.
Proof.
  intros v. split.
  - intros F e M. destruct (fine_encodes v F) as [b E]. apply encode_refused in M. congruence.
  - intros N. destruct (encode_settled v) as [[b E]|[e E]]; [exact (encodes_fine _ _ E)|]. apply encode_refused in E. destruct (N e E).
Qed.
Print Assumptions C85_fine.

(** Bytes are readable, faulty or too short, and only then is there a panic, always that of an index out of bounds. *)
Theorem C85_short : forall b p, decode_clarity_type b = Panic p <->
  p = PIndex /\ (forall e, ~ faulty b e) /\ ~ exists w t, b = wser w ++ t /\ decodable w.
Proof. exact decode_short_iff. Qed.
Print Assumptions C85_short.

Theorem C85_payload_short : forall b p, dec_payload b = Panic p <->
  p = PIndex /\ (forall e, ~ faulty_payload b e) /\ ~ exists w t, b = ser_payload w ++ t /\ proper_payload w.
Proof. exact payload_short_iff. Qed.
Print Assumptions C85_payload_short.

(** A payload that is too short can be completed; one that is not is not read differently for what follows. *)
Theorem C85_payload_complete : forall b p, dec_payload b = Panic p -> exists t, t <> [] /\
  ((exists q, dec_payload (b ++ t) = Ok q) \/ (exists e, dec_payload (b ++ t) = Err e)).
Proof. exact payload_panic_short. Qed.
Print Assumptions C85_payload_complete.

Theorem C85_payload_trailing : forall b t,
  (exists p, dec_payload b = Ok p) \/ (exists e, dec_payload b = Err e) -> dec_payload (b ++ t) = dec_payload b.
Proof. exact payload_trailing. Qed.
Print Assumptions C85_payload_trailing.

Theorem C85_payload_terminates : forall b, dec_payload b <> NoFuel.
Proof. exact payload_dec_nofuel. Qed.
Print Assumptions C85_payload_terminates.

(** A list whose second element is a contract with a bad name; a list claiming two elements whose first cannot be
    written again; a payload whose memo is no text. *)
Example C85_ex : misfit (CList [CTrue; CAscii [xff]; CBuffer []]) (ClBadStringType (str "Ascii"%string))
  /\ faulty (x0b :: x00 :: x00 :: x00 :: x02 :: x0d :: x00 :: x00 :: x00 :: x02 :: xc3 :: xa9 :: [])
       (ClBadStringType (str "Ascii"%string))
  /\ faulty (x0c :: x00 :: x00 :: x00 :: x01 :: x01 :: xff :: []) ClTryFromUtf8
  /\ faulty_payload (x00 :: x03 :: repeat x00 8 ++ repeat xff 34) ClTryFromUtf8
  /\ bad_address (str "SP000"%string) (C32BadAddress (str "SP000"%string)).
Proof.
  split; [apply encode_refused; vm_compute; reflexivity|]. split; [apply decode_refused; vm_compute; reflexivity|].
  split; [apply decode_refused; vm_compute; reflexivity|]. split; [apply payload_dec_refused; vm_compute; reflexivity|].
  apply address_refused. vm_compute. reflexivity.
Qed.
