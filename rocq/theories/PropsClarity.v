(** Property theorems C14-C27, C55, C56: Clarity values, their wire format, text and operations. *)

From Coq Require Import Strings.String.
From Verif Require Import Base BaseFacts Utf8 Utf8Thms SpecText SpecAddr Hex C32 AddrFacts Clarity SpecWire WireFacts SpecShow
     ClarityFacts ClarityTotal ClarityShort ClarityThms ShowFacts.
Local Open Scope N_scope.

(** ** Sample values *)

Definition sample_addr : bytes := str "SPG2081040G2081040G2081040G208107P280EP".
Lemma sample_address : address_text (repeat x01 20) x16 sample_addr.
Proof. apply (c32_address_text (repeat x01 20) x16 sample_addr). vm_compute. reflexivity. Qed.

(** A tuple holding a contract principal and a list of two types. *)
Definition sample : cval :=
  CTuple [(str "who", CPrinCon sample_addr (str "abc"));
          (str "xs", CList [CInt (-5); CRespOk (CSome (CAscii (str "hi")))])].
Definition sample_wire : wval :=
  WTuple [(str "who", WCon x16 (repeat x01 20) (str "abc"));
          (str "xs", WList [WInt (-5); WOk (WSome (WAscii (str "hi")))])].
(** The same with the address in lower case. *)
Definition sample_lower : cval :=
  CTuple [(str "who", CPrinCon (str "Spg2o8i04og2081040g2081040g208107p280ep") (str "abc"));
          (str "xs", CList [CInt (-5); CRespOk (CSome (CAscii (str "hi")))])].

Lemma sample_means : canonically_means sample sample_wire.
Proof. cbn. repeat split. exact sample_address. Qed.
Lemma sample_lower_means : means sample_lower sample_wire.
Proof. cbn. repeat split. apply c32_address_decode_iff. vm_compute. reflexivity. Qed.
Lemma sample_proper : proper sample_wire.
Proof.
  unfold proper. repeat split; try reflexivity; try discriminate.
  - apply Forall_forall. intros c [<- | [<- | []]]; reflexivity.
  - right. right. left. reflexivity.
  - apply utf8_valid_iff. reflexivity.
  - apply utf8_valid_iff. reflexivity.
  - apply utf8_valid_iff. reflexivity.
  - apply utf8_valid_iff. reflexivity.
Qed.

(** ** C14 *)
Theorem C14_encode_exact : forall c e,
  encode c = Ok e <-> exists w, means c w /\ wall fits1 w /\ e = wser w.
Proof. exact encode_iff. Qed.
Print Assumptions C14_encode_exact.

Theorem C14_encode_no_panic : forall c, (exists e, encode c = Ok e) \/ (exists x, encode c = Err x).
Proof. exact encode_settled. Qed.
Print Assumptions C14_encode_no_panic.

Example C14_ex : encode sample = Ok (wser sample_wire) /\ length (wser sample_wire) = 69%nat.
Proof. split; vm_compute; reflexivity. Qed.

(** ** C15 *)
Theorem C15_roundtrip : forall c w t, canonically_means c w -> proper w ->
  exists e, encode c = Ok e /\ decode_clarity_type (e ++ t) = Ok c.
Proof. exact roundtrip_canonical. Qed.
Print Assumptions C15_roundtrip.

Theorem C15_roundtrip_spelled : forall c w t, means c w -> proper w ->
  exists e c', encode c = Ok e /\ decode_clarity_type (e ++ t) = Ok c' /\ canonically_means c' w.
Proof. exact roundtrip_spelled. Qed.
Print Assumptions C15_roundtrip_spelled.

Example C15_ex : canonically_means sample sample_wire /\ means sample_lower sample_wire /\ proper sample_wire
  /\ decode_clarity_type (wser sample_wire ++ [x07]) = Ok sample.
Proof. split; [exact sample_means | split; [exact sample_lower_means | split; [exact sample_proper | vm_compute; reflexivity]]]. Qed.

(** Finding: addresses of payloads that are not 20 bytes are valid texts and encode, but what they
    encode to does not decode. *)
Theorem C15_any_address_refuted : exists a h v e p,
  address_text h v a /\ stacks_version v /\ encode (CPrinStd a) = Ok e /\ decode_clarity_type e = Panic p.
Proof.
  exists (str "SP2081040G2081040G2081040G208106FTBDEV"), (repeat x01 19), x16, (x05 :: x16 :: repeat x01 19), PIndex.
  repeat split; try (vm_compute; reflexivity).
  - apply (c32_address_text (repeat x01 19) x16). vm_compute. reflexivity.
  - right. right. left. reflexivity.
Qed.
Print Assumptions C15_any_address_refuted.

(** ** C16 *)
Theorem C16_prefix_free : forall c1 c2 w1 w2 e1 e2 t1 t2,
  means c1 w1 -> means c2 w2 -> proper w1 -> proper w2 -> encode c1 = Ok e1 -> encode c2 = Ok e2 ->
  e1 ++ t1 = e2 ++ t2 -> w1 = w2 /\ t1 = t2.
Proof. exact encode_prefix_free_proper. Qed.
Print Assumptions C16_prefix_free.

Theorem C16_canonical_unique : forall c1 c2 w, canonically_means c1 w -> canonically_means c2 w -> c1 = c2.
Proof. intros c1 c2 w. exact (canonical_unique w c1 c2). Qed.
Print Assumptions C16_canonical_unique.

(** Finding: with a principal whose payload is not 20 bytes, two different values share an encoding. *)
Theorem C16_any_address_refuted : exists a n h v b e,
  address_text h v a /\ stacks_version v
  /\ encode (CList [CPrinStd a; CBuffer b]) = Ok e /\ encode (CList [CPrinStd n; CTrue]) = Ok e.
Proof.
  exists sample_addr, (str "SPG2081040G2081040G2081040G20810410000005HAXBJK"), (repeat x01 20), x16, [x03].
  exists (x0b :: x00 :: x00 :: x00 :: x02 :: x05 :: x16 :: repeat x01 20 ++ [x02; x00; x00; x00; x01; x03]).
  split; [exact sample_address|]. split; [right; right; left; reflexivity|].
  split; vm_compute; reflexivity.
Qed.
Print Assumptions C16_any_address_refuted.

Example C16_ex : means sample sample_wire /\ means sample_lower sample_wire /\ proper sample_wire
  /\ encode sample = encode sample_lower /\ sample <> sample_lower.
Proof.
  refine (conj (canonical_means _ _ sample_means) (conj sample_lower_means (conj sample_proper (conj _ _)))).
  - vm_compute. reflexivity.
  - discriminate.
Qed.

(** ** C17 *)
Theorem C17_decode_exact : forall b v, decode_clarity_type b = Ok v <->
  exists w t, b = wser w ++ t /\ decodable w /\ canonically_means v w.
Proof. exact decode_exact. Qed.
Print Assumptions C17_decode_exact.

Theorem C17_decode_canonical : forall b v e, decode_clarity_type b = Ok v -> encode v = Ok e ->
  exists t, b = e ++ t.
Proof. exact decode_canonical. Qed.
Print Assumptions C17_decode_canonical.

Example C17_ex : decode_clarity_type (wser sample_wire ++ [x07]) = Ok sample /\ decodable sample_wire.
Proof. split; [vm_compute; reflexivity | apply proper_decodable; exact sample_proper]. Qed.

(** ** C18 *)
Theorem C18_bad_identifier : forall t i b r, In (t, i) sip_ids -> b <> i ->
  decode_as t (b :: r) = Err (ClBadIdentifier i b).
Proof. exact bad_identifier. Qed.
Print Assumptions C18_bad_identifier.

Theorem C18_own_identifier : forall t i r, In (t, i) ((TUtf8, x0e) :: sip_ids) ->
  decode_as t (i :: r) = decode_clarity_type (i :: r).
Proof. exact own_identifier. Qed.
Print Assumptions C18_own_identifier.

Theorem C18_unknown_tag : forall b r, 15 <= Byte.to_N b ->
  decode_clarity_type (b :: r) = Err (ClUnexpectedType b).
Proof. exact decode_unknown. Qed.
Print Assumptions C18_unknown_tag.

(** Finding: StringUtf8 ignores the identifier. *)
Theorem C18_utf8_any_tag : forall b r, decode_as TUtf8 (b :: r) = decode_clarity_type (x0e :: r).
Proof. exact utf8_any_tag. Qed.
Print Assumptions C18_utf8_any_tag.

Theorem C18_utf8_identifier_refuted : exists b r v, b <> x0e /\ decode_as TUtf8 (b :: r) = Ok v.
Proof.
  exists x0d, [x00; x00; x00; x01; x61], (CUtf8 [x61]). split; [discriminate | vm_compute; reflexivity].
Qed.
Print Assumptions C18_utf8_identifier_refuted.

Example C18_ex : decode_as TTuple [x0b; x00] = Err (ClBadIdentifier x0c x0b)
  /\ decode_clarity_type [x0f] = Err (ClUnexpectedType x0f).
Proof. split; vm_compute; reflexivity. Qed.

(** ** C19 *)
Theorem C19_trailing : forall b t,
  (exists v, decode_clarity_type b = Ok v) \/ (exists e, decode_clarity_type b = Err e) ->
  decode_clarity_type (b ++ t) = decode_clarity_type b.
Proof. exact decode_trailing. Qed.
Print Assumptions C19_trailing.

Theorem C19_terminates : forall b, decode_clarity_type b <> NoFuel.
Proof. exact decode_nofuel. Qed.
Print Assumptions C19_terminates.

Theorem C19_panic_short : forall b p, decode_clarity_type b = Panic p ->
  exists t, t <> [] /\
    ((exists v, decode_clarity_type (b ++ t) = Ok v) \/ (exists e, decode_clarity_type (b ++ t) = Err e)).
Proof. exact decode_panic_short. Qed.
Print Assumptions C19_panic_short.

(** Finding: short input panics instead of returning an error. *)
Theorem C19_no_panic_refuted : exists p q, decode_clarity_type [] = Panic p /\ decode_clarity_type [x00; x01] = Panic q.
Proof. exists PIndex, PIndex. split; vm_compute; reflexivity. Qed.
Print Assumptions C19_no_panic_refuted.

Example C19_ex : decode_clarity_type [x0b; x00; x00; x00; x01; x03; xff] = Ok (CList [CTrue])
  /\ decode_clarity_type [x0b; x00; x00; x00; x01] = Panic PIndex.
Proof. split; vm_compute; reflexivity. Qed.

(** ** C20 *)
Theorem C20_ascii_encode : forall s e, encode (CAscii s) = Ok e <->
  ascii s /\ count s < 2 ^ 32 /\ e = x0d :: big_endian 4 (count s) ++ s.
Proof. exact ascii_encode_iff. Qed.
Print Assumptions C20_ascii_encode.

Theorem C20_ascii_decode : forall b s, decode_as TAscii b = Ok (CAscii s) <->
  utf8 s /\ count s < 2 ^ 32 /\ exists t, b = x0d :: big_endian 4 (count s) ++ s ++ t.
Proof. exact ascii_decode_iff. Qed.
Print Assumptions C20_ascii_decode.

(** Finding: decoding yields a StringAscii that is not ASCII and cannot be encoded again. *)
Theorem C20_decoded_ascii_refuted : exists b s x,
  decode_as TAscii b = Ok (CAscii s) /\ ~ ascii s /\ encode (CAscii s) = Err x.
Proof.
  exists [x0d; x00; x00; x00; x02; xc3; xa9], [xc3; xa9], (ClBadStringType (str "Ascii")).
  split; [vm_compute; reflexivity | split; [|vm_compute; reflexivity]].
  intros F. apply Forall_cons_iff in F. destruct F as [F _]. vm_compute in F. discriminate F.
Qed.
Print Assumptions C20_decoded_ascii_refuted.

Example C20_ex : encode (CAscii (str "hi")) = Ok [x0d; x00; x00; x00; x02; x68; x69]
  /\ decode_as TAscii [x0d; x00; x00; x00; x02; x68; x69] = Ok (CAscii (str "hi")).
Proof. split; vm_compute; reflexivity. Qed.

(** ** C21 *)
Theorem C21_name_limit : forall c w, means c w -> wall roomy1 w ->
  (Forall (fun s => count s <= 128) (names w) -> encode c = Ok (wser w)) /\
  (forall s, In s (names w) -> 128 < count s ->
     exists s', In s' (names w) /\ 128 < count s' /\ encode c = Err (ClBadStringLength (count s') 128)).
Proof. exact name_limit. Qed.
Print Assumptions C21_name_limit.

(** Finding: decoding accepts names of up to 255 bytes. *)
Theorem C21_decoded_names_refuted : exists b k v, decode_clarity_type b = Ok (CTuple [(k, v)]) /\ count k = 255.
Proof.
  exists (x0c :: x00 :: x00 :: x00 :: x01 :: xff :: repeat x61 255 ++ [x03]), (repeat x61 255), CTrue.
  split; vm_compute; reflexivity.
Qed.
Print Assumptions C21_decoded_names_refuted.

Example C21_ex :
  encode (CSome (CTuple [(repeat x61 129, CTrue)])) = Err (ClBadStringLength 129 128)
  /\ means (CSome (CTuple [(repeat x61 129, CTrue)])) (WSome (WTuple [(repeat x61 129, WTrue)]))
  /\ wall roomy1 (WSome (WTuple [(repeat x61 129, WTrue)]))
  /\ names (WSome (WTuple [(repeat x61 129, WTrue)])) = [repeat x61 129].
Proof. repeat split; vm_compute; reflexivity. Qed.

(** ** C22 *)
Theorem C22_methods : forall v e, encode v = Ok e ->
  codec_len v = Ok (count e) /\ codec_is_empty v = Ok false /\
  (exists h, codec_hex v = Ok h /\ h = hex_text e /\ hex_to_bytes h = Ok e /\
             codec_hex_prefixed v = Ok (str "0x"%string ++ h)).
Proof. exact codec_methods. Qed.
Print Assumptions C22_methods.

Theorem C22_methods_err : forall v x, encode v = Err x ->
  codec_len v = Err x /\ codec_is_empty v = Err x /\ codec_hex v = Err x /\ codec_hex_prefixed v = Err x.
Proof. exact codec_methods_err. Qed.
Print Assumptions C22_methods_err.

Example C22_ex : codec_hex_prefixed (CBuffer [xde; xad]) = Ok (str "0x0200000002dead")
  /\ codec_len (CBuffer [xde; xad]) = Ok 7.
Proof. repeat split; vm_compute; reflexivity. Qed.

(** ** C23 *)
Theorem C23_int : forall z, (- 2 ^ 127 <= z < 2 ^ 127)%Z ->
  encode (CInt z) = Ok (x00 :: twos_complement z) /\
  (forall t, decode_as TInt (x00 :: twos_complement z ++ t) = Ok (CInt z)).
Proof. exact int_exact. Qed.
Print Assumptions C23_int.

Theorem C23_uint : forall n, n < 2 ^ 128 ->
  encode (CUInt n) = Ok (x01 :: big_endian 16 n) /\
  (forall t, decode_as TUInt (x01 :: big_endian 16 n ++ t) = Ok (CUInt n)).
Proof. exact uint_exact. Qed.
Print Assumptions C23_uint.

Theorem C23_patterns : forall s, length s = 16%nat ->
  (exists z, (- 2 ^ 127 <= z < 2 ^ 127)%Z /\ encode (CInt z) = Ok (x00 :: s) /\
     forall z', (- 2 ^ 127 <= z' < 2 ^ 127)%Z -> encode (CInt z') = Ok (x00 :: s) -> z' = z) /\
  (exists n, n < 2 ^ 128 /\ encode (CUInt n) = Ok (x01 :: s) /\
     forall n', n' < 2 ^ 128 -> encode (CUInt n') = Ok (x01 :: s) -> n' = n).
Proof. exact int_patterns. Qed.
Print Assumptions C23_patterns.

Example C23_ex : encode (CInt (- 2 ^ 127)) = Ok (x00 :: x80 :: repeat x00 15)
  /\ decode_as TInt (x00 :: repeat xff 16) = Ok (CInt (-1)).
Proof. split; vm_compute; reflexivity. Qed.

(** ** C24 *)
Theorem C24_equivalence :
  (forall a, cl_eq a a = true) /\ (forall a b, cl_eq a b = cl_eq b a)
  /\ (forall a b c, cl_eq a b = true -> cl_eq b c = true -> cl_eq a c = true).
Proof. exact (conj cl_eq_refl (conj cl_eq_sym cl_eq_trans)). Qed.
Print Assumptions C24_equivalence.

Theorem C24_simple_types : forall t a b, In t simple_types -> built_as t a -> built_as t b ->
  (cl_eq a b = true <-> a = b).
Proof. exact simple_eq. Qed.
Print Assumptions C24_simple_types.

Theorem C24_clean_values : forall a b, clean a -> clean b -> (cl_eq a b = true <-> a = b).
Proof. exact clean_eq. Qed.
Print Assumptions C24_clean_values.

Example C24_ex : clean sample /\ clean sample_lower /\ cl_eq sample sample_lower = false.
Proof.
  split; [|split; [|vm_compute; reflexivity]].
  - cbn. repeat split; try discriminate; try (repeat constructor; discriminate).
    + eexists _, _. apply address_text_spelling. exact sample_address.
    + intros [H | [H | []]]; discriminate H.
  - cbn. repeat split; try discriminate; try (repeat constructor; discriminate).
    + exists (repeat x01 20), x16. apply c32_address_decode_iff. vm_compute. reflexivity.
    + intros [H | [H | []]]; discriminate H.
Qed.

(** Finding: values of the same type with different encodings compare equal. *)
Theorem C24_equality_refuted : exists a b ea eb,
  type_of a = TList /\ type_of b = TList /\ cl_eq a b = true
  /\ encode a = Ok ea /\ encode b = Ok eb /\ ea <> eb.
Proof.
  exists (CList [CAscii (str "a"" ""b")]), (CList [CAscii (str "a"); CAscii (str "b")]).
  exists [x0b; x00; x00; x00; x01; x0d; x00; x00; x00; x05; x61; x22; x20; x22; x62].
  exists [x0b; x00; x00; x00; x02; x0d; x00; x00; x00; x01; x61; x0d; x00; x00; x00; x01; x62].
  repeat split; try (vm_compute; reflexivity). discriminate.
Qed.
Print Assumptions C24_equality_refuted.

Theorem C24_contract_refuted : exists a n b m, (a, n) <> (b, m) /\ cl_eq (CPrinCon a n) (CPrinCon b m) = true.
Proof. exists (str "a"), (str "b.c"), (str "a.b"), (str "c"). split; [discriminate | vm_compute; reflexivity]. Qed.
Print Assumptions C24_contract_refuted.

(** ** C25 *)
Theorem C25_history : forall os t m, NoDup (tuple_keys t) -> (forall k, tuple_get k t = m k) -> fresh_inserts m os ->
  NoDup (tuple_keys (fold_left tup_op_run os t)) /\
  forall k, tuple_get k (fold_left tup_op_run os t) = fold_left fm_op os m k.
Proof. exact tuple_map_law. Qed.
Print Assumptions C25_history.

Theorem C25_insert : forall k k' v t,
  tuple_get k (tuple_insert k' v t) =
    match tuple_get k t with Some x => Some x | None => if bytes_eqb k' k then Some v else None end
  /\ tuple_keys (tuple_insert k' v t) = tuple_keys t ++ [k']
  /\ tuple_values (tuple_insert k' v t) = tuple_values t ++ [v].
Proof. intros. split; [apply get_insert | split; apply map_app]. Qed.
Print Assumptions C25_insert.

Theorem C25_remove : forall k t,
  fst (tuple_remove k t) = tuple_get k t
  /\ (forall k', k <> k' -> tuple_get k' (snd (tuple_remove k t)) = tuple_get k' t)
  /\ (NoDup (tuple_keys t) -> tuple_get k (snd (tuple_remove k t)) = None).
Proof.
  intros. split; [apply remove_returns | split; [intros; apply get_remove_other; assumption | intros; apply remove_nodup; assumption]].
Qed.
Print Assumptions C25_remove.

Theorem C25_absent : forall k t, tuple_get k t = None <-> ~ In k (tuple_keys t).
Proof. exact get_none. Qed.
Print Assumptions C25_absent.

(** Findings: inserting a present key does not change what [get] returns, and removing a key inserted
    twice leaves it present. *)
Theorem C25_insert_refuted : exists k v t, tuple_get k (tuple_insert k v t) <> Some v.
Proof. exists [x61], CTrue, [([x61], CFalse)]. discriminate. Qed.
Print Assumptions C25_insert_refuted.

Theorem C25_remove_refuted : exists k v w, tuple_get k (snd (tuple_remove k (tuple_insert k w (tuple_insert k v [])))) = Some w.
Proof. exists [x61], CTrue, CFalse. reflexivity. Qed.
Print Assumptions C25_remove_refuted.

Example C25_ex :
  fresh_inserts (fun _ => None) [OpInsert [x61] CTrue; OpInsert [x62] CFalse; OpWrite [x61] CNone; OpRemove [x62]; OpInsert [x62] CTrue]
  /\ fold_left tup_op_run [OpInsert [x61] CTrue; OpInsert [x62] CFalse; OpWrite [x61] CNone; OpRemove [x62]; OpInsert [x62] CTrue] []
     = [([x61], CNone); ([x62], CTrue)].
Proof. split; [repeat split | reflexivity]. Qed.

(** ** C26 *)
Theorem C26_cast : forall t v,
  (built_as t v -> cast t v = Ok v) /\ (~ built_as t v -> cast t v = Err ClBadDowncast).
Proof. exact cast_exact. Qed.
Print Assumptions C26_cast.

Theorem C26_cast_inner : forall t x,
  cast_inner t (CRespOk x) = Some (cast t x) /\ cast_inner t (CRespErr x) = Some (cast t x)
  /\ cast_inner t (CSome x) = Some (cast t x).
Proof. exact cast_inner_exact. Qed.
Print Assumptions C26_cast_inner.

Example C26_ex : built_as TUInt (CUInt 3) /\ cast TUInt (CUInt 3) = Ok (CUInt 3) /\ cast TInt (CUInt 3) = Err ClBadDowncast.
Proof. repeat split. exists 3. reflexivity. Qed.

(** ** C27 *)
Theorem C27_fn_arguments : forall cs ws t, Forall2 means cs ws -> Forall proper ws -> count ws < 2 ^ 32 ->
  exists e cs', encode (CFnArgs cs) = Ok e /\ e = big_endian 4 (count ws) ++ flat_map wser ws
            /\ decode_as TFnArgs (e ++ t) = Ok (CFnArgs cs') /\ Forall2 canonically_means cs' ws.
Proof. exact fnargs_spelled. Qed.
Print Assumptions C27_fn_arguments.

Theorem C27_fn_arguments_canonical : forall cs ws t, Forall2 canonically_means cs ws -> Forall proper ws ->
  count ws < 2 ^ 32 ->
  exists e, encode (CFnArgs cs) = Ok e /\ e = big_endian 4 (count ws) ++ flat_map wser ws
            /\ decode_as TFnArgs (e ++ t) = Ok (CFnArgs cs).
Proof. exact fnargs_roundtrip. Qed.
Print Assumptions C27_fn_arguments_canonical.

Example C27_ex : Forall2 canonically_means [sample; CTrue] [sample_wire; WTrue] /\ Forall proper [sample_wire; WTrue].
Proof.
  split; [constructor; [exact sample_means | constructor; [exact I | constructor]]|].
  constructor; [exact sample_proper|]. constructor; [|constructor].
  unfold proper. cbn. tauto.
Qed.

(** ** C55 *)
Theorem C55_text : forall v s, display v = s <-> shows v s.
Proof. intros v s. symmetry. apply shows_display. Qed.
Print Assumptions C55_text.

Theorem C55_integers : forall z n, signed_decimal z (display (CInt z))
  /\ exists s, display (CUInt n) = x75 :: s /\ decimal n s.
Proof. intros. split; [apply show_Z_signed|]. exists (show_N n). split; [reflexivity | apply show_N_decimal]. Qed.
Print Assumptions C55_integers.

Theorem C55_buffer : forall b, display (CBuffer b) = str "0x"%string ++ hex_text b.
Proof. intros. rewrite <- HexFacts.bytes_to_hex_text. reflexivity. Qed.
Print Assumptions C55_buffer.

Theorem C55_numerals_determine : forall s,
  (forall n m, decimal n s -> decimal m s -> n = m) /\ (forall y z, signed_decimal y s -> signed_decimal z s -> y = z).
Proof. intros. split; intros; [eapply decimal_fun | eapply signed_fun]; eassumption. Qed.
Print Assumptions C55_numerals_determine.

Example C55_ex : display (CInt (-120)) = str "-120" /\ display (CUInt 10) = str "u10" /\ display (CBuffer [x0a; xff]) = str "0x0aff".
Proof. repeat split; vm_compute; reflexivity. Qed.

(** ** C56: finding: tuples with the same entries in another order encode differently. *)
Theorem C56_tuple_order : forall l m wl wm e, means (CTuple l) wl -> means (CTuple m) wm -> proper wl -> proper wm ->
  encode (CTuple l) = Ok e -> encode (CTuple m) = Ok e -> map fst l = map fst m.
Proof. intros l m wl wm e Ml Mm Pl Pm. exact (tuple_order l m wl wm e Ml Mm (proper_delim _ Pl) (proper_delim _ Pm)). Qed.
Print Assumptions C56_tuple_order.

Theorem C56_order_refuted : exists a b ea eb,
  (forall k, tuple_get k a = tuple_get k b) /\ encode (CTuple a) = Ok ea /\ encode (CTuple b) = Ok eb /\ ea <> eb.
Proof.
  exists [([x61], CTrue); ([x62], CFalse)], [([x62], CFalse); ([x61], CTrue)].
  exists [x0c; x00; x00; x00; x02; x01; x61; x03; x01; x62; x04], [x0c; x00; x00; x00; x02; x01; x62; x04; x01; x61; x03].
  repeat split; try (vm_compute; reflexivity); [|discriminate].
  intros k. cbn [tuple_get]. destruct (bytes_eqb_spec [x61] k), (bytes_eqb_spec [x62] k); congruence.
Qed.
Print Assumptions C56_order_refuted.
