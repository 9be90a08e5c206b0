(** Specification of what the codecs refuse: the first fault of a value in the order of its encoding, the first fault
    of a byte string in reading order, and the error that names it.  No reference to the model's encoder or decoder. *)

From Coq Require Import Strings.String.
From Verif Require Import Base Sha2 SpecText SpecAddr Hash C32 Clarity SpecWire Tx SpecTx.
Local Open Scope N_scope.

(** ** Address texts *)

(** What stands after the S: a letter for the version, then the letters of payload and checksum. *)
Inductive bad_address : bytes -> c32_err -> Prop :=
| Ba_start s : (forall t, s <> x53 :: t) -> bad_address s (C32BadAddress s)
| Ba_short s : (length s <= 5)%nat -> bad_address s (C32BadAddress s)
| Ba_ascii s : (5 < length (x53 :: s))%nat -> ~ ascii s -> bad_address (x53 :: s) C32BadInput
| Ba_letter c p d q : (5 < length (x53 :: c :: p ++ d :: q))%nat -> ascii (c :: p ++ d :: q) ->
    ~ crockford_ok d -> Forall crockford_ok q ->
    bad_address (x53 :: c :: p ++ d :: q) (C32BadChar (Byte.to_N d))           (* the last letter that is none *)
| Ba_few c t b : (5 < length (x53 :: c :: t))%nat -> ascii [c] -> Forall crockford_ok t ->
    numeral 32 crockford b (map crockford_norm t) -> (length b < 4)%nat ->
    bad_address (x53 :: c :: t) C32BadInput                                    (* no room for a checksum *)
| Ba_version c t b : (5 < length (x53 :: c :: t))%nat -> ascii [c] -> Forall crockford_ok t ->
    numeral 32 crockford b (map crockford_norm t) -> (4 <= length b)%nat -> ~ crockford_ok c ->
    bad_address (x53 :: c :: t) (C32BadChar (Byte.to_N c))
| Ba_checksum c t v h sum : (5 < length (x53 :: c :: t))%nat -> Forall crockford_ok t ->
    numeral 32 crockford (h ++ sum) (map crockford_norm t) -> length sum = 4%nat ->
    crockford_ok c -> Byte.to_N v < 32 -> crockford_norm c = nth (N.to_nat (Byte.to_N v)) crockford x00 ->
    sum <> addr_sum v h ->
    bad_address (x53 :: c :: t) (C32BadChecksum (addr_sum v h) sum).

(** ** Values that cannot be written *)

(** A value that can. *)
Definition fine (c : cval) : Prop := exists w, means c w /\ wall fits1 w.

Definition too_long (s : bytes) (e : cl_err) : Prop := 128 < count s /\ e = ClBadStringLength (count s) 128.

(** A sequence with a faulty element, those before it being good. *)
Definition first_bad {A} (good : A -> Prop) (bad : A -> cl_err -> Prop) (l : list A) (e : cl_err) : Prop :=
  exists p x r, l = p ++ x :: r /\ Forall good p /\ bad x e.

Inductive misfit : cval -> cl_err -> Prop :=
| Mf_buffer b : 2 ^ 32 <= count b -> misfit (CBuffer b) ClTryFromInt
| Mf_std a e : bad_address a e -> misfit (CPrinStd a) (ClC32 e)
| Mf_con a n e : bad_address a e -> misfit (CPrinCon a n) (ClC32 e)
| Mf_con_name a n h v e : address_spelling h v a -> too_long n e -> misfit (CPrinCon a n) e
| Mf_ok x e : misfit x e -> misfit (CRespOk x) e
| Mf_err x e : misfit x e -> misfit (CRespErr x) e
| Mf_some x e : misfit x e -> misfit (CSome x) e
| Mf_list_count l : 2 ^ 32 <= count l -> misfit (CList l) ClTryFromInt
| Mf_list p x r e : count (p ++ x :: r) < 2 ^ 32 -> Forall fine p -> misfit x e -> misfit (CList (p ++ x :: r)) e
| Mf_tuple_count l : 2 ^ 32 <= count l -> misfit (CTuple l) ClTryFromInt
| Mf_tuple_key p k x r e : count (p ++ (k, x) :: r) < 2 ^ 32 ->
    Forall (fun kv => count (fst kv) <= 128 /\ fine (snd kv)) p -> too_long k e ->
    misfit (CTuple (p ++ (k, x) :: r)) e
| Mf_tuple p k x r e : count (p ++ (k, x) :: r) < 2 ^ 32 ->
    Forall (fun kv => count (fst kv) <= 128 /\ fine (snd kv)) p -> count k <= 128 -> misfit x e ->
    misfit (CTuple (p ++ (k, x) :: r)) e
| Mf_ascii s : ~ ascii s -> misfit (CAscii s) (ClBadStringType (str "Ascii"%string))
| Mf_ascii_count s : ascii s -> 2 ^ 32 <= count s -> misfit (CAscii s) ClTryFromInt
| Mf_utf8 s : 2 ^ 32 <= count s -> misfit (CUtf8 s) ClTryFromInt
| Mf_name s e : too_long s e -> misfit (CLps s) e
| Mf_args_count l : 2 ^ 32 <= count l -> misfit (CFnArgs l) ClTryFromInt
| Mf_args p x r e : count (p ++ x :: r) < 2 ^ 32 -> Forall fine p -> misfit x e -> misfit (CFnArgs (p ++ x :: r)) e.

(** ** Transactions that cannot be written *)

Inductive bad_asset : asset_info -> cl_err -> Prop :=
| Bs_address i e : bad_address (ai_addr i) e -> bad_asset i (ClC32 e)
| Bs_contract i h v e : address_spelling h v (ai_addr i) -> too_long (ai_contract i) e -> bad_asset i e
| Bs_name i h v e : address_spelling h v (ai_addr i) -> count (ai_contract i) <= 128 -> too_long (ai_asset i) e -> bad_asset i e.
Definition fine_asset (i : asset_info) : Prop := exists w, asset_means i w /\ fits_asset w.

(** Only principals can be watched. *)
Inductive bad_who : cval -> cl_err -> Prop :=
| Bw_other c : (forall a, c <> CPrinStd a) -> (forall a n, c <> CPrinCon a n) -> bad_who c ClBadDowncast
| Bw_std a e : misfit (CPrinStd a) e -> bad_who (CPrinStd a) e
| Bw_con a n e : misfit (CPrinCon a n) e -> bad_who (CPrinCon a n) e.
Definition fine_who (c : cval) : Prop := exists w, is_principal w /\ means c w /\ wall fits1 w.

Inductive bad_cond : condition -> cl_err -> Prop :=
| Bc_who c e : bad_who (match c with CondSTX a _ _ | CondFT a _ _ _ | CondNFT a _ _ _ => a end) e -> bad_cond c e
| Bc_ft a n k i e : fine_who a -> bad_asset i e -> bad_cond (CondFT a n k i) e
| Bc_nft a n k i e : fine_who a -> bad_asset i e -> bad_cond (CondNFT a n k i) e
| Bc_nft_name a n k i e : fine_who a -> fine_asset i -> misfit n e -> bad_cond (CondNFT a n k i) e.
Definition fine_cond (c : condition) : Prop := exists w, cond_means c w /\ fits_cond w.

Inductive bad_conds : list condition -> cl_err -> Prop :=
| Bl_count l : 2 ^ 32 <= count l -> bad_conds l ClTryFromInt
| Bl_item l e : count l < 2 ^ 32 -> first_bad fine_cond bad_cond l e -> bad_conds l e.

Inductive bad_payload : payload -> cl_err -> Prop :=
| Bp_memo r n m : 34 < count m -> bad_payload (PTransfer r n m) (ClBadStringLength (count m) 34)
| Bp_to r n m e : count m <= 34 -> misfit r e -> bad_payload (PTransfer r n m) e
| Bp_contract a c f l e : too_long c e -> bad_payload (PCall a c f l) e
| Bp_function a c f l e : count c <= 128 -> too_long f e -> bad_payload (PCall a c f l) e
| Bp_args_count a c f l : count c <= 128 -> count f <= 128 -> 2 ^ 32 <= count l -> bad_payload (PCall a c f l) ClTryFromInt
| Bp_args a c f l e : count c <= 128 -> count f <= 128 -> count l < 2 ^ 32 -> first_bad fine misfit l e ->
    bad_payload (PCall a c f l) e.

(** Spending conditions: only the number of fields can be too large. *)
Definition huge_spend (s : scond) : Prop := match s with SStd _ => False | SMulti m => 2 ^ 32 <= count (ms_fields m) end.
Definition huge_auth (a : auth) : Prop :=
  match a with AStandard o => huge_spend o | ASponsored o s => huge_spend o \/ huge_spend s end.

Inductive bad_tx : tx -> cl_err -> Prop :=
| Bt_auth t : huge_auth (tx_auth t) -> bad_tx t ClTryFromInt
| Bt_conds t e : ~ huge_auth (tx_auth t) -> bad_conds (tx_conds t) e -> bad_tx t e
| Bt_payload t e : ~ huge_auth (tx_auth t) -> count (tx_conds t) < 2 ^ 32 -> Forall fine_cond (tx_conds t) ->
    bad_payload (tx_payload t) e -> bad_tx t e.

(** ** Bytes that cannot be read *)

(** A value that is read from a list, a tuple, an argument vector or a payload is written again to find its end. *)
Definition element (w : wval) : Prop := decodable w /\ wall fits1 w.

Inductive faulty : bytes -> cl_err -> Prop :=
| Fy_tag b r : 15 <= Byte.to_N b -> faulty (b :: r) (ClUnexpectedType b)
| Fy_std v h t : length h = 20%nat -> ~ stacks_version v -> faulty (x05 :: v :: h ++ t) (ClC32 (C32UnknownAddressVersion v))
| Fy_con v h t : length h = 20%nat -> ~ stacks_version v -> faulty (x06 :: v :: h ++ t) (ClC32 (C32UnknownAddressVersion v))
| Fy_con_name v h n t : length h = 20%nat -> stacks_version v -> count n < 256 -> ~ utf8 n ->
    faulty (x06 :: v :: h ++ ser_name n ++ t) ClTryFromUtf8
| Fy_ok r e : faulty r e -> faulty (x07 :: r) e
| Fy_err r e : faulty r e -> faulty (x08 :: r) e
| Fy_some r e : faulty r e -> faulty (x0a :: r) e
| Fy_list n r e : n < 2 ^ 32 -> faulty_items n r e -> faulty (x0b :: big_endian 4 n ++ r) e
| Fy_tuple n r e : n < 2 ^ 32 -> faulty_entries n r e -> faulty (x0c :: big_endian 4 n ++ r) e
| Fy_ascii s t : count s < 2 ^ 32 -> ~ utf8 s -> faulty (x0d :: big_endian 4 (count s) ++ s ++ t) ClTryFromUtf8
| Fy_utf8 s t : count s < 2 ^ 32 -> ~ utf8 s -> faulty (x0e :: big_endian 4 (count s) ++ s ++ t) ClTryFromUtf8
(** [n] more elements. *)
with faulty_items : N -> bytes -> cl_err -> Prop :=
| Fi_read n r e : 0 < n -> faulty r e -> faulty_items n r e
| Fi_write n w c r e : 0 < n -> decodable w -> canonically_means c w -> misfit c e -> faulty_items n (wser w ++ r) e
| Fi_next n w r e : element w -> faulty_items n r e -> faulty_items (n + 1) (wser w ++ r) e
(** [n] more keys with their values. *)
with faulty_entries : N -> bytes -> cl_err -> Prop :=
| Fe_key n k r : 0 < n -> count k < 256 -> ~ utf8 k -> faulty_entries n (ser_name k ++ r) ClTryFromUtf8
| Fe_read n k r e : 0 < n -> count k < 256 -> utf8 k -> faulty r e -> faulty_entries n (ser_name k ++ r) e
| Fe_write n k w c r e : 0 < n -> count k < 256 -> utf8 k -> decodable w -> canonically_means c w -> misfit c e ->
    faulty_entries n (ser_name k ++ wser w ++ r) e
| Fe_next n k w r e : count k < 256 -> utf8 k -> element w -> faulty_entries n r e ->
    faulty_entries (n + 1) (ser_name k ++ wser w ++ r) e.

(** A name that cannot be read, or not written again. *)
Inductive faulty_name : bytes -> cl_err -> Prop :=
| Fn_text k t : count k < 256 -> ~ utf8 k -> faulty_name (ser_name k ++ t) ClTryFromUtf8
| Fn_long k t e : count k < 256 -> utf8 k -> too_long k e -> faulty_name (ser_name k ++ t) e.
Definition good_name (k : bytes) : Prop := utf8 k /\ count k <= 128.

Inductive faulty_payload : bytes -> cl_err -> Prop :=
| Fp_tag b r : b <> x00 -> b <> x02 -> faulty_payload (b :: r) (ClUnexpectedType b)
| Fp_to r e : faulty r e -> faulty_payload (x00 :: r) e
| Fp_to_again w c r e : decodable w -> canonically_means c w -> misfit c e -> faulty_payload (x00 :: wser w ++ r) e
| Fp_memo w a m t : element w -> length a = 8%nat -> length m = 34%nat -> ~ utf8 m ->
    faulty_payload (x00 :: wser w ++ a ++ m ++ t) ClTryFromUtf8
| Fp_contract v h r e : length h = 20%nat -> faulty_name r e -> faulty_payload (x02 :: v :: h ++ r) e
| Fp_function v h c r e : length h = 20%nat -> good_name c -> faulty_name r e ->
    faulty_payload (x02 :: v :: h ++ ser_name c ++ r) e
| Fp_args v h c f n r e : length h = 20%nat -> good_name c -> good_name f -> n < 2 ^ 32 -> faulty_items n r e ->
    faulty_payload (x02 :: v :: h ++ ser_name c ++ ser_name f ++ big_endian 4 n ++ r) e.

(** The types whose decoder looks at the first byte, with the byte it expects.  The decoder of UTF-8 strings takes any
    first byte for its own; names and argument vectors have none. *)
Definition tagged : list (cty * byte) :=
  [(TInt, x00); (TUInt, x01); (TBuffer, x02); (TTrue, x03); (TFalse, x04); (TPrinStd, x05); (TPrinCon, x06);
   (TRespOk, x07); (TRespErr, x08); (TNone, x09); (TSome, x0a); (TList, x0b); (TTuple, x0c); (TAscii, x0d)].
