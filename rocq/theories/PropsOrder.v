(** Property theorems C97: what is equal, and what comes first. *)

From Coq Require Import Strings.String Lia ZifyBool ZifyNat ZifyN ZArith.
From Verif Require Import Base BaseFacts Hex Hash C32 Clarity Tx SpecTx Wallet F64 Rpc SpecText SpecF64 SpecClient ClientThms Json Order SpecOrder OrderThms
     F64Thms F64ReadThms PropsClient.
Local Open Scope N_scope.

(** Hashes and signatures: in the order of their bytes, which is that of their hexadecimal texts and, at one length, that of the
    numbers they write. *)
Theorem C97_bytes : ranks hash_cmp /\ forall a b,
  (hash_cmp a b = Lt <-> precedes a b)
  /\ (bytes_cmp (bytes_to_hex a) (bytes_to_hex b) = hash_cmp a b)
  /\ (length a = length b -> hash_cmp a b = (as_digits a ?= as_digits b)).
Proof.
  split; [exact ranks_bytes|]. intros a b. split; [apply bytes_cmp_lt|]. split; [apply hex_cmp|]. apply bytes_cmp_digits.
Qed.
Print Assumptions C97_bytes.

(** Modes, versions, networks and codes: in the order of the numbers sent. *)
Theorem C97_codes :
  (forall a b, mode_cmp a b = (Byte.to_N (mode_byte a) ?= Byte.to_N (mode_byte b)))
  /\ (forall a b, version_cmp a b = (Byte.to_N (address_code a) ?= Byte.to_N (address_code b)))
  /\ (forall a b, tx_version_cmp a b = (Byte.to_N (tx_version_byte a) ?= Byte.to_N (tx_version_byte b)))
  /\ (forall a b, chain_cmp a b = (chain_id_N a ?= chain_id_N b))
  /\ (forall a b, anchor_cmp a b = (Byte.to_N (anchor_byte a) ?= Byte.to_N (anchor_byte b)))
  /\ (forall a b, code_cmp a b = (Byte.to_N (cond_code_byte a) ?= Byte.to_N (cond_code_byte b)))
  /\ (forall a b, pcmode_cmp a b = (Byte.to_N (pc_mode_byte a) ?= Byte.to_N (pc_mode_byte b)))
  /\ ranks mode_cmp /\ ranks version_cmp /\ ranks tx_version_cmp /\ ranks chain_cmp /\ ranks anchor_cmp /\ ranks code_cmp
  /\ ranks pcmode_cmp.
Proof.
  split; [reflexivity|]. split; [intros [] []; reflexivity|]. split; [reflexivity|]. split; [reflexivity|]. split; [reflexivity|].
  split; [reflexivity|]. split; [reflexivity|]. split; [exact ranks_mode|]. split; [exact ranks_version|]. split; [exact ranks_tx_version|].
  split; [exact ranks_chain|]. split; [exact ranks_anchor|]. split; [exact ranks_code|exact ranks_pcmode].
Qed.
Print Assumptions C97_codes.
(** So the versions are not in the order of their declaration, which starts with those of single keys. *)
Theorem C97_versions : version_cmp MainnetP2SH TestnetP2SH = Lt /\ version_cmp TestnetP2SH MainnetP2PKH = Lt
  /\ version_cmp MainnetP2PKH TestnetP2PKH = Lt /\ chain_cmp ChMainnet ChTestnet = Lt /\ tx_version_cmp VMainnet VTestnet = Lt.
Proof. repeat split. Qed.
Print Assumptions C97_versions.

(** Spending conditions. *)
Theorem C97_conditions : ranks std_cmp /\ ranks multi_cmp
  /\ (forall a b, std_cmp a b = Lt <-> std_precedes a b) /\ (forall a b, multi_cmp a b = Lt <-> multi_precedes a b).
Proof. split; [exact ranks_std|]. split; [exact ranks_multi|]. split; [exact std_cmp_lt|exact multi_cmp_lt]. Qed.
Print Assumptions C97_conditions.

(** Equal conditions are those with the same bytes on the wire. *)
Theorem C97_encodings :
  (forall a b, sized_std a -> sized_std b -> (std_cmp a b = Eq <-> enc_std a = enc_std b))
  /\ (forall a b e, sized_multi a -> sized_multi b -> enc_multi a = Ok e -> (multi_cmp a b = Eq <-> enc_multi b = Ok e)).
Proof.
  split.
  - intros a b A B. rewrite (ranks_same _ ranks_std). split; [congruence|]. now apply enc_std_inj.
  - intros a b e A B E. rewrite (ranks_same _ ranks_multi). split; [congruence|]. intros F. exact (enc_multi_inj a b e A B E F).
Qed.
Print Assumptions C97_encodings.

(** But they are not in the order of these bytes: the fee decides before the signer. *)
Definition cheap : sc_std := {| std_mode := P2PKH; std_fee := 1; std_nonce := 7; std_signer := repeat xff 20; std_sig := repeat x00 65 |}.
Definition dear : sc_std := {| std_mode := P2PKH; std_fee := 2; std_nonce := 3; std_signer := repeat x01 20; std_sig := repeat x00 65 |}.
Theorem C97_wire_order_refuted : ~ (forall a b, sized_std a -> sized_std b -> std_precedes a b -> precedes (enc_std a) (enc_std b)).
Proof.
  intros H. assert (A : sized_std cheap) by (split; [reflexivity|]; split; [reflexivity|]; split; reflexivity).
  assert (B : sized_std dear) by (split; [reflexivity|]; split; [reflexivity|]; split; reflexivity).
  specialize (H cheap dear A B). rewrite <- std_cmp_lt, <- bytes_cmp_lt in H. specialize (H eq_refl). vm_compute in H. discriminate.
Qed.
Print Assumptions C97_wire_order_refuted.

(** Modifications, Bitcoin versions, networks. *)
Theorem C97_modifications : ranks modification_cmp /\ ranks b58_version_cmp
  /\ (forall a b, modification_cmp a b = Lt <-> mod_precedes a b)
  /\ b58_version_cmp BMainnetP2PKH BMainnetP2SH = Lt /\ b58_version_cmp BMainnetP2SH BTestnetP2PKH = Lt
  /\ b58_version_cmp BTestnetP2PKH BTestnetP2SH = Lt
  /\ (forall n, network_cmp n n = Eq).
Proof.
  split; [exact ranks_modification|]. split; [exact ranks_b58_version|]. split; [exact modification_cmp_lt|].
  split; [reflexivity|]. split; [reflexivity|]. split; [reflexivity|].
  intros []; reflexivity.
Qed.
Print Assumptions C97_modifications.

(** Responses. *)
Theorem C97_responses : ranks info_cmp /\ ranks address_info_cmp /\ ranks broadcast_cmp /\ ranks read_only_cmp
  /\ (forall a b, info_cmp a b = Lt <-> info_precedes a b) /\ (forall a b, address_info_cmp a b = Lt <-> address_info_precedes a b)
  /\ (forall a b, broadcast_cmp a b = Lt <-> broadcast_precedes a b) /\ (forall a b, read_only_cmp a b = Lt <-> read_only_precedes a b).
Proof.
  split; [exact ranks_info|]. split; [exact ranks_address_info|]. split; [exact ranks_broadcast|]. split; [exact ranks_read_only|].
  split; [exact info_cmp_lt|]. split; [exact address_info_cmp_lt|]. split; [exact broadcast_cmp_lt|exact read_only_cmp_lt].
Qed.
Print Assumptions C97_responses.

(** Fee estimates: equal if they say the same numbers; in order as long as all are numbers. *)
Theorem C97_rates : forall a b, is_f64 a -> is_f64 b ->
  f64_cmp a b = match rate_number a, rate_number b with Some x, Some y => Some (x ?= y)%Z | _, _ => None end.
Proof. exact f64_cmp_number. Qed.
Print Assumptions C97_rates.
Theorem C97_fees : forall a b,
  (all_rates is_f64 a -> all_rates is_f64 b -> (fees_eq a b = true <-> same_fees a b))
  /\ (fees_eq a b = true <-> fees_cmp a b = Some Eq)
  /\ (all_rates is_f64 a -> all_rates is_f64 b -> (fees_cmp a b = Some Lt <-> fees_precede a b))
  /\ (all_rates is_f64 a -> all_rates is_f64 b -> (fees_cmp a b = Some Gt <-> fees_precede b a))
  /\ (fees_eq a a = true <-> all_rates is_number a)
  /\ (all_rates is_number a -> all_rates is_number b -> fees_cmp a b <> None).
Proof. intros a b. split; [apply fees_eq_iff|]. split; [apply fees_eq_cmp|]. split; [apply fees_cmp_lt|]. split; [apply fees_cmp_gt|]. split; [apply fees_refl|apply fees_cmp_some]. Qed.
Print Assumptions C97_fees.
(** Those returned by a client are. *)
Theorem C97_fees_read : forall http url t r, estimate_fee http url t = Ok r -> all_rates is_number r.
Proof. exact estimate_numbers. Qed.
Print Assumptions C97_fees_read.

(** Finding: equal estimates can differ, by the sign of a zero. *)
Definition with_rate (r : f64) : estimate_resp := EsOk [{| fe_fee := 180; fe_rate := r |}].
Theorem C97_zero_refuted : ~ (forall a b, all_rates is_f64 a -> all_rates is_f64 b -> fees_eq a b = true -> a = b).
Proof.
  assert (Z : forall s, all_rates is_f64 (with_rate (Fin s 0))).
  { intros s. constructor; [|constructor]. split; [exists 0, 0; split; reflexivity|]. rewrite infinite_is. apply N.mul_pos_pos; [reflexivity|exact one_pos]. }
  intros H. specialize (H (with_rate (Fin false 0)) (with_rate (Fin true 0)) (Z _) (Z _) eq_refl). discriminate.
Qed.
Print Assumptions C97_zero_refuted.

(** Accounts: equal if they are the same; accounts looked up in one wallet are equal only at one index. *)
Theorem C97_accounts : forall H key_eq (a b : account H), tells key_eq -> (account_eq key_eq a b = true <-> a = b).
Proof. intros H key_eq a b. apply account_eq_iff. Qed.
Print Assumptions C97_accounts.
Theorem C97_lookups : forall H key_eq phrase (w : wallet H) l i j a b, tells key_eq -> from_secret_key phrase = Ok w ->
  filter is_store l = [] -> snd (get_account (wrun w l) i) = Ok a -> snd (get_account (wrun w l) j) = Ok b ->
  (account_eq key_eq a b = true <-> i = j).
Proof.
  intros H key_eq phrase w l i j a b T F S A B. destruct (opened _ _ F) as [_ M]. rewrite (account_eq_iff key_eq a b T).
  rewrite (wallet_cache phrase w (w_ext w) l i F M) in A. rewrite (wallet_cache phrase w (w_ext w) l j F M) in B. unfold looked_up in A, B. rewrite <- (stored_filter l), S in A, B. cbn [stored] in A, B.
  destruct (derive_child H (w_ext w) i) as [|x] eqn:X; [discriminate|]. injection A as <-.
  destruct (derive_child H (w_ext w) j) as [|y] eqn:Y; [discriminate|]. injection B as <-.
  split; [intros [= _ E]; exact E|]. intros <-. rewrite X in Y. injection Y as <-. reflexivity.
Qed.
Print Assumptions C97_lookups.

(** Wallets: equal if they have one root and hold the same accounts, looked-up ones included. *)
Theorem C97_wallets : forall H key_eq phrase phrase' (w w' : wallet H) l l', tells key_eq ->
  from_secret_key phrase = Ok w -> from_secret_key phrase' = Ok w' ->
  (wallet_eq key_eq (wrun w l) (wrun w' l') = true
   <-> w_ext w = w_ext w' /\ forall i a, holds (w_ext w) l i a <-> holds (w_ext w') l' i a).
Proof. intros H key_eq phrase phrase' w w' l l'. apply wallet_eq_iff. Qed.
Print Assumptions C97_wallets.
(** Finding: users expect look-ups not to matter (C48).  Any first look-up that succeeds makes a wallet differ from what it was,
    though both answer all later calls alike. *)
Theorem C97_look_differs : forall H key_eq phrase (w : wallet H) l i a, tells key_eq -> from_secret_key phrase = Ok w ->
  ~ Exists (looks_at i) l -> stored l i = None -> snd (get_account (wrun w l) i) = Ok a ->
  wallet_eq key_eq (wrun w l) (wrun w (l ++ [Look i])) = false
  /\ forall m j, snd (get_account (wrun w (l ++ m)) j) = snd (get_account (wrun w (l ++ [Look i] ++ m)) j).
Proof.
  intros H key_eq phrase w l i a T F N S A. split.
  - destruct (wallet_eq _ _ _) eqn:E; [|reflexivity]. apply (wallet_eq_iff key_eq phrase phrase w w l (l ++ [Look i]) T F F) in E. destruct E as [_ E].
    exfalso. assert (K : holds (w_ext w) (l ++ [Look i]) i a).
    { right. rewrite stored_app. split; [exact S|]. split; [apply Exists_app; right; constructor; reflexivity|].
      destruct (opened _ _ F) as [_ M]. rewrite (wallet_cache phrase w (w_ext w) l _ F M) in A. unfold looked_up in A. rewrite S in A.
      destruct (derive_child H (w_ext w) i) as [|x]; [discriminate|]. injection A as <-. eauto. }
    apply E in K. destruct K as [K|(_ & K & _)]; [congruence|contradiction].
  - intros m j. apply (C48_lookups_invisible H phrase); [exact F|]. rewrite !filter_app. reflexivity.
Qed.
Print Assumptions C97_look_differs.

Example C97_ex :
  tells (N.eqb : xprv toy_hd -> xprv toy_hd -> bool)
  /\ wallet_eq (N.eqb : xprv toy_hd -> xprv toy_hd -> bool) (wrun toy_wallet [Look 0; Look 1; Look 5]) (wrun toy_wallet [Look 1; Look 0; Look 1]) = true
  /\ wallet_eq (N.eqb : xprv toy_hd -> xprv toy_hd -> bool) toy_wallet (wrun toy_wallet [Look 5]) = true
  /\ wallet_eq (N.eqb : xprv toy_hd -> xprv toy_hd -> bool) toy_wallet (wrun toy_wallet [Look 2]) = false
  /\ hash_cmp [x02; xff] [x0a; x00] = Lt /\ hash_cmp [x02] [x02; x00] = Lt
  /\ std_cmp cheap dear = Lt /\ bytes_cmp (enc_std cheap) (enc_std dear) = Gt
  /\ field_cmp (FPk (repeat xff 33)) (FSig (repeat x00 65)) = Lt
  /\ fees_cmp (with_rate (Fin true 5)) (with_rate (Fin true 4)) = Some Lt /\ fees_cmp (with_rate NaN) (with_rate (Fin false 1)) = None
  /\ fees_eq (with_rate NaN) (with_rate NaN) = false /\ fees_eq (with_rate (Inf true)) (with_rate (Inf true)) = true
  /\ read_only_cmp (ROk true (str "0x03")) (RErr false (str "a")) = Lt
  /\ fees_precede (with_rate (Fin true 5)) (with_rate (Fin true 4))
  /\ modification_cmp (MSetSignature (repeat xff 65)) (MAddPublicKey (repeat x02 33)) = Lt.
Proof.
  split; [exact N.eqb_eq|]. do 13 (split; [vm_compute; reflexivity|]). split; [|vm_compute; reflexivity].
  exists [], [], [{| fe_fee := 180; fe_rate := Fin true 5 |}], [{| fe_fee := 180; fe_rate := Fin true 4 |}].
  split; [reflexivity|]. split; [reflexivity|]. split; [constructor|]. right. split; [reflexivity|]. exists (-5)%Z, (-4)%Z. repeat split.
Qed.
