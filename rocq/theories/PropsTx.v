(** Property theorems C28-C35, C46: payloads, post-conditions, transaction encoding, signing hash. *)

From Coq Require Import Strings.String.
From Verif Require Import Base BaseFacts Utf8 Utf8Thms Sha2 SpecText SpecAddr Hash C32 AddrFacts Clarity SpecWire WireFacts Tx TxTotal SpecTx
     ClarityFacts ClarityThms TxWire TxFacts PayloadFacts TxThms PropsClarity.
Local Open Scope N_scope.

(** ** Samples *)

Definition key_hash : bytes := repeat x01 20.
Definition ex_std : sc_std :=
  {| std_mode := P2PKH; std_fee := 180; std_nonce := 7; std_signer := key_hash; std_sig := x01 :: repeat x02 64 |}.
Definition ex_multi : sc_multi :=
  {| ms_mode := P2WSH; ms_fee := 300; ms_nonce := 9; ms_signer := key_hash;
     ms_fields := [FSig (x01 :: repeat x02 64); FPk (x03 :: repeat x04 32)]; ms_required := x01 |}.
Definition ex_asset : asset_info := {| ai_addr := sample_addr; ai_contract := str "tok"; ai_asset := str "coin" |}.
Definition ex_wasset : wasset := {| wa_ver := x16; wa_hash := key_hash; wa_contract := str "tok"; wa_name := str "coin" |}.
Definition ex_conds : list condition :=
  [CondSTX (CPrinStd sample_addr) 5 CcGTE; CondFT (CPrinCon sample_addr (str "abc")) 6 CcEQ ex_asset;
   CondNFT (CPrinStd sample_addr) sample CcHas ex_asset].
Definition ex_wconds : list wcond :=
  [WcSTX (WStd x16 key_hash) x03 5; WcFT (WCon x16 key_hash (str "abc")) ex_wasset x01 6;
   WcNFT (WStd x16 key_hash) ex_wasset sample_wire x11].
Definition ex_address : address := {| addr_hash := key_hash; addr_version := x1a |}.

(** A sponsored multi-signature transfer with three post-conditions, and a standard contract call. *)
Definition ex_tx : tx :=
  {| tx_ver := VTestnet; tx_chain := ChTestnet; tx_auth := ASponsored (SMulti ex_multi) (SStd ex_std); tx_anchor := AnAny;
     tx_pcmode := PcDeny; tx_conds := ex_conds; tx_payload := PTransfer (CPrinStd sample_addr) 1000 (str "hi") |}.
Definition ex_wtx : wtx :=
  {| w_version := x80; w_chain := 2147483648;
     w_auth := WaSponsored (WsMulti x03 key_hash 9 300 [WfSig (x01 :: repeat x02 64); WfKey (x03 :: repeat x04 32)] 1)
                           (WsSingle x00 key_hash 7 180 (x01 :: repeat x02 64));
     w_anchor := x03; w_pcmode := x02; w_conds := ex_wconds;
     w_payload := WpTransfer (WStd x16 key_hash) 1000 (str "hi" ++ repeat x00 32) |}.
Definition ex_call : tx :=
  {| tx_ver := VMainnet; tx_chain := ChMainnet; tx_auth := AStandard (SStd ex_std); tx_anchor := AnStrict;
     tx_pcmode := PcAllow; tx_conds := []; tx_payload := PCall ex_address (str "con") (str "fn") [sample; CTrue] |}.
Definition ex_wcall : wtx :=
  {| w_version := x00; w_chain := 1; w_auth := WaStandard (WsSingle x00 key_hash 7 180 (x01 :: repeat x02 64));
     w_anchor := x01; w_pcmode := x01; w_conds := [];
     w_payload := WpCall x1a key_hash (str "con") (str "fn") [sample_wire; WTrue] |}.

Lemma ex_principal : means (CPrinStd sample_addr) (WStd x16 key_hash).
Proof. apply (canonical_means (CPrinStd sample_addr)). exact sample_address. Qed.
Lemma ex_contract : means (CPrinCon sample_addr (str "abc")) (WCon x16 key_hash (str "abc")).
Proof. apply (canonical_means (CPrinCon sample_addr (str "abc"))). exact (conj sample_address eq_refl). Qed.
Lemma ex_asset_means : asset_means ex_asset ex_wasset.
Proof. exact (conj ex_principal (conj eq_refl eq_refl)). Qed.
Lemma ex_memo : memo_field (str "hi") (str "hi" ++ repeat x00 32).
Proof. split; [reflexivity | exists 32%nat; reflexivity]. Qed.

Lemma ex_tx_means : tx_means ex_tx ex_wtx.
Proof.
  unfold tx_means. refine (conj eq_refl (conj eq_refl (conj eq_refl (conj eq_refl (conj eq_refl (conj _ _)))))).
  - constructor; [exact (conj I (conj ex_principal (conj eq_refl eq_refl)))|].
    constructor; [exact (conj I (conj ex_contract (conj ex_asset_means (conj eq_refl eq_refl))))|].
    constructor; [|constructor].
    exact (conj I (conj ex_principal (conj ex_asset_means (conj (canonical_means _ _ sample_means) eq_refl)))).
  - exact (conj ex_principal (conj eq_refl ex_memo)).
Qed.
Lemma ex_call_means : tx_means ex_call ex_wcall.
Proof.
  unfold tx_means. refine (conj eq_refl (conj eq_refl (conj eq_refl (conj eq_refl (conj eq_refl (conj _ _)))))); [constructor|].
  cbn [payload_means ex_call ex_wcall tx_payload w_payload].
  refine (conj eq_refl (conj eq_refl (conj eq_refl (conj eq_refl _)))).
  constructor; [exact (canonical_means _ _ sample_means)|]. constructor; [exact I | constructor].
Qed.

Lemma ex_solid_std : solid (WStd x16 key_hash).
Proof. unfold solid. cbn. auto. Qed.
Lemma ex_solid_con : solid (WCon x16 key_hash (str "abc")).
Proof. unfold solid. cbn. repeat split; discriminate. Qed.
Lemma ex_proper_std : proper (WStd x16 key_hash).
Proof. unfold proper. cbn. repeat split. right. right. left. reflexivity. Qed.
Lemma ex_proper_true : proper WTrue.
Proof. unfold proper. cbn. repeat split. Qed.
Lemma ex_wasset_wf : wf_asset ex_wasset.
Proof. unfold wf_asset. cbn. repeat split; discriminate. Qed.
Lemma ex_spend_wf : wf_spend (WsSingle x00 key_hash 7 180 (x01 :: repeat x02 64)).
Proof. cbn [wf_spend]. repeat split. left. reflexivity. Qed.
Lemma ex_wtx_wf : wf_tx ex_wtx.
Proof.
  unfold wf_tx. refine (conj eq_refl (conj _ (conj eq_refl (conj _ _)))).
  - split; [|exact ex_spend_wf]. cbn [wf_spend]. repeat split; [right; left; reflexivity|]. repeat constructor.
  - constructor; [exact (conj I (conj ex_solid_std eq_refl))|].
    constructor; [exact (conj I (conj ex_solid_con (conj ex_wasset_wf eq_refl)))|].
    constructor; [|constructor].
    exact (conj I (conj ex_solid_std (conj ex_wasset_wf (proper_solid _ sample_proper)))).
  - exact (conj ex_solid_std (conj eq_refl eq_refl)).
Qed.
Lemma ex_wcall_wf : wf_tx ex_wcall.
Proof.
  unfold wf_tx. refine (conj eq_refl (conj ex_spend_wf (conj eq_refl (conj _ _)))); [constructor|].
  cbn [wf_payload w_payload ex_wcall]. refine (conj eq_refl (conj _ (conj _ (conj eq_refl _)))); try discriminate.
  constructor; [exact (proper_solid _ sample_proper)|]. constructor; [exact (proper_solid _ ex_proper_true) | constructor].
Qed.
Lemma ex_tx_encodes : enc_tx ex_tx = Ok (ser_tx ex_wtx).
Proof. vm_compute. reflexivity. Qed.
Lemma ex_call_encodes : enc_tx ex_call = Ok (ser_tx ex_wcall).
Proof. vm_compute. reflexivity. Qed.

(** ** C28 *)
Theorem C28_transfer_encodes : forall r w amount memo, means r w -> wall fits1 w -> count memo <= 34 ->
  exists m, memo_field memo m /\ enc_transfer r amount memo = Ok (ser_payload (WpTransfer w amount m)).
Proof. exact transfer_encode. Qed.
Print Assumptions C28_transfer_encodes.

Theorem C28_long_memo : forall r amount memo, 34 < count memo ->
  enc_transfer r amount memo = Err (ClBadStringLength (count memo) 34).
Proof. exact transfer_long. Qed.
Print Assumptions C28_long_memo.

Theorem C28_roundtrip : forall r w amount memo t,
  means r w -> proper w -> amount < 2 ^ 64 -> utf8 memo -> count memo <= 34 ->
  exists e r' m, enc_transfer r amount memo = Ok e /\ dec_transfer (e ++ t) = Ok (PTransfer r' amount m)
    /\ canonically_means r' w /\ memo_field memo m /\ enc_transfer r' amount m = Ok e.
Proof. exact transfer_roundtrip. Qed.
Print Assumptions C28_roundtrip.

(** Two transfers have the same bytes exactly when they differ in address spelling and trailing NULs
    of the memo only. *)
Theorem C28_same_bytes : forall r1 w1 a1 m1 r2 w2 a2 m2 e1 e2,
  means r1 w1 -> means r2 w2 -> solid w1 -> solid w2 -> a1 < 2 ^ 64 -> a2 < 2 ^ 64 ->
  enc_transfer r1 a1 m1 = Ok e1 -> enc_transfer r2 a2 m2 = Ok e2 ->
  (e1 = e2 <-> same_payload (PTransfer r1 a1 m1) (PTransfer r2 a2 m2)).
Proof. exact transfer_same_bytes. Qed.
Print Assumptions C28_same_bytes.

(** Finding: decoding does not return the memo that was encoded, and memos may share their bytes. *)
Theorem C28_memo_refuted : exists r a m m' e p, m <> m' /\ enc_transfer r a m = Ok e /\ enc_transfer r a m' = Ok e
  /\ dec_transfer e = Ok p /\ p <> PTransfer r a m /\ p <> PTransfer r a m'.
Proof.
  exists (CPrinStd sample_addr), 1, (str "a"), (str "a" ++ [x00]).
  eexists _, _. split; [discriminate|]. split; [vm_compute; reflexivity|]. split; [vm_compute; reflexivity|].
  split; [vm_compute; reflexivity|]. split; discriminate.
Qed.
Print Assumptions C28_memo_refuted.

Example C28_ex : means (CPrinStd sample_addr) (WStd x16 key_hash) /\ proper (WStd x16 key_hash)
  /\ utf8 (str "hi") /\ count (str "hi") <= 34
  /\ dec_transfer (ser_payload (w_payload ex_wtx) ++ [x07])
     = Ok (PTransfer (CPrinStd sample_addr) 1000 (str "hi" ++ repeat x00 32)).
Proof. refine (conj ex_principal (conj ex_proper_std (conj (proj1 (utf8_valid_iff (str "hi")) eq_refl) (conj _ _)))); [discriminate | vm_compute; reflexivity]. Qed.

(** ** C29 *)
Theorem C29_roundtrip : forall ad c n args ws t, length (addr_hash ad) = 20%nat ->
  count c <= 128 -> utf8 c -> count n <= 128 -> utf8 n ->
  Forall2 canonically_means args ws -> Forall proper ws -> count ws < 2 ^ 32 ->
  exists e, enc_call ad c n args = Ok e /\ dec_call (e ++ t) = Ok (PCall ad c n args).
Proof. exact call_roundtrip_exact. Qed.
Print Assumptions C29_roundtrip.

Theorem C29_roundtrip_spelled : forall ad c n args ws t, length (addr_hash ad) = 20%nat ->
  count c <= 128 -> utf8 c -> count n <= 128 -> utf8 n ->
  Forall2 means args ws -> Forall proper ws -> count ws < 2 ^ 32 ->
  exists e args', enc_call ad c n args = Ok e /\ dec_call (e ++ t) = Ok (PCall ad c n args')
    /\ Forall2 canonically_means args' ws /\ enc_call ad c n args' = Ok e.
Proof. exact call_roundtrip. Qed.
Print Assumptions C29_roundtrip_spelled.

Theorem C29_encode_exact : forall ad contract fname args e, enc_call ad contract fname args = Ok e <->
  exists w, payload_means (PCall ad contract fname args) w /\ fits_payload w /\ e = ser_payload w.
Proof. exact call_iff. Qed.
Print Assumptions C29_encode_exact.

Example C29_ex : Forall2 canonically_means [sample; CTrue] [sample_wire; WTrue] /\ Forall proper [sample_wire; WTrue]
  /\ length (addr_hash ex_address) = 20%nat /\ utf8 (str "con")
  /\ dec_call (ser_payload (w_payload ex_wcall) ++ [x07]) = Ok (tx_payload ex_call).
Proof.
  refine (conj _ (conj _ (conj eq_refl (conj (proj1 (utf8_valid_iff (str "con")) eq_refl) _)))).
  - constructor; [exact sample_means | constructor; [exact I | constructor]].
  - constructor; [exact sample_proper | constructor; [exact ex_proper_true | constructor]].
  - vm_compute. reflexivity.
Qed.

(** ** C30 *)
Theorem C30_dispatch : forall b r,
  (b = x00 -> dec_payload (b :: r) = dec_transfer (b :: r)) /\ (b = x02 -> dec_payload (b :: r) = dec_call (b :: r))
  /\ (b <> x00 -> b <> x02 -> dec_payload (b :: r) = Err (ClUnexpectedType b)).
Proof. exact dec_payload_dispatch. Qed.
Print Assumptions C30_dispatch.

(** Exactly what payload decoding accepts and returns. *)
Theorem C30_decode_exact : forall bs p, dec_payload bs = Ok p <->
  exists w t, bs = ser_payload w ++ t /\ proper_payload w /\ payload_exact p w.
Proof. exact dec_payload_exact. Qed.
Print Assumptions C30_decode_exact.

Theorem C30_decode_canonical : forall bs p, dec_payload bs = Ok p -> exists e t, enc_payload p = Ok e /\ bs = e ++ t.
Proof. exact payload_canonical. Qed.
Print Assumptions C30_decode_canonical.

Example C30_ex : dec_payload (ser_payload (w_payload ex_wcall) ++ [x07]) = Ok (tx_payload ex_call)
  /\ dec_payload (x01 :: repeat x00 60) = Err (ClUnexpectedType x01).
Proof. split; vm_compute; reflexivity. Qed.

(** ** C31 *)
Theorem C31_conditions_exact : forall l e, enc_conditions l = Ok e <->
  exists ws, Forall2 cond_means l ws /\ count ws < 2 ^ 32 /\ Forall fits_cond ws
             /\ e = big_endian 4 (count ws) ++ flat_map ser_cond ws.
Proof. exact conds_iff. Qed.
Print Assumptions C31_conditions_exact.

Theorem C31_only_principals : forall l, Forall parts_ok l -> count l < 2 ^ 32 ->
  (Forall (fun c => principal_value (cond_who c)) l ->
     exists ws, Forall2 cond_means l ws /\ enc_conditions l = Ok (big_endian 4 (count ws) ++ flat_map ser_cond ws))
  /\ (enc_conditions l = Err ClBadDowncast <-> Exists (fun c => ~ principal_value (cond_who c)) l).
Proof. exact conds_verdict. Qed.
Print Assumptions C31_only_principals.

(** Each condition can be read back uniquely. *)
Theorem C31_prefix_free : forall a b t1 t2, wf_cond a -> wf_cond b ->
  ser_cond a ++ t1 = ser_cond b ++ t2 -> a = b /\ t1 = t2.
Proof. exact cond_prefix. Qed.
Print Assumptions C31_prefix_free.

(** Finding: the condition code is not checked against the kind of condition; a fungible condition
    with a non-fungible code encodes. *)
Theorem C31_code_kind_refuted : exists c w, cond_means c w /\ fits_cond w /\ enc_condition c = Ok (ser_cond w)
  /\ (exists who amount, w = WcSTX who x10 amount).
Proof.
  exists (CondSTX (CPrinStd sample_addr) 5 CcHasNot), (WcSTX (WStd x16 key_hash) x10 5).
  split; [exact (conj I (conj ex_principal (conj eq_refl eq_refl)))|]. split; [exact (conj I I)|].
  split; [vm_compute; reflexivity | eauto].
Qed.
Print Assumptions C31_code_kind_refuted.

Example C31_ex : Forall parts_ok (ex_conds ++ [CondSTX CTrue 5 CcEQ])
  /\ Forall (fun c => principal_value (cond_who c)) ex_conds
  /\ enc_conditions (ex_conds ++ [CondSTX CTrue 5 CcEQ]) = Err ClBadDowncast.
Proof.
  assert (value_ok (CPrinStd sample_addr)) as V by (exists (WStd x16 key_hash); split; [exact ex_principal | exact (conj I I)]).
  assert (value_ok (CPrinCon sample_addr (str "abc"))) as V'
    by (exists (WCon x16 key_hash (str "abc")); split; [exact ex_contract | split; [discriminate | exact I]]).
  assert (value_ok sample) as V''
    by (exists sample_wire; split; [exact (canonical_means _ _ sample_means) | exact (proper_fits _ sample_proper)]).
  assert (asset_ok ex_asset) as A by (split; [exists key_hash, x16; exact ex_principal | split; discriminate]).
  split; [|split].
  - unfold ex_conds. cbn [app]. constructor; [split; [intros _; exact V | exact I]|].
    constructor; [split; [intros _; exact V' | exact A]|]. constructor; [split; [intros _; exact V | exact (conj A V'')]|].
    constructor; [|constructor]. split; [|exact I]. intros [(? & H) | (? & ? & H)]; discriminate H.
  - unfold ex_conds. constructor; [left; eexists; reflexivity|]. constructor; [right; eexists _, _; reflexivity|].
    constructor; [left; eexists; reflexivity | constructor].
  - vm_compute. reflexivity.
Qed.

(** ** C32 *)
Theorem C32_encode_exact : forall t e, enc_tx t = Ok e <-> exists w, tx_means t w /\ fits_tx w /\ e = ser_tx w.
Proof. exact tx_iff. Qed.
Print Assumptions C32_encode_exact.

(** Anything else is refused with an error. *)
Theorem C32_encode_no_panic : forall t, (exists e, enc_tx t = Ok e) \/ (exists x, enc_tx t = Err x).
Proof. exact enc_tx_settled. Qed.
Print Assumptions C32_encode_no_panic.

Theorem C32_payload_exact : forall p,
  (forall e, enc_payload p = Ok e <-> exists w, payload_means p w /\ fits_payload w /\ e = ser_payload w)
  /\ ((exists e, enc_payload p = Ok e) \/ (exists x, enc_payload p = Err x)).
Proof. intros p. split; [apply payload_iff | apply enc_payload_settled]. Qed.
Print Assumptions C32_payload_exact.

(** The format determines every field and where the transaction ends. *)
Theorem C32_unique_reading : forall w v x y, wf_tx w -> wf_tx v -> ser_tx w ++ x = ser_tx v ++ y -> w = v /\ x = y.
Proof. exact tx_prefix. Qed.
Print Assumptions C32_unique_reading.

Example C32_ex : tx_means ex_tx ex_wtx /\ wf_tx ex_wtx /\ enc_tx ex_tx = Ok (ser_tx ex_wtx)
  /\ tx_means ex_call ex_wcall /\ wf_tx ex_wcall /\ enc_tx ex_call = Ok (ser_tx ex_wcall).
Proof.
  exact (conj ex_tx_means (conj ex_wtx_wf (conj ex_tx_encodes (conj ex_call_means (conj ex_wcall_wf ex_call_encodes))))).
Qed.

(** ** C33 *)
Theorem C33_injective : forall t u w v e f x y, tx_means t w -> tx_means u v -> wf_tx w -> wf_tx v ->
  enc_tx t = Ok e -> enc_tx u = Ok f -> e ++ x = f ++ y -> same_body t u /\ tx_auth t = tx_auth u /\ x = y.
Proof. exact tx_injective. Qed.
Print Assumptions C33_injective.

Theorem C33_converse : forall t u e f, enc_tx t = Ok e -> enc_tx u = Ok f ->
  same_body t u -> tx_auth t = tx_auth u -> e = f.
Proof. exact tx_same_bytes. Qed.
Print Assumptions C33_converse.

(** Finding: the recipient is any Clarity value, also a length-prefixed name, which is ambiguous. *)
Theorem C33_any_recipient_refuted : exists r r' a m e, enc_transfer r a m = Ok e /\ enc_transfer r' a m = Ok e
  /\ ~ same_clarity r r'.
Proof.
  exists (CRespOk (CBuffer [x61; x62])), (CLps [x02; x00; x00; x00; x02; x61; x62]), 1, [].
  eexists. split; [vm_compute; reflexivity|]. split; [vm_compute; reflexivity|].
  intros (w & A & B). destruct w; cbn in A, B; contradiction.
Qed.
Print Assumptions C33_any_recipient_refuted.

(** Two different transactions with the same bytes: the address spelled in lower case, a NUL in the memo. *)
Definition ex_tx' : tx :=
  {| tx_ver := VTestnet; tx_chain := ChTestnet; tx_auth := ASponsored (SMulti ex_multi) (SStd ex_std); tx_anchor := AnAny;
     tx_pcmode := PcDeny; tx_conds := ex_conds;
     tx_payload := PTransfer (CPrinStd (str "Spg2o8i04og2081040g2081040g208107p280ep")) 1000 (str "hi" ++ [x00]) |}.
Example C33_ex : tx_means ex_tx ex_wtx /\ tx_means ex_tx' ex_wtx /\ wf_tx ex_wtx /\ ex_tx <> ex_tx'
  /\ enc_tx ex_tx = enc_tx ex_tx'.
Proof.
  refine (conj ex_tx_means (conj _ (conj ex_wtx_wf (conj _ _)))).
  - destruct ex_tx_means as (V & C & A & N & P & Cs & _). refine (conj V (conj C (conj A (conj N (conj P (conj Cs _)))))).
    refine (conj _ (conj eq_refl _)).
    + cbn. apply c32_address_decode_iff. vm_compute. reflexivity.
    + split; [reflexivity | exists 31%nat; reflexivity].
  - discriminate.
  - vm_compute. reflexivity.
Qed.

(** ** C34 *)
(** The initial hash is SHA-512/256 of the encoding with fee, nonce and signatures cleared and the
    sponsor blanked, as SIP-005 prescribes. *)
Theorem C34_initial_hash_exact : forall t h, initial_hash t = Ok h <->
  exists w, tx_means t w /\ fits_body w /\ h = sha512_256 (ser_tx (clear_tx w)).
Proof. exact initial_hash_iff. Qed.
Print Assumptions C34_initial_hash_exact.

Theorem C34_ignores : forall t a, same_origin (tx_auth t) a -> initial_hash (tx_with_auth t a) = initial_hash t.
Proof. exact initial_hash_auth. Qed.
Print Assumptions C34_ignores.

Theorem C34_operations : forall E t,
  (forall f, initial_hash (tx_set_fee t f) = initial_hash t)
  /\ (forall n, initial_hash (tx_set_nonce t n) = initial_hash t)
  /\ (forall s, initial_hash (tx_with_auth t (fst (auth_set_sponsor (tx_auth t) s))) = initial_hash t)
  /\ (forall h sk, initial_hash (fst (sign_next_origin E t h sk)) = initial_hash t)
  /\ (forall h sk, initial_hash (fst (sign_next_sponsor E t h sk)) = initial_hash t)
  /\ (forall pk, initial_hash (fst (append_next_origin t pk)) = initial_hash t).
Proof.
  intros E t. exact (conj (hash_set_fee t) (conj (hash_set_nonce t) (conj (hash_set_sponsor t)
    (conj (hash_sign_origin E t) (conj (hash_sign_sponsor E t) (hash_append_origin t)))))).
Qed.
Print Assumptions C34_operations.

Theorem C34_commits : forall t u w v h, tx_means t w -> tx_means u v -> wf_tx w -> wf_tx v ->
  initial_hash t = Ok h -> initial_hash u = Ok h ->
  (same_body t u /\ same_origin (tx_auth t) (tx_auth u)) \/ collision (ser_tx (clear_tx w)) (ser_tx (clear_tx v)).
Proof. exact initial_hash_commits. Qed.
Print Assumptions C34_commits.

Example C34_ex : initial_hash ex_tx = initial_hash (tx_set_fee ex_tx 5) /\ tx_set_fee ex_tx 5 <> ex_tx
  /\ (exists h, initial_hash ex_tx = Ok h) /\ initial_hash ex_tx <> initial_hash ex_call.
Proof.
  split; [symmetry; apply hash_set_fee|]. split; [discriminate|].
  split; [eexists; vm_compute; reflexivity|]. vm_compute. discriminate.
Qed.

(** ** C35 *)
Theorem C35_message_commits : forall t u w v h k ty tz f g n m,
  tx_means t w -> tx_means u v -> wf_tx w -> wf_tx v ->
  initial_hash t = Ok h -> initial_hash u = Ok k -> f < 2 ^ 64 -> g < 2 ^ 64 -> n < 2 ^ 64 -> m < 2 ^ 64 ->
  presign_hash h ty f n = presign_hash k tz g m ->
  (same_body t u /\ same_origin (tx_auth t) (tx_auth u) /\ ty = tz /\ f = g /\ n = m)
  \/ collision (ser_tx (clear_tx w)) (ser_tx (clear_tx v))
  \/ collision (message_text h ty f n) (message_text k tz g m).
Proof. exact message_commits. Qed.
Print Assumptions C35_message_commits.

Theorem C35_message_exact : forall h typ fee nonce,
  presign_hash h typ fee nonce = sha512_256 (h ++ [typ] ++ big_endian 8 fee ++ big_endian 8 nonce).
Proof. exact presign_text. Qed.
Print Assumptions C35_message_exact.

Example C35_ex : exists h k, initial_hash ex_tx = Ok h /\ initial_hash ex_tx' = Ok k
  /\ presign_hash h x04 300 9 = presign_hash k x04 300 9 /\ presign_hash h x04 300 9 <> presign_hash k x05 300 9
  /\ presign_hash h x04 300 9 <> presign_hash k x04 9 300.
Proof.
  eexists _, _. split; [vm_compute; reflexivity|]. split; [vm_compute; reflexivity|].
  split; [vm_compute; reflexivity|]. split; vm_compute; discriminate.
Qed.

(** ** C46 *)
Theorem C46_set_fee : forall t f w, tx_means t w -> fits_tx w ->
  enc_tx (tx_set_fee t f) = Ok (ser_tx (on_origin (spend_fee f) w)).
Proof. exact set_fee_wire. Qed.
Print Assumptions C46_set_fee.

Theorem C46_set_nonce : forall t n w, tx_means t w -> fits_tx w ->
  enc_tx (tx_set_nonce t n) = Ok (ser_tx (on_origin (spend_nonce n) w)).
Proof. exact set_nonce_wire. Qed.
Print Assumptions C46_set_nonce.

Example C46_ex : tx_means ex_tx ex_wtx /\ fits_tx ex_wtx
  /\ on_origin (spend_fee 5) ex_wtx <> ex_wtx /\ w_payload (on_origin (spend_fee 5) ex_wtx) = w_payload ex_wtx.
Proof.
  refine (conj ex_tx_means (conj _ (conj _ eq_refl))); [|discriminate].
  apply (enc_means _ _ _ ex_tx_means ex_tx_encodes).
Qed.
