(** Property theorems C48-C51, C60: wallet, structs derived from tuples, node client. *)

From Coq Require Import Strings.String.
From Coq Require Import Lia ZifyBool ZifyNat ZifyN.
From Verif Require Import Base BaseFacts F64 Sha2 SpecText SpecAddr Hash C32 Clarity SpecWire SpecShow Tx SpecTx Signer Builder SpecSign
     SignFacts SignThms Wallet Derive Rpc SpecClient ClientThms PropsClarity PropsTx PropsSign.
Local Open Scope N_scope.

(** ** Samples *)

(** A toy key tree over the toy signature scheme: keys 1..250, children by addition, no child 5. *)
Definition toy_sk (x : N) : bytes := repeat x00 31 ++ [octet (1 + x mod 250)].
Definition toy_hd : hd :=
  {| xprv := N; hd_err := unit; derive_child := fun x i => if i =? 5 then inl tt else inr (x + i + 1);
     xpub_bytes := fun x => pubkey_of toy (toy_sk x); xprv_bytes := toy_sk; point_ok := fun b => Nat.eqb (length b) 33;
     from_mnemonic := fun p => match p with [] => inl tt | _ => inr (count p) end |}.
Lemma toy_sk_valid x : valid_key (toy_sk x).
Proof.
  assert (B : forall n, 0 < n < 256 -> Byte.to_N (octet n) = n).
  { intros n L. unfold octet. destruct (Byte.of_N (n mod 256)) as [b|] eqn:O.
    - apply Byte.to_of_N in O. rewrite N.mod_small in O by lia. exact O.
    - apply Byte.of_N_None_iff in O. rewrite N.mod_small in O by lia. lia. }
  assert (L : 0 < 1 + x mod 250 < 256) by (pose proof (N.mod_lt x 250); lia).
  split; [reflexivity|]. unfold toy_sk. set (b := octet (1 + x mod 250)).
  replace (scalar (repeat x00 31 ++ [b])) with (Byte.to_N b) by (unfold scalar; cbn; lia).
  unfold b. rewrite (B _ L). split; [lia|]. eapply N.lt_trans; [apply L | vm_compute; reflexivity].
Qed.
Lemma toy_hd_correct : hd_correct toy toy_hd.
Proof.
  split; intros x.
  - apply toy_sk_valid.
  - reflexivity.
  - change (Nat.eqb (length (pubkey_of toy (toy_sk x))) 33 = true). rewrite (key_length toy toy_correct _ (toy_sk_valid x)). reflexivity.
Qed.
Definition toy_account : account toy_hd := {| acc_ext := (6 : xprv toy_hd); acc_index := 0 |}.
Definition toy_wallet : wallet toy_hd := {| w_ext := (4 : xprv toy_hd); w_accounts := [] |}.
Definition ex_history : list (wop toy_hd) := [Look 0; Look 5; Store 3 toy_account; Look 3; Store 0 toy_account; Look 1].

(** ** C48 *)
Theorem C48_lookup : forall H phrase (w : wallet H) root l i, from_secret_key phrase = Ok w -> from_mnemonic H phrase = inr root ->
  snd (get_account (wrun w l) i) = looked_up root l i.
Proof. exact @wallet_cache. Qed.
Print Assumptions C48_lookup.

(** Which indices were looked up before does not matter. *)
Theorem C48_lookups_invisible : forall H phrase (w : wallet H) l l' i, from_secret_key phrase = Ok w ->
  filter is_store l = filter is_store l' -> snd (get_account (wrun w l) i) = snd (get_account (wrun w l') i).
Proof.
  intros H phrase w l l' i F E. destruct (from_mnemonic H phrase) as [e|root] eqn:M.
  - unfold from_secret_key in F. rewrite M in F. discriminate.
  - rewrite (wallet_cache phrase w root l i F M), (wallet_cache phrase w root l' i F M). unfold looked_up.
    rewrite <- (stored_filter l), <- (stored_filter l'), E. reflexivity.
Qed.
Print Assumptions C48_lookups_invisible.

Theorem C48_failure_harmless : forall H (w : wallet H) i,
  ((exists a, snd (get_account w i) = Ok a) \/ exists e, snd (get_account w i) = Err e)
  /\ forall e, snd (get_account w i) = Err e -> fst (get_account w i) = w.
Proof. intros H w i. split; [apply get_account_settled | apply failed_lookup]. Qed.
Print Assumptions C48_failure_harmless.

(** The root key never changes, and a phrase that is not accepted makes no wallet. *)
Theorem C48_root : forall H (w : wallet H) l phrase, w_ext (wrun w l) = w_ext w
  /\ (forall root, from_mnemonic H phrase = inr root -> @from_secret_key H phrase = Ok {| w_ext := root; w_accounts := [] |})
  /\ (forall e, from_mnemonic H phrase = inl e -> @from_secret_key H phrase = Err (WHd e)).
Proof.
  intros H w l phrase. split; [apply wallet_root|]. rewrite from_secret_key_cases. split; intros ? ->; reflexivity.
Qed.
Print Assumptions C48_root.

Example C48_ex : from_secret_key (str "seed") = Ok toy_wallet /\ from_mnemonic toy_hd (str "seed") = inr (4 : xprv toy_hd)
  /\ map (fun i => snd (get_account (wrun toy_wallet ex_history) i)) [0; 1; 2; 3; 5]
     = [Ok toy_account; Ok {| acc_ext := (6 : xprv toy_hd); acc_index := 1 |}; Ok {| acc_ext := (7 : xprv toy_hd); acc_index := 2 |};
        Ok toy_account; Err (WHd (tt : hd_err toy_hd))].
Proof. repeat split. Qed.

(** ** C49 *)
Theorem C49_address : forall H (a : account H) v,
  exists s, get_address a v = Ok s /\ address_text (hash20 (xpub_bytes H (acc_ext a))) (address_code v) s
    /\ c32_address_decode s = Ok (hash20 (xpub_bytes H (acc_ext a)), address_code v).
Proof. exact @account_address. Qed.
Print Assumptions C49_address.

Theorem C49_determines : forall H (a a' : account H) v v' s, get_address a v = Ok s -> get_address a' v' = Ok s ->
  v = v' /\ (xpub_bytes H (acc_ext a) = xpub_bytes H (acc_ext a')
             \/ clash hash20 (xpub_bytes H (acc_ext a)) (xpub_bytes H (acc_ext a'))).
Proof. exact @account_address_determines. Qed.
Print Assumptions C49_determines.

Example C49_ex : exists s, get_address toy_account TestnetP2PKH = Ok s /\ length s = 40%nat /\ firstn 2 s = str "ST".
Proof. eexists. split; [vm_compute; reflexivity|]. split; reflexivity. Qed.

(** ** C60: accounts and the transactions made with their keys *)
Theorem C60_account_keys : forall H E (a : account H), hd_correct E H ->
  exists sk, account_private_key a = Ok sk /\ valid_key sk /\ account_public_key a = Ok (pubkey_of E sk)
    /\ pubkey_of E sk = xpub_bytes H (acc_ext a).
Proof. exact @account_keys. Qed.
Print Assumptions C60_account_keys.

Theorem C60_wallet_keys : forall H E (w : wallet H), hd_correct E H ->
  exists sk, wallet_private_key w = Ok sk /\ valid_key sk /\ wallet_public_key w = Ok (pubkey_of E sk)
    /\ pubkey_of E sk = xpub_bytes H (w_ext w).
Proof. exact @wallet_keys. Qed.
Print Assumptions C60_wallet_keys.

(** Without any assumption on the key tree: keys of other shapes are refused, with the error of their kind. *)
Theorem C60_bad_keys : forall H (a : account H) (w : wallet H),
  (forall e, account_private_key a = Err e <-> ~ valid_key (xprv_bytes H (acc_ext a)) /\ e = WSecp SecpInvalidSecretKey)
  /\ (forall e, account_public_key a = Err e <-> point_ok H (xpub_bytes H (acc_ext a)) = false /\ e = WSecp SecpInvalidPublicKey)
  /\ (forall e, wallet_private_key w = Err e <-> ~ valid_key (xprv_bytes H (w_ext w)) /\ e = WSecp SecpInvalidSecretKey)
  /\ (forall e, wallet_public_key w = Err e <-> point_ok H (xpub_bytes H (w_ext w)) = false /\ e = WSecp SecpInvalidPublicKey).
Proof. exact @keys_refused. Qed.
Print Assumptions C60_bad_keys.

Theorem C60_transfer : forall H E (a : account H) v s sk b, hd_correct E H -> ecdsa_correct E ->
  get_address a v = Ok s -> account_private_key a = Ok sk -> st_sender b = sk -> st_sponsored b = false ->
  exists t c, @build_transfer unit E b = Ok t /\ origin_of t = SStd c /\ address_text (std_signer c) (address_code v) s
    /\ forall h, initial_hash t = Ok h -> exists t' g, tx_sign E t sk = Ok t' /\ same_but_signatures t t' /\ tx_verify_origin E t' = Ok g.
Proof. intros H. exact (@account_transfer H unit). Qed.
Print Assumptions C60_transfer.

Theorem C60_call : forall H E (a : account H) v s sk b t, hd_correct E H -> ecdsa_correct E ->
  get_address a v = Ok s -> account_private_key a = Ok sk -> cc_sender b = sk -> build_call E b = Ok t ->
  exists c, origin_of t = SStd c /\ address_text (std_signer c) (address_code v) s
    /\ forall h, initial_hash t = Ok h -> exists t' g, tx_sign E t sk = Ok t' /\ same_but_signatures t t' /\ tx_verify_origin E t' = Ok g.
Proof. exact @account_call. Qed.
Print Assumptions C60_call.

Definition ex_account_transfer : stx_transfer :=
  {| st_recipient := CPrinStd sample_addr; st_amount := 1000; st_sender := toy_sk 6; st_network := NetMainnet; st_fee := 180;
     st_nonce := 7; st_anchor := AnAny; st_memo := str "hi"; st_pcmode := PcDeny; st_conds := ex_conds; st_sponsored := false |}.
Example C60_ex : hd_correct toy toy_hd /\ ecdsa_correct toy /\ account_private_key toy_account = Ok (toy_sk 6)
  /\ (exists s, get_address toy_account MainnetP2PKH = Ok s)
  /\ exists t h, @build_transfer unit toy ex_account_transfer = Ok t /\ initial_hash t = Ok h.
Proof.
  refine (conj toy_hd_correct (conj toy_correct (conj _ (conj _ _)))).
  - vm_compute. reflexivity.
  - eexists. vm_compute. reflexivity.
  - eexists _, _. split; [vm_compute; reflexivity|]. vm_compute. reflexivity.
Qed.

(** ** C50 *)
Theorem C50_filled : forall s t fields xs, derive_fields s fields t = Ok xs <-> fills_all t fields xs.
Proof. exact derive_ok. Qed.
Print Assumptions C50_filled.

Theorem C50_refused : forall s t fields e, derive_fields s fields t = Err e <-> fails_all s t fields e.
Proof. exact derive_err. Qed.
Print Assumptions C50_refused.

Theorem C50_no_panic : forall s t fields, (exists xs, derive_fields s fields t = Ok xs) \/ exists e, derive_fields s fields t = Err e.
Proof. exact derive_settled. Qed.
Print Assumptions C50_no_panic.

(** Finding: a value of the wrong type under an optional integer is read as absent; so is any missing optional string,
    while a missing optional integer is an error. *)
Theorem C50_optional_mismatch : forall s k t v, under k t v ->
  ((forall z, v <> CSome (CInt z)) -> derive_fields s [(k, FOptI128)] t = Ok [VOptI None])
  /\ ((forall n, v <> CSome (CUInt n)) -> derive_fields s [(k, FOptU128)] t = Ok [VOptU None])
  /\ ((forall x, v <> CSome x) -> derive_fields s [(k, FOptString)] t = Ok [VOptS None]).
Proof.
  intros s k t v U. repeat split; intros N; apply derive_ok; cbn; (split; [|exact I]); eauto.
  intros x X. apply (N x). exact (under_fun _ _ _ _ U X).
Qed.
Print Assumptions C50_optional_mismatch.

Theorem C50_optional_missing : forall s k t, missing k t ->
  derive_fields s [(k, FOptString)] t = Ok [VOptS None]
  /\ derive_fields s [(k, FOptI128)] t = Err (DeExtract k s) /\ derive_fields s [(k, FOptU128)] t = Err (DeExtract k s).
Proof.
  intros s k t M. repeat split.
  - apply derive_ok. cbn. split; [|exact I]. intros v V. exact (under_missing _ _ _ V M).
  - apply derive_err. exists [], k, FOptI128, [], []. repeat split. apply fail_missing; [discriminate | exact M].
  - apply derive_err. exists [], k, FOptU128, [], []. repeat split. apply fail_missing; [discriminate | exact M].
Qed.
Print Assumptions C50_optional_missing.

(** Finding: a String field takes any value, and holds Clarity strings in their double quotes. *)
Theorem C50_strings : forall s k t v x, under k t v -> shows v x ->
  derive_fields s [(k, FString)] t = Ok [VString x]
  /\ (forall y, v = CAscii y -> x = x22 :: y ++ [x22]) /\ (forall y, v = CUtf8 y -> x = x75 :: x22 :: y ++ [x22]).
Proof.
  intros s k t v x U S. repeat split.
  - apply derive_ok. cbn. split; [eauto | exact I].
  - intros y ->. exact S.
  - intros y ->. exact S.
Qed.
Print Assumptions C50_strings.

Theorem C50_exact_types_refuted : exists s k t v, under k t v /\ v = CSome (CUInt 7)
  /\ derive_fields s [(k, FOptI128)] t = Ok [VOptI None] /\ derive_fields s [(k, FString)] t = Ok [VString (str "(some u7)")].
Proof.
  exists (str "S"), (str "a"), [(str "a", CSome (CUInt 7))], (CSome (CUInt 7)). split.
  - exists [], []. split; [reflexivity | intros []].
  - repeat split.
Qed.
Print Assumptions C50_exact_types_refuted.

Definition ex_shape : list (bytes * fty) :=
  [(str "id", FU128); (str "owner", FString); (str "data", FStruct (str "Inner") [(str "on", FBool); (str "raw", FVecU8)]);
   (str "limit", FOptU128); (str "res", FI128Resp); (str "tags", FVecString)].
Definition ex_tuple : entries :=
  [(str "data", CTuple [(str "on", CTrue); (str "raw", CBuffer [x01; x02])]); (str "id", CUInt 5); (str "limit", CSome (CUInt 9));
   (str "owner", CPrinStd sample_addr); (str "res", CRespOk (CInt (-3))); (str "tags", CList [CAscii (str "a"); CNone])].
Example C50_ex : derive_fields (str "Outer") ex_shape ex_tuple
    = Ok [VU128 5; VString sample_addr; VStruct [VBool true; VBytes [x01; x02]]; VOptU (Some 9); VI128 (-3);
          VStrings [str """a"""; str "none"]]
  /\ derive_fields (str "Outer") ex_shape (tl ex_tuple) = Err (DeExtract (str "data") (str "Outer"))
  /\ derive_fields (str "Outer") ex_shape ((str "data", CTuple [(str "on", CInt 1)]) :: tl ex_tuple) = Err (DeMatch (str "on") (str "Inner")).
Proof. repeat split. Qed.

(** ** C51 *)
Theorem C51_broadcast : forall http url t w, tx_means t w -> fits_tx w ->
  broadcast_result (http (post_bytes (url ++ str "/v2/transactions"%string) (ser_tx w))) (broadcast http url t).
Proof. exact broadcast_sends. Qed.
Print Assumptions C51_broadcast.

Theorem C51_estimate : forall http url t w, tx_means t w -> fits_tx w ->
  estimate_result (http (post_json (url ++ str "/v2/fees/transaction"%string) (fee_question w))) (estimate_fee http url t).
Proof. exact estimate_asks. Qed.
Print Assumptions C51_estimate.

Theorem C51_read_only : forall http url addr name fname args sender ws, Forall2 means args ws -> Forall (wall fits1) ws ->
  plain_result read_only_json
    (http (post_json (url ++ str "/v2/contracts/call-read/"%string ++ addr ++ str "/"%string ++ name ++ str "/"%string ++ fname)
             (call_question sender ws)))
    (read_only http url addr name fname args sender).
Proof. exact read_only_asks. Qed.
Print Assumptions C51_read_only.

Theorem C51_info : forall http url,
  plain_result info_json (http (get (url ++ str "/v2/info"%string))) (info http url).
Proof. exact info_result. Qed.
Print Assumptions C51_info.

Theorem C51_address : forall http url addr,
  plain_result address_json (http (get (url ++ str "/v2/accounts/"%string ++ addr))) (address_info_of http url addr).
Proof. exact address_result. Qed.
Print Assumptions C51_address.

(** What cannot be encoded is refused whatever the node would say. *)
Theorem C51_refused : forall t, (forall w, tx_means t w -> ~ fits_tx w) ->
  (exists e, forall http url, broadcast http url t = Err (RClarity e))
  /\ exists e, forall http url, estimate_fee http url t = Err (RClarity e).
Proof. intros t N. split; [apply broadcast_refuses | apply estimate_refuses]; exact N. Qed.
Print Assumptions C51_refused.
Theorem C51_call_refused : forall args, (forall ws, Forall2 means args ws -> ~ Forall (wall fits1) ws) ->
  exists e, forall http url addr name fname sender, read_only http url addr name fname args sender = Err (RClarity e).
Proof. exact read_only_refuses. Qed.
Print Assumptions C51_call_refused.

(** The results above are determined by the responses. *)
Theorem C51_determined :
  (forall o x y, broadcast_result o x -> broadcast_result o y -> x = y)
  /\ (forall o x y, estimate_result o x -> estimate_result o y -> x = y)
  /\ (forall o x y, plain_result read_only_json o x -> plain_result read_only_json o y -> x = y)
  /\ (forall o x y, plain_result info_json o x -> plain_result info_json o y -> x = y)
  /\ (forall o x y, plain_result address_json o x -> plain_result address_json o y -> x = y).
Proof. exact results_determined. Qed.
Print Assumptions C51_determined.

(** The text of a broadcast result. *)
Theorem C51_broadcast_text : forall r, broadcast_text r =
  match r with
  | BcOk id => id
  | BcErr e => str "message: "%string ++ be_error e ++ str ", reason: "%string ++ be_reason e
  end.
Proof. intros []; reflexivity. Qed.
Print Assumptions C51_broadcast_text.

Definition ex_http (rq : request) : outcome :=
  match rq_body rq with
  | BBytes b => if Nat.ltb (length b) 500 then OOk {| rs_text := Some (str """0xabc"""); rs_json := Some (JStr (str "0xabc")) |}
                else OStatus 400 {| rs_text := None;
                       rs_json := Some (JObj [(str "txid", JStr (str "00")); (str "error", JStr (str "rejected")); (str "x", JNull);
                                              (str "reason", JStr (str "NotEnoughFunds"))]) |}
  | BJson (JObj [(_, JStr _); (_, JInt n)]) =>
    OOk {| rs_text := None; rs_json := Some (JObj [(str "estimations", JArr [JObj [(str "fee_rate", JFloat (str "1.5"));
                                                                                  (str "fee", JInt n)]])]) |}
  | _ => OTransport
  end.
Example C51_ex : tx_means ex_tx ex_wtx /\ fits_tx ex_wtx
  /\ broadcast ex_http (str "http://n") ex_unsigned = Ok (BcOk (str """0xabc"""))
  /\ broadcast ex_http (str "http://n") ex_tx
     = Ok (BcErr {| be_error := str "rejected"; be_reason := str "NotEnoughFunds"; be_txid := str "00" |})
  /\ (exists n, estimate_fee ex_http (str "http://n") ex_tx = Ok (EsOk [{| fe_fee := n; fe_rate := Fin false (3 * 2 ^ 1073) |}]))
  /\ read_only ex_http (str "http://n") sample_addr (str "c") (str "f") [CUInt 1] sample_addr = Err (RUreq None).
Proof.
  refine (conj ex_tx_means (conj _ (conj _ (conj _ (conj _ _))))).
  - exact (proj1 (TxThms.enc_means _ _ _ ex_tx_means ex_tx_encodes)).
  - vm_compute. reflexivity.
  - vm_compute. reflexivity.
  - eexists. vm_compute. reflexivity.
  - vm_compute. reflexivity.
Qed.
