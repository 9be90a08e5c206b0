(** Whole errands: proofs for C66 and C67. *)

From Coq Require Import Strings.String Lia ZifyBool ZifyNat ZifyN.
From Verif Require Import Base BaseFacts Sha2 Hex HexFacts SpecText SpecAddr Hash C32 Clarity SpecWire Tx SpecTx Signer Builder
     WireFacts ClarityShort ClarityThms TxWire TxFacts TxThms SpecSign SignFacts SignThms HistThms PlanThms AuthThms Wallet Rpc SpecClient ClientThms
     SpecBind BindThms LengthThms SpecNode NodeThms SpecFlow.
Local Open Scope N_scope.

Lemma unsigned_means E n sk fee nonce anchor mode conds p wcs wp : conds_wire conds wcs -> payload_means p wp ->
  tx_means (unsigned n (pubkey_of E sk) fee nonce anchor mode conds p)
           (signed_wire n (hash20 (pubkey_of E sk)) fee nonce anchor mode wcs wp (repeat x00 65)).
Proof. intros [F _] P. repeat split; try assumption; destruct n; reflexivity. Qed.

Lemma signed_wf n h fee nonce anchor mode conds p sig : Forall wf_cond conds -> count conds < 2 ^ 32 -> wf_payload p ->
  length h = 20%nat -> fee < 2 ^ 64 -> nonce < 2 ^ 64 -> length sig = 65%nat ->
  wf_tx (signed_wire n h fee nonce anchor mode conds p sig).
Proof.
  intros C L P H Fe No S. repeat split; auto.
  - destruct n; reflexivity.
  - left. reflexivity.
Qed.

Lemma hash20_length b : length (hash20 b) = 20%nat.
Proof. apply HashFacts.ripemd160_length. Qed.

Lemma unsigned_plan E n sk fee nonce anchor mode conds p : valid_key sk ->
  plan E (origin_of (unsigned n (pubkey_of E sk) fee nonce anchor mode conds p)) [Sign sk].
Proof. intros V. apply plan_single; [exact V | reflexivity | reflexivity]. Qed.

(** One key, from the unsigned transaction to the node. *)
Lemma unsigned_flow E n sk fee nonce anchor mode conds p wcs wp : ecdsa_correct E -> valid_key sk -> conds_wire conds wcs ->
  payload_means p wp -> wf_payload wp -> fee < 2 ^ 64 -> nonce < 2 ^ 64 ->
  let t := unsigned n (pubkey_of E sk) fee nonce anchor mode conds p in
  exists s s' sig, signer_new t = Ok s /\ succeeds E s [SignOrigin sk] s'
    /\ let w := signed_wire n (hash20 (pubkey_of E sk)) fee nonce anchor mode wcs wp sig in
       tx_means (sg_tx s') w /\ wf_tx w /\ node_accepts E n (ser_tx w)
       /\ count (ser_tx w) = count (ser_tx (signed_wire n (hash20 (pubkey_of E sk)) fee nonce anchor mode wcs wp (repeat x00 65))).
Proof.
  intros C V Cw P Wp Fe No t. pose proof (unsigned_means E n sk fee nonce anchor mode conds p wcs wp Cw P) as M. fold t in M.
  destruct Cw as (Cm & Cl & Cf).
  assert (wf_tx (signed_wire n (hash20 (pubkey_of E sk)) fee nonce anchor mode wcs wp (repeat x00 65))) as W
    by (apply signed_wf; auto using hash20_length).
  assert (1 <= threshold (origin_of t)) as T1 by (cbn; lia). assert (count [Sign sk] <= 16) as T2 by (cbn; lia).
  assert (net_ids n = (tx_ver t, tx_chain t)) as Ne by (destruct n; reflexivity).
  destruct (plan_accepted E n t (origin_of t) [Sign sk] _ C eq_refl (unsigned_plan E n sk fee nonce anchor mode conds p V) T1 T2 M W Ne)
    as (s & s' & e & Sn & Su & En & Ac).
  cbn [map step_op] in Su. pose proof (succeeds_all _ _ _ _ Su) as Pa. pose proof Sn as Sn'. apply signer_new_ok in Sn'.
  destruct Sn' as (h & _ & Es). assert (sg_tx s = t) as Et by (rewrite Es; reflexivity). clear Es.
  pose proof (history_same E [SignOrigin sk] s) as Sa. rewrite Pa, Et in Sa.
  assert (typed_tx (sg_tx s')) as [Ty _].
  { rewrite <- Pa. apply history_typed; [|repeat constructor; exact V]. rewrite Et. split; [reflexivity | discriminate]. }
  pose proof (same_means _ _ _ Sa M) as Mu.
  destruct Sa as (_ & _ & _ & _ & _ & _ & Sa). cbn [t unsigned tx_auth] in Sa. unfold origin_of in Ty.
  destruct (tx_auth (sg_tx s')) as [[c|m]|] eqn:A; try (exfalso; apply Sa). cbn [typed] in Ty.
  destruct Sa as [[I1 I2] [I3 I4]]. cbn [std_mode std_signer fee_of nonce_of std_fee std_nonce] in I1, I2, I3, I4.
  exists s, s', (std_sig c). split; [exact Sn|]. split; [exact Su|]. cbv zeta.
  set (w := signed_wire n (hash20 (pubkey_of E sk)) fee nonce anchor mode wcs wp (std_sig c)).
  assert (tx_means (sg_tx s') w) as Mw.
  { cbn [auth_wire spend_wire] in Mu. rewrite <- I1, <- I2, <- I3, <- I4 in Mu. exact Mu. }
  assert (wf_tx w) as Ww by (apply signed_wf; auto using hash20_length).
  split; [exact Mw|]. split; [exact Ww|]. split.
  - assert (enc_tx (sg_tx s') = Ok (ser_tx w)) as X.
    { apply tx_iff. exists w. split; [exact Mw|]. split; [|reflexivity]. split; [exact I | apply (wf_fits_body w Ww)]. }
    rewrite X in En. injection En as <-. exact Ac.
  - unfold w, signed_wire, ser_tx. cbn [w_version w_chain w_auth w_anchor w_pcmode w_conds w_payload ser_auth ser_spend].
    repeat rewrite ?count_cons, ?count_app. assert (count (std_sig c) = count (repeat x00 65)) as -> by (unfold count; rewrite Ty; reflexivity).
    reflexivity.
Qed.

Lemma account_flow {H} E (a : account H) sk n fee nonce anchor mode conds p wcs wp : hd_correct E H -> ecdsa_correct E ->
  account_private_key a = Ok sk -> conds_wire conds wcs -> payload_means p wp -> wf_payload wp -> fee < 2 ^ 64 -> nonce < 2 ^ 64 ->
  let t := unsigned n (pubkey_of E sk) fee nonce anchor mode conds p in
  exists s s' sig, signer_new t = Ok s /\ succeeds E s [SignOrigin sk] s'
    /\ let w := signed_wire n (hash20 (xpub_bytes H (acc_ext a))) fee nonce anchor mode wcs wp sig in
       node_accepts E n (ser_tx w)
       /\ (forall http url, broadcast_result (http (post_bytes (url ++ str "/v2/transactions"%string) (ser_tx w)))
                                             (broadcast http url (sg_tx s')))
       /\ (forall http url, estimate_result (http (post_json (url ++ str "/v2/fees/transaction"%string) (fee_question w)))
                                            (estimate_fee http url t))
       /\ tx_hash (sg_tx s') = Ok (sha512_256 (ser_tx w))
       /\ forall v, exists x, get_address a v = Ok x /\ address_text (hash20 (xpub_bytes H (acc_ext a))) (address_code v) x.
Proof.
  intros Hd C K Cw P Wp Fe No t. destruct (account_keys E a Hd) as (sk' & K' & V & _ & Pub). rewrite K in K'. injection K' as <-.
  destruct (unsigned_flow E n sk fee nonce anchor mode conds p wcs wp C V Cw P Wp Fe No) as (s & s' & sig & Sn & Su & M & W & Ac & L).
  exists s, s', sig. split; [exact Sn|]. split; [exact Su|]. cbv zeta in *. rewrite <- Pub.
  set (w := signed_wire n (hash20 (pubkey_of E sk)) fee nonce anchor mode wcs wp sig) in *.
  assert (fits_tx w) as F by (split; [exact I | apply (wf_fits_body w W)]).
  split; [exact Ac|]. split; [intros; apply broadcast_sends; assumption|]. split; [|split].
  - intros http url. pose proof (unsigned_means E n sk fee nonce anchor mode conds p wcs wp Cw P) as M0. fold t in M0.
    assert (fee_question w = fee_question (signed_wire n (hash20 (pubkey_of E sk)) fee nonce anchor mode wcs wp (repeat x00 65))) as ->.
    { unfold fee_question. rewrite L. reflexivity. }
    apply estimate_asks; [exact M0|]. split; [exact I | apply (wf_fits_body w W)].
  - apply txid_iff. exists w. auto.
  - intros v. destruct (account_address a v) as (x & X & T & _). rewrite Pub. eauto.
Qed.

(** ** Answers *)

Lemma hex_text_read b : hex_to_bytes (hex_text b) = Ok b.
Proof. rewrite <- bytes_to_hex_text. apply hex_roundtrip. Qed.

Lemma hex_text_length b : length (hex_text b) = (2 * length b)%nat.
Proof. induction b as [|x b IH]; [reflexivity|]. cbn [hex_text flat_map app length]. fold (hex_text b). rewrite IH. lia. Qed.

(** A value read from an answer, and the prefix that has to go first. *)
Lemma answer_read w : proper w -> hex_to_bytes (value_answer w) = Err HexBadChar
  /\ exists c, hex_to_bytes (skipn 2 (value_answer w)) = Ok (wser w) /\ decode_clarity_type (wser w) = Ok c /\ canonically_means c w.
Proof.
  intros P. split.
  - apply hex_decode_exact.
    + unfold value_answer. rewrite app_length, hex_text_length. change (length (str "0x")) with 2%nat.
      replace (2 + 2 * length (wser w))%nat with (2 * (1 + length (wser w)))%nat by lia. rewrite Nat.even_mul. reflexivity.
    + intros F. inversion F as [|? ? _ F']. inversion F' as [|? ? X _]. revert X. clear. cbv. intuition discriminate.
  - destruct (canonical_exists w) as [c M]; [apply P|]. exists c. split; [apply hex_text_read|]. split; [|exact M].
    rewrite <- (app_nil_r (wser w)). apply decode_at; [apply proper_decodable; exact P | exact M].
Qed.

Lemma txid_answer_text w : let h := sha512_256 (ser_tx w) in
  txid_answer w = x22 :: bytes_to_hex h ++ [x22] /\ txid_answer w <> bytes_to_hex h /\ hex_to_bytes (txid_answer w) = Err HexBadChar.
Proof.
  cbv zeta. set (h := sha512_256 (ser_tx w)). rewrite bytes_to_hex_text. split; [reflexivity|]. unfold txid_answer. fold h. split.
  - intros X. apply (f_equal (@length byte)) in X. cbn [length] in X. rewrite app_length in X. cbn in X. lia.
  - apply hex_decode_exact.
    + cbn [length]. rewrite app_length, hex_text_length. cbn [length].
      replace (S (2 * length h + 1))%nat with (2 * (1 + length h))%nat by lia. rewrite Nat.even_mul. reflexivity.
    + intros F. inversion F as [|? ? X _]. revert X. clear. cbv. intuition discriminate.
Qed.

Lemma built_call E b h v : address_spelling h v (cc_address b) -> length h = 20%nat -> cc_sponsored b = false ->
  build_call E b = Ok (unsigned (cc_network b) (pubkey_of E (cc_sender b)) (cc_fee b) (cc_nonce b) (cc_anchor b) (cc_pcmode b) (cc_conds b)
                         (PCall {| addr_hash := h; addr_version := v |} (cc_contract b) (cc_fname b) (cc_args b))).
Proof.
  intros A L S. destruct (build_call_cases E b) as [(h' & v' & A' & _ & X)|[(h' & v' & A' & L' & _)|[N _]]].
  - rewrite S in X. rewrite X. assert (h = h' /\ v = v') as [<- <-] by (eapply address_spelling_fun; eassumption). reflexivity.
  - assert (h = h' /\ v = v') as [<- <-] by (eapply address_spelling_fun; eassumption). contradiction.
  - exfalso. exact (N _ _ A).
Qed.
