(** Property theorems C66, C67: whole errands between an account and a node. *)

From Coq Require Import Strings.String.
From Verif Require Import Base BaseFacts Sha2 Hex SpecText SpecAddr Hash C32 Clarity SpecWire Tx SpecTx Signer Builder SpecSign SignFacts SignThms AuthThms
     Wallet Derive Rpc SpecClient ClientThms PropsClarity PropsTx PropsSign PropsClient SpecNode NodeThms SpecFlow FlowThms.
Local Open Scope N_scope.

(** ** C66 *)
(** A transfer from an account: what is estimated, signed and broadcast is the one transaction described, and a node of
    the network accepts it as coming from the account's address. *)
Theorem C66_transfer : forall H E (a : account H) sk b wcs to m, hd_correct E H -> ecdsa_correct E ->
  account_private_key a = Ok sk -> st_sender b = sk -> st_sponsored b = false ->
  conds_wire (st_conds b) wcs -> means (st_recipient b) to -> solid to -> memo_field (st_memo b) m ->
  st_amount b < 2 ^ 64 -> st_fee b < 2 ^ 64 -> st_nonce b < 2 ^ 64 ->
  exists t s s' sig, @build_transfer unit E b = Ok t /\ signer_new t = Ok s /\ succeeds E s [SignOrigin sk] s'
    /\ let w := signed_wire (st_network b) (hash20 (xpub_bytes H (acc_ext a))) (st_fee b) (st_nonce b) (st_anchor b) (st_pcmode b) wcs
                  (WpTransfer to (st_amount b) m) sig in
       node_accepts E (st_network b) (ser_tx w)
       /\ (forall http url, broadcast_result (http (post_bytes (url ++ str "/v2/transactions"%string) (ser_tx w)))
                                             (broadcast http url (sg_tx s')))
       /\ (forall http url, estimate_result (http (post_json (url ++ str "/v2/fees/transaction"%string) (fee_question w)))
                                            (estimate_fee http url t))
       /\ tx_hash (sg_tx s') = Ok (sha512_256 (ser_tx w))
       /\ forall v, exists x, get_address a v = Ok x /\ address_text (hash20 (xpub_bytes H (acc_ext a))) (address_code v) x.
Proof.
  intros H E a sk b wcs to m Hd C K S Sp Cw M So Me Am Fe No. eexists.
  assert (payload_means (PTransfer (st_recipient b) (st_amount b) (st_memo b)) (WpTransfer to (st_amount b) m)) as P
    by (split; [exact M | split; [reflexivity | exact Me]]).
  assert (wf_payload (WpTransfer to (st_amount b) m)) as W by (split; [exact So | split; [exact Am | apply Me]]).
  destruct (account_flow E a sk (st_network b) (st_fee b) (st_nonce b) (st_anchor b) (st_pcmode b) (st_conds b) _ wcs _ Hd C K Cw P W Fe No)
    as (s & s' & sig & Sn & Su & R).
  exists s, s', sig. split; [|split; [exact Sn | split; [exact Su | exact R]]]. rewrite build_transfer_cases, Sp, S. reflexivity.
Qed.
Print Assumptions C66_transfer.

(** The same for a contract call. *)
Theorem C66_call : forall H E (a : account H) sk b wcs h v args, hd_correct E H -> ecdsa_correct E ->
  account_private_key a = Ok sk -> cc_sender b = sk -> cc_sponsored b = false ->
  conds_wire (cc_conds b) wcs -> address_spelling h v (cc_address b) -> length h = 20%nat ->
  count (cc_contract b) <= 128 -> count (cc_fname b) <= 128 -> count args < 2 ^ 32 ->
  Forall2 means (cc_args b) args -> Forall solid args -> cc_fee b < 2 ^ 64 -> cc_nonce b < 2 ^ 64 ->
  exists t s s' sig, build_call E b = Ok t /\ signer_new t = Ok s /\ succeeds E s [SignOrigin sk] s'
    /\ let w := signed_wire (cc_network b) (hash20 (xpub_bytes H (acc_ext a))) (cc_fee b) (cc_nonce b) (cc_anchor b) (cc_pcmode b) wcs
                  (WpCall v h (cc_contract b) (cc_fname b) args) sig in
       node_accepts E (cc_network b) (ser_tx w)
       /\ (forall http url, broadcast_result (http (post_bytes (url ++ str "/v2/transactions"%string) (ser_tx w)))
                                             (broadcast http url (sg_tx s')))
       /\ (forall http url, estimate_result (http (post_json (url ++ str "/v2/fees/transaction"%string) (fee_question w)))
                                            (estimate_fee http url t))
       /\ tx_hash (sg_tx s') = Ok (sha512_256 (ser_tx w))
       /\ forall v, exists x, get_address a v = Ok x /\ address_text (hash20 (xpub_bytes H (acc_ext a))) (address_code v) x.
Proof.
  intros H E a sk b wcs h v args Hd C K S Sp Cw Ad L Lc Lf La M So Fe No. eexists.
  assert (payload_means (PCall {| addr_hash := h; addr_version := v |} (cc_contract b) (cc_fname b) (cc_args b))
            (WpCall v h (cc_contract b) (cc_fname b) args)) as P by (repeat split; exact M).
  assert (wf_payload (WpCall v h (cc_contract b) (cc_fname b) args)) as W by (repeat split; assumption).
  destruct (account_flow E a sk (cc_network b) (cc_fee b) (cc_nonce b) (cc_anchor b) (cc_pcmode b) (cc_conds b) _ wcs _ Hd C K Cw P W Fe No)
    as (s & s' & sig & Sn & Su & R).
  exists s, s', sig. split; [|split; [exact Sn | split; [exact Su | exact R]]]. rewrite <- S.
  exact (built_call E b h v Ad L Sp).
Qed.
Print Assumptions C66_call.

Definition ex_account_call : stx_call :=
  {| cc_address := sample_addr; cc_contract := str "abc"; cc_fname := str "f"; cc_args := [sample; CTrue]; cc_sender := toy_sk 6;
     cc_network := NetTestnet; cc_fee := 9; cc_nonce := 1; cc_anchor := AnStrict; cc_pcmode := PcAllow; cc_conds := ex_conds;
     cc_sponsored := false |}.
Example C66_ex : hd_correct toy toy_hd /\ ecdsa_correct toy /\ account_private_key toy_account = Ok (toy_sk 6)
  /\ conds_wire ex_conds ex_wconds /\ means (CPrinStd sample_addr) (WStd x16 key_hash) /\ solid (WStd x16 key_hash)
  /\ memo_field (str "hi") (str "hi" ++ repeat x00 32) /\ address_spelling key_hash x16 sample_addr
  /\ Forall2 means (cc_args ex_account_call) [sample_wire; WTrue] /\ Forall solid [sample_wire; WTrue].
Proof.
  destruct ex_tx_means as (_ & _ & _ & _ & _ & F & _ & _ & Me). destruct ex_wtx_wf as (_ & _ & Cn & Cf & So & _).
  destruct ex_call_means as (_ & _ & _ & _ & _ & _ & _ & _ & _ & _ & Ma). destruct ex_wcall_wf as (_ & _ & _ & _ & _ & _ & _ & _ & Sa).
  refine (conj toy_hd_correct (conj toy_correct (conj _ (conj (conj F (conj Cn Cf)) (conj ex_principal (conj So (conj Me (conj _ (conj Ma Sa))))))))).
  - vm_compute. reflexivity.
  - exact ex_principal.
Qed.

(** ** C67 *)
(** The result of a read-only call as a node writes it: it cannot be read as hexadecimal until the "0x" is removed, and is
    then read as the value. *)
Theorem C67_read_only : forall http url addr name fname args sender ws r j rw, Forall2 means args ws -> Forall (wall fits1) ws ->
  http (post_json (url ++ str "/v2/contracts/call-read/"%string ++ addr ++ str "/"%string ++ name ++ str "/"%string ++ fname)
          (call_question sender ws)) = OOk r ->
  rs_json r = Some j -> result_json j true (value_answer rw) -> proper rw ->
  read_only http url addr name fname args sender = Ok (ROk true (value_answer rw))
  /\ hex_to_bytes (value_answer rw) = Err HexBadChar
  /\ exists b c, hex_to_bytes (skipn 2 (value_answer rw)) = Ok b /\ decode_clarity_type b = Ok c /\ canonically_means c rw.
Proof.
  intros http url addr name fname args sender ws r j rw M F Hh J R P. split; [|].
  - pose proof (read_only_asks http url addr name fname args sender ws M F) as Q. rewrite Hh in Q.
    refine (proj1 (proj2 (proj2 results_determined)) (OOk r) _ _ Q _). left. exists j, (ROk true (value_answer rw)). auto.
  - destruct (answer_read rw P) as [A (c & B & D & G)]. split; [exact A|]. exists (wser rw), c. auto.
Qed.
Print Assumptions C67_read_only.

(** Finding: the id reported by [broadcast] is the text of the answer, quotation marks included; it is not the
    hexadecimal text of the transaction's hash. *)
Theorem C67_txid : forall http url t w r, tx_means t w -> fits_tx w ->
  http (post_bytes (url ++ str "/v2/transactions"%string) (ser_tx w)) = OOk r -> rs_text r = Some (txid_answer w) ->
  broadcast http url t = Ok (BcOk (txid_answer w))
  /\ exists h, tx_hash t = Ok h /\ txid_answer w = x22 :: bytes_to_hex h ++ [x22] /\ txid_answer w <> bytes_to_hex h
     /\ hex_to_bytes (txid_answer w) = Err HexBadChar.
Proof.
  intros http url t w r M F Hh T. split.
  - pose proof (broadcast_sends http url t w M F) as Q. rewrite Hh in Q. cbn [broadcast_result] in Q. unfold read_text in Q.
    rewrite T in Q. exact Q.
  - exists (sha512_256 (ser_tx w)). destruct (txid_answer_text w) as (A & B & D). split; [apply txid_iff; eauto|]. auto.
Qed.
Print Assumptions C67_txid.

Definition ex_value_http (rq : request) : outcome :=
  OOk {| rs_text := Some (txid_answer ex_wtx);
         rs_json := Some (JObj [(str "okay", JBool true); (str "result", JStr (value_answer sample_wire))]) |}.
Example C67_ex : (exists r, read_only ex_value_http (str "http://node") (str "SP000") (str "abc") (str "f") [sample] (str "SP1") = Ok r)
  /\ proper sample_wire
  /\ result_json (JObj [(str "okay", JBool true); (str "result", JStr (value_answer sample_wire))]) true (value_answer sample_wire)
  /\ tx_means ex_tx ex_wtx /\ fits_tx ex_wtx.
Proof.
  split; [eexists; vm_compute; reflexivity|]. split; [apply sample_proper|]. split.
  - left. eexists. split; [reflexivity|]. constructor; [|constructor; [|constructor]].
    + exists [], [(str "result", JStr (value_answer sample_wire))]. split; [reflexivity|]. split; [intros []|].
      intros [X|[]]. discriminate X.
    + exists [(str "okay", JBool true)], []. split; [reflexivity|]. split; [intros [X|[]]; discriminate X | intros []].
  - split; [exact ex_tx_means|]. split; [split; [vm_compute; reflexivity | exact I] | apply wf_fits_body; exact ex_wtx_wf].
Qed.
