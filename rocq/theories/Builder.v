(** Model of stacks/src/transaction/builder.rs and the [Network] types of network.rs. *)

From Coq Require Import Strings.String.
From Verif Require Import Base Hash C32 Clarity Tx.
Local Open Scope N_scope.

(** network.rs:44-63: the three networks (network.rs:33-40 [Network]). *)
Inductive network := NetMainnet | NetTestnet | NetMocknet.
Definition net_version (n : network) : tx_version :=
  match n with NetMainnet => VMainnet | NetTestnet => VTestnet | NetMocknet => VTestnet end.
Definition net_chain (n : network) : chain_id :=
  match n with NetMainnet => ChMainnet | NetTestnet => ChTestnet | NetMocknet => ChTestnet end.
(** network.rs:13-17, 89-91 [base_url]. *)
Definition net_url (n : network) : bytes :=
  match n with
  | NetMainnet => str "https://api.mainnet.hiro.so"%string
  | NetTestnet => str "https://api.testnet.hiro.so"%string
  | NetMocknet => str "http://localhost:3999"%string
  end.

(** builder.rs:29-73 [STXTokenTransfer]; [sender] is the 32-byte secret key. *)
Record stx_transfer := {
  st_recipient : cval; st_amount : N; st_sender : bytes; st_network : network; st_fee : N;
  st_nonce : N; st_anchor : anchor_mode; st_memo : bytes; st_pcmode : pc_mode;
  st_conds : list condition; st_sponsored : bool }.

(** builder.rs:28-73: the typed builder with only the required fields set. *)
Definition stx_transfer_default (recipient : cval) (amount : N) (sender : bytes) (net : network)
  : stx_transfer :=
  {| st_recipient := recipient; st_amount := amount; st_sender := sender; st_network := net;
     st_fee := 0; st_nonce := 0; st_anchor := AnAny; st_memo := []; st_pcmode := PcAllow;
     st_conds := []; st_sponsored := false |}.

(** builder.rs:81-101 [STXTokenTransfer::transaction]. *)
Definition build_transfer {X} (E : ecdsa) (b : stx_transfer) : res X tx :=
  let pk := pubkey_of E (st_sender b) in
  let pl := PTransfer (st_recipient b) (st_amount b) (st_memo b) in
  let* c := std_new pk (st_fee b) (st_nonce b) P2PKH in
  if st_sponsored b then Panic PUnimplemented
  else Ok {| tx_ver := net_version (st_network b); tx_chain := net_chain (st_network b);
             tx_auth := AStandard (SStd c); tx_anchor := st_anchor b; tx_pcmode := st_pcmode b;
             tx_conds := st_conds b; tx_payload := pl |}.

(** builder.rs:105-150 [STXContractCall]. *)
Record stx_call := {
  cc_address : bytes; cc_contract : bytes; cc_fname : bytes; cc_args : list cval;
  cc_sender : bytes; cc_network : network; cc_fee : N; cc_nonce : N; cc_anchor : anchor_mode;
  cc_pcmode : pc_mode; cc_conds : list condition; cc_sponsored : bool }.

(** builder.rs:104-150: the typed builder with only the required fields set. *)
Definition stx_call_default (addr contract fname : bytes) (args : list cval) (sender : bytes)
           (net : network) : stx_call :=
  {| cc_address := addr; cc_contract := contract; cc_fname := fname; cc_args := args;
     cc_sender := sender; cc_network := net; cc_fee := 0; cc_nonce := 0; cc_anchor := AnAny;
     cc_pcmode := PcAllow; cc_conds := []; cc_sponsored := false |}.

(** builder.rs:157-181 [STXContractCall::transaction]. *)
Definition build_call (E : ecdsa) (b : stx_call) : res cl_err tx :=
  let pk := pubkey_of E (cc_sender b) in
  let* addr := map_err ClC32 (address_from_str (cc_address b)) in
  let pl := PCall addr (cc_contract b) (cc_fname b) (cc_args b) in
  let* c := std_new pk (cc_fee b) (cc_nonce b) P2PKH in
  if cc_sponsored b then Panic PUnimplemented
  else Ok {| tx_ver := net_version (cc_network b); tx_chain := net_chain (cc_network b);
             tx_auth := AStandard (SStd c); tx_anchor := cc_anchor b; tx_pcmode := cc_pcmode b;
             tx_conds := cc_conds b; tx_payload := pl |}.
