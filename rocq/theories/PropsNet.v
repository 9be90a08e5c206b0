(** Property theorems C72, C73: the addresses of the networks' nodes, and what a request asks for. *)

From Coq Require Import Strings.String.
From Coq Require Import Lia ZifyBool ZifyNat ZifyN.
From Verif Require Import Base BaseFacts Sha2 SpecText SpecAddr Hash C32 Clarity SpecWire Tx SpecTx Signer Builder SpecSign SignFacts SignThms AuthThms
     Wallet Derive Rpc SpecClient ClientThms PropsClarity PropsTx PropsSign PropsClient SpecNode NodeThms PropsNode SpecFlow FlowThms PropsFlow.
Local Open Scope N_scope.

(** ** C72 *)
(** The published node addresses. *)
Definition node_at (n : network) : bytes :=
  match n with
  | NetMainnet => str "https://api.mainnet.hiro.so"%string
  | NetTestnet => str "https://api.testnet.hiro.so"%string
  | NetMocknet => str "http://localhost:3999"%string
  end.

(** A client made from [base_url] of a network sends transactions to that network's node. *)
Theorem C72_mainnet : forall http t w, tx_means t w -> fits_tx w ->
  broadcast_result (http (post_bytes (str "https://api.mainnet.hiro.so/v2/transactions"%string) (ser_tx w)))
                   (broadcast http (net_url NetMainnet) t)
  /\ estimate_result (http (post_json (str "https://api.mainnet.hiro.so/v2/fees/transaction"%string) (fee_question w)))
                     (estimate_fee http (net_url NetMainnet) t)
  /\ plain_result info_json (http (get (str "https://api.mainnet.hiro.so/v2/info"%string))) (info http (net_url NetMainnet)).
Proof.
  intros http t w M F.
  exact (conj (broadcast_sends http (net_url NetMainnet) t w M F) (conj (estimate_asks http (net_url NetMainnet) t w M F)
              (info_result http (net_url NetMainnet)))).
Qed.
Print Assumptions C72_mainnet.
Theorem C72_testnet : forall http t w, tx_means t w -> fits_tx w ->
  broadcast_result (http (post_bytes (str "https://api.testnet.hiro.so/v2/transactions"%string) (ser_tx w)))
                   (broadcast http (net_url NetTestnet) t)
  /\ estimate_result (http (post_json (str "https://api.testnet.hiro.so/v2/fees/transaction"%string) (fee_question w)))
                     (estimate_fee http (net_url NetTestnet) t)
  /\ plain_result info_json (http (get (str "https://api.testnet.hiro.so/v2/info"%string))) (info http (net_url NetTestnet)).
Proof.
  intros http t w M F.
  exact (conj (broadcast_sends http (net_url NetTestnet) t w M F) (conj (estimate_asks http (net_url NetTestnet) t w M F)
              (info_result http (net_url NetTestnet)))).
Qed.
Print Assumptions C72_testnet.
Theorem C72_mocknet : forall http t w, tx_means t w -> fits_tx w ->
  broadcast_result (http (post_bytes (str "http://localhost:3999/v2/transactions"%string) (ser_tx w)))
                   (broadcast http (net_url NetMocknet) t)
  /\ estimate_result (http (post_json (str "http://localhost:3999/v2/fees/transaction"%string) (fee_question w)))
                     (estimate_fee http (net_url NetMocknet) t)
  /\ plain_result info_json (http (get (str "http://localhost:3999/v2/info"%string))) (info http (net_url NetMocknet)).
Proof.
  intros http t w M F.
  exact (conj (broadcast_sends http (net_url NetMocknet) t w M F) (conj (estimate_asks http (net_url NetMocknet) t w M F)
              (info_result http (net_url NetMocknet)))).
Qed.
Print Assumptions C72_mocknet.

(** Finding: nothing ties a transaction to the node it is sent to.  What a node of network [n] accepts is sent just the
    same to the node of any network [m], which accepts it exactly if both or neither are mainnet. *)
Theorem C72_any_node : forall E n m t e http, enc_tx t = Ok e -> node_accepts E n e ->
  broadcast_result (http (post_bytes (node_at m ++ str "/v2/transactions"%string) e)) (broadcast http (net_url m) t)
  /\ (node_accepts E m e <-> (n = NetMainnet <-> m = NetMainnet)).
Proof.
  intros E n m t e http En A. split.
  - apply C32_encode_exact in En. destruct En as (w & M & F & ->). replace (node_at m) with (net_url m) by (destruct m; reflexivity).
    apply broadcast_sends; assumption.
  - split.
    + intros B. exact (C65_one_network E _ n m A B).
    + intros I. destruct A as (v & X & V & N & G). exists v. split; [exact X|]. split; [exact V|]. split; [|exact G].
      destruct n, m; cbn in *; try exact N; exfalso; destruct I as [I J]; try discriminate (I eq_refl); discriminate (J eq_refl).
Qed.
Print Assumptions C72_any_node.

(** Finding: a transaction built for the mocknet is the one built for the testnet, so signing it for local tests makes a
    transaction that is good on the testnet. *)
Definition transfer_on (n : network) (b : stx_transfer) : stx_transfer :=
  {| st_recipient := st_recipient b; st_amount := st_amount b; st_sender := st_sender b; st_network := n; st_fee := st_fee b;
     st_nonce := st_nonce b; st_anchor := st_anchor b; st_memo := st_memo b; st_pcmode := st_pcmode b; st_conds := st_conds b;
     st_sponsored := st_sponsored b |}.
Definition call_on (n : network) (b : stx_call) : stx_call :=
  {| cc_address := cc_address b; cc_contract := cc_contract b; cc_fname := cc_fname b; cc_args := cc_args b; cc_sender := cc_sender b;
     cc_network := n; cc_fee := cc_fee b; cc_nonce := cc_nonce b; cc_anchor := cc_anchor b; cc_pcmode := cc_pcmode b;
     cc_conds := cc_conds b; cc_sponsored := cc_sponsored b |}.
Theorem C72_mocknet_is_testnet : forall E,
  (forall b, @build_transfer unit E (transfer_on NetMocknet b) = build_transfer E (transfer_on NetTestnet b))
  /\ (forall b, build_call E (call_on NetMocknet b) = build_call E (call_on NetTestnet b))
  /\ forall e, node_accepts E NetMocknet e <-> node_accepts E NetTestnet e.
Proof. intros E. split; [|split]; reflexivity. Qed.
Print Assumptions C72_mocknet_is_testnet.

(** Mainnet transactions differ from all others. *)
Theorem C72_mainnet_differs : forall E b n t t', n <> NetMainnet ->
  (@build_transfer unit E (transfer_on NetMainnet b) = Ok t -> @build_transfer unit E (transfer_on n b) = Ok t' ->
   tx_ver t <> tx_ver t' /\ tx_chain t <> tx_chain t')
  /\ node_at NetMainnet <> node_at n.
Proof.
  intros E b n t t' N. split.
  - rewrite !build_transfer_cases. cbn [st_sponsored transfer_on]. destruct (st_sponsored b); [discriminate|].
    intros A B. injection A as <-. injection B as <-. destruct n; [contradiction| |]; split; discriminate.
  - destruct n; [contradiction| |]; discriminate.
Qed.
Print Assumptions C72_mainnet_differs.

Example C72_ex : tx_means ex_tx ex_wtx /\ fits_tx ex_wtx
  /\ (exists t e, enc_tx t = Ok e /\ node_accepts toy NetMocknet e /\ node_accepts toy NetTestnet e /\ ~ node_accepts toy NetMainnet e).
Proof.
  split; [exact ex_tx_means|].
  split; [split; [split; [vm_compute; reflexivity | exact I] | apply wf_fits_body; exact ex_wtx_wf]|].
  destruct C65_ex as (P & A & M & W & N & _).
  assert (1 <= threshold (SMulti ex_2of3_m)) as T by (vm_compute; discriminate).
  assert (count ex_steps <= 16) as L by (vm_compute; discriminate).
  destruct (C65_signed toy NetMocknet _ _ _ _ toy_correct A P T L M W N) as (s & s' & e & _ & _ & En & G).
  exists (sg_tx s'), e. split; [exact En|]. split; [exact G|]. split.
  - apply C72_mocknet_is_testnet. exact G.
  - intros B. pose proof (C65_one_network _ _ _ _ G B) as [_ X]. discriminate (X eq_refl).
Qed.

(** ** C73 *)
(** No slash in a part of a path. *)
Definition segment (s : bytes) : Prop := ~ In x2f s.

Lemma segment_split : forall a a' b b', segment a -> segment a' -> a ++ x2f :: b = a' ++ x2f :: b' -> a = a' /\ b = b'.
Proof.
  induction a as [|x a IH]; intros [|x' a'] b b' S S' H; cbn in H.
  - injection H as ->. auto.
  - injection H as <- _. destruct S'. left. reflexivity.
  - injection H as -> _. destruct S. left. reflexivity.
  - injection H as -> H. destruct (IH a' b b') as [-> ->]; auto; intros X; [apply S | apply S']; right; exact X.
Qed.

(** Requests for different contracts, functions or accounts go to different addresses if the parts hold no slash. *)
Theorem C73_read_only : forall url addr name fname args sender addr' name' fname' args' sender' rq rq',
  segment addr -> segment name -> segment fname -> segment addr' -> segment name' -> segment fname' ->
  read_only_request url addr name fname args sender = Ok rq -> read_only_request url addr' name' fname' args' sender' = Ok rq' ->
  rq_url rq = rq_url rq' -> addr = addr' /\ name = name' /\ fname = fname'.
Proof.
  intros until rq'. intros A B C A' B' C' R R' U. unfold read_only_request in R, R'.
  destruct (map_err RClarity (hex_args args)); try discriminate R. destruct (map_err RClarity (hex_args args')); try discriminate R'.
  cbn [bind] in R, R'. injection R as <-. injection R' as <-. cbn [rq_url] in U. apply app_inv_head in U. injection U as U.
  apply segment_split in U; auto. destruct U as [-> U]. apply segment_split in U; auto.
Qed.
Print Assumptions C73_read_only.

Theorem C73_address : forall url a a', rq_url (address_request url a) = rq_url (address_request url a') -> a = a'.
Proof. intros url a a' U. cbn [rq_url address_request] in U. apply app_inv_head in U. injection U as U. exact U. Qed.
Print Assumptions C73_address.

(** Finding: parts are pasted into the address unescaped, so with a slash the same request can be for another contract, and
    an account request can be any request below /v2/accounts. *)
Theorem C73_refuted : exists addr name fname addr' name' fname', (addr, name, fname) <> (addr', name', fname')
  /\ forall http url args sender, read_only http url addr name fname args sender = read_only http url addr' name' fname' args sender.
Proof.
  exists (str "SP1"), (str "a/b"), (str "c"), (str "SP1/a"), (str "b"), (str "c"). split; [discriminate|].
  intros. unfold read_only, read_only_request. reflexivity.
Qed.
Print Assumptions C73_refuted.

Example C73_ex : segment (str "SP000") /\ segment (str "pox-4") /\ segment (str "get-info")
  /\ exists rq, read_only_request (net_url NetMainnet) (str "SP000") (str "pox-4") (str "get-info") [sample] (str "SP1") = Ok rq.
Proof.
  split; [|split; [|split]]; try (intros X; cbn in X; repeat (destruct X as [X|X]; [discriminate X|]); exact X).
  eexists. vm_compute. reflexivity.
Qed.
