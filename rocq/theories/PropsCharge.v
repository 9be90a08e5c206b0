(** Property theorems C74: the address a transaction spends from. *)

From Coq Require Import Strings.String.
From Coq Require Import Lia ZifyBool ZifyNat ZifyN.
From Verif Require Import Base BaseFacts Sha2 HashFacts Hex SpecText SpecAddr AddrFacts Hash C32 Clarity SpecWire Tx SpecTx Signer Builder SpecSign SignFacts
     SignThms AuthThms Wallet Derive Rpc SpecClient ClientThms PropsClarity PropsTx PropsSign PropsClient SpecNode NodeThms PropsNode SpecFlow FlowThms
     PropsFlow SpecCharge.
Local Open Scope N_scope.

Lemma address_text_determines h v h' v' s : address_text h v s -> address_text h' v' s -> h = h' /\ v = v'.
Proof.
  intros A B. apply address_text_spelling, c32_address_decode_iff in A, B. rewrite A in B. injection B as -> ->. auto.
Qed.

Lemma get_address_iff {H} (a : account H) v s :
  get_address a v = Ok s <-> address_text (hash20 (xpub_bytes H (acc_ext a))) (address_code v) s.
Proof.
  destruct (C49_address H a v) as (x & G & T & _). split.
  - intros X. rewrite G in X. injection X as <-. exact T.
  - intros X. rewrite (address_text_unique _ _ _ _ X T). exact G.
Qed.

Lemma script_length m ks : m < 2 ^ 16 -> Forall (fun k => length k = 33%nat) ks -> length (node_script m ks) <> 33%nat.
Proof.
  intros M F L. unfold node_script in L. rewrite !app_length in L. cbn [length] in L.
  assert (P : forall n, (1 <= length (push_number n) <= 4)%nat).
  { intros n. unfold push_number. repeat (destruct (_ : bool); [cbn; lia|]). cbn. lia. }
  pose proof (P m). pose proof (P (count ks)).
  destruct ks as [|k ks].
  - cbn in L. lia.
  - inversion F. subst. cbn [flat_map app length] in L. rewrite !app_length in L. lia.
Qed.

Lemma walk_lengths E typ fee nonce h fs ks n h' : ecdsa_correct E -> Forall wf_field fs -> walk E typ fee nonce h fs ks n h' ->
  Forall (fun k => length k = 33%nat) ks.
Proof.
  intros C F W. induction W as [|h pk fs ks n h' _ IH|h sig pk fs ks n h' R _ IH]; [constructor| |]; inversion F; subst.
  - constructor; auto.
  - constructor; [|auto]. destruct R as (r & _ & _ & R). exact (recover_length E C _ _ _ R).
Qed.

Lemma spend_opens E typ h c h' : node_spend E typ h c h' -> exists y, opens E typ h c y /\ signer_of c = hash20 y.
Proof.
  intros S. destruct S as [mode signer nonce fee sig pk R K|mode signer nonce fee fields required ks h' W K].
  - destruct mode; try discriminate K; injection K as <-; eexists; split; try reflexivity; constructor; exact R.
  - destruct mode; try discriminate K; injection K as <-; eexists; split; try reflexivity; econstructor; exact W.
Qed.

Lemma auth_opens E h w : node_auth E h (w_auth w) -> exists y, opens E x04 h (worigin w) y /\ signer_of (worigin w) = hash20 y.
Proof.
  unfold worigin. destruct (w_auth w); cbn; [intros (h' & S) | intros (h1 & h2 & S & _)]; exact (spend_opens _ _ _ _ _ S).
Qed.

(** ** C74 *)
(** A transaction built and signed with an account's key spends from the account's single-signature address of the
    network, and from no other. *)
Theorem C74_account : forall H E (a : account H) sk n fee nonce anchor mode conds p wcs wp, hd_correct E H -> ecdsa_correct E ->
  account_private_key a = Ok sk -> conds_wire conds wcs -> payload_means p wp -> wf_payload wp -> fee < 2 ^ 64 -> nonce < 2 ^ 64 ->
  exists s s' w, signer_new (unsigned n (pubkey_of E sk) fee nonce anchor mode conds p) = Ok s /\ succeeds E s [SignOrigin sk] s'
    /\ enc_tx (sg_tx s') = Ok (ser_tx w) /\ forall x, charges E n w x <-> get_address a (single_version n) = Ok x.
Proof.
  intros H E a sk n fee nonce anchor mode conds p wcs wp Hd C K Cw P Wp Fe No.
  destruct (account_keys E a Hd) as (sk' & K' & V & _ & Pub). rewrite K in K'. injection K' as <-.
  destruct (unsigned_flow E n sk fee nonce anchor mode conds p wcs wp C V Cw P Wp Fe No) as (s & s' & sig & Sn & Su & R).
  cbv zeta in R. rewrite Pub in R. set (w := signed_wire _ _ _ _ _ _ _ _ _) in R. destruct R as (M & W & Ac & _).
  exists s, s', w. split; [exact Sn|]. split; [exact Su|]. split.
  { apply C32_encode_exact. exists w. split; [exact M|]. split; [|reflexivity]. split; [exact I|]. apply (wf_fits_body w W). }
  intros x. rewrite get_address_iff. unfold charges. split.
  - intros (_ & _ & _ & T). destruct n; exact T.
  - intros T. destruct Ac as (v & X & Vw & N & G). assert (Q : ser_tx w ++ [] = ser_tx v ++ []) by (rewrite !app_nil_r; exact X).
    destruct (C32_unique_reading w v [] [] W Vw Q) as [Ev _]. rewrite <- Ev in N, G.
    split; [exact W|]. split; [exact N|]. split; [exact G|]. destruct n; exact T.
Qed.
Print Assumptions C74_account.

(** Whoever spends from that address shows the account's key, or another one with the same HASH-160. *)
Theorem C74_only_owner : forall H E (a : account H) n w s, get_address a (single_version n) = Ok s -> charges E n w s ->
  exists nonce fee sig pk, worigin w = WsSingle x00 (hash20 (xpub_bytes H (acc_ext a))) nonce fee sig
    /\ recovers E (digest (sha512_256 (ser_tx (clear_tx w))) x04 fee nonce) sig pk
    /\ (pk = xpub_bytes H (acc_ext a) \/ clash hash20 pk (xpub_bytes H (acc_ext a))).
Proof.
  intros H E a n w s G (W & N & A & T). apply get_address_iff in G. destruct (address_text_determines _ _ _ _ _ G T) as [Sg V].
  apply auth_opens in A. destruct A as (y & O & Y). destruct (worigin w) as [mode signer nonce fee sig|mode signer nonce fee fields required];
    cbn [signer_of mode_of] in *; subst signer.
  - inversion O; subst.
    + exists nonce, fee, sig, y. split; [congruence|]. split; [assumption|]. destruct (bytes_dec y (xpub_bytes H (acc_ext a))); [auto|].
      right. split; [assumption|congruence].
    + destruct n; discriminate V.
  - inversion O; subst; destruct n; discriminate V.
Qed.
Print Assumptions C74_only_owner.

(** Finding: [get_address] also gives the hash of the account's key under the multi-signature versions.  Nothing can be
    spent from such an address, on any network and by anyone, unless HASH-160 collides on the key and on the script or
    witness program shown. *)
Theorem C74_multi_version_lost : forall H E (a : account H) v n w s, hd_correct E H -> ecdsa_correct E ->
  v = MainnetP2SH \/ v = TestnetP2SH -> get_address a v = Ok s -> charges E n w s ->
  exists y, opens E x04 (sha512_256 (ser_tx (clear_tx w))) (worigin w) y /\ clash hash20 y (xpub_bytes H (acc_ext a)).
Proof.
  intros H E a v n w s Hd C Hv G (W & N & A & T). apply get_address_iff in G. destruct (address_text_determines _ _ _ _ _ G T) as [Sg V].
  apply auth_opens in A. destruct A as (y & O & Y). exists y. split; [exact O|].
  split; [|congruence]. intros ->.
  assert (L : length (xpub_bytes H (acc_ext a)) = 33%nat).
  { rewrite <- (hd_pub E H Hd). apply (key_length E C), (hd_key E H Hd). }
  assert (Wo : wf_spend (worigin w)) by (destruct W as (_ & W & _); unfold worigin; destruct (w_auth w); [exact W | apply W]).
  inversion O as [signer nonce fee sig pk R E1 E2|signer nonce fee sig pk R E1 E2|signer nonce fee fields required ks h' Wk E1 E2
                 |signer nonce fee fields required ks h' Wk E1 E2]; rewrite <- E1 in *; cbn [mode_of signer_of] in *.
  - destruct Hv; subst v; destruct n; discriminate V.
  - rewrite <- E2 in L. cbn [length] in L. rewrite hash20_length in L. discriminate L.
  - rewrite <- E2 in L. apply script_length in L; [exact L| |]; [apply Wo|]. eapply walk_lengths; [exact C | apply Wo | exact Wk].
  - rewrite <- E2 in L. cbn [length] in L. rewrite sha256_length in L. discriminate L.
Qed.
Print Assumptions C74_multi_version_lost.

Lemma charged_single n m : In (mode_code m) [x00; x02] ->
  charged_version n (mode_code m) = address_code (match m with P2PKH => single_version n | _ => multi_version n end).
Proof. intros W. destruct m, n; try reflexivity; exfalso; destruct W as [Y|[Y|[]]]; discriminate Y. Qed.
Lemma charged_multi n m : In (mode_code m) [x01; x03] -> charged_version n (mode_code m) = address_code (multi_version n).
Proof. intros W. destruct m, n; try reflexivity; exfalso; destruct W as [Y|[Y|[]]]; discriminate Y. Qed.

(** In general: the version follows from network and hash mode, the hash is the declared signer. *)
Theorem C74_exact : forall E n t w x, tx_means t w -> wf_tx w -> node_accepts E n (ser_tx w) ->
  (charges E n w x <->
   match origin_of t with
   | SStd c => c32_address (std_signer c) (address_code (match std_mode c with P2PKH => single_version n | _ => multi_version n end)) = Ok x
   | SMulti c => c32_address (ms_signer c) (address_code (multi_version n)) = Ok x
   end).
Proof.
  intros E n t w x M W (v & X & V & N & G). assert (Q : ser_tx w ++ [] = ser_tx v ++ []) by (rewrite !app_nil_r; exact X).
  destruct (C32_unique_reading w v [] [] W V Q) as [Ev _]. rewrite <- Ev in N, G. clear v X V Q Ev.
  assert (K : forall h v, c32_address h (address_code v) = Ok x <-> address_text h (address_code v) x).
  { intros h u. destruct (c32_address_ok h (address_code u)) as (y & Y & T & _); [destruct u; cbn; tauto|]. split; intros Z.
    - rewrite Y in Z. injection Z as <-. exact T.
    - rewrite (address_text_unique _ _ _ _ Z T). exact Y. }
  assert (O : worigin w = spend_wire (origin_of t)).
  { destruct M as (_ & _ & A & _). unfold worigin, origin_of. destruct (tx_auth t); rewrite A; reflexivity. }
  unfold charges. rewrite O. destruct W as (Wc & Wa & Wr).
  assert (Wo : wf_spend (spend_wire (origin_of t))) by (rewrite <- O; unfold worigin; destruct (w_auth w); [exact Wa | apply Wa]).
  destruct (origin_of t) as [c|c]; rewrite K; cbn [spend_wire mode_of signer_of]; destruct Wo as (Wm & _).
  - rewrite (charged_single n (std_mode c) Wm). split; [intros (_ & _ & _ & T); exact T | intros T; exact (conj (conj Wc (conj Wa Wr)) (conj N (conj G T)))].
  - rewrite (charged_multi n (ms_mode c) Wm). split; [intros (_ & _ & _ & T); exact T | intros T; exact (conj (conj Wc (conj Wa Wr)) (conj N (conj G T)))].
Qed.
Print Assumptions C74_exact.

Example C74_ex : hd_correct toy toy_hd /\ ecdsa_correct toy /\ account_private_key toy_account = Ok (toy_sk 6)
  /\ (exists w x, charges toy NetMainnet w x /\ get_address toy_account MainnetP2PKH = Ok x)
  /\ (exists x, get_address toy_account MainnetP2SH = Ok x /\ firstn 2 x = str "SM").
Proof.
  destruct C66_ex as (Hd & C & K & Cw & M & So & Me & _). split; [exact Hd|]. split; [exact C|]. split; [exact K|]. split.
  - assert (payload_means (PTransfer (CPrinStd sample_addr) 9 (str "hi")) (WpTransfer (WStd x16 key_hash) 9 (str "hi" ++ repeat x00 32))) as P
      by (split; [exact M | split; [reflexivity | exact Me]]).
    assert (wf_payload (WpTransfer (WStd x16 key_hash) 9 (str "hi" ++ repeat x00 32))) as W by (split; [exact So | split; [lia | apply Me]]).
    destruct (C74_account toy_hd toy toy_account (toy_sk 6) NetMainnet 5 7 AnAny PcDeny ex_conds _ ex_wconds _ Hd C K Cw P W ltac:(lia) ltac:(lia))
      as (s & s' & w & _ & _ & _ & X).
    destruct (C49_address toy_hd toy_account MainnetP2PKH) as (x & G & _). exists w, x. split; [apply X|]; exact G.
  - eexists. split; vm_compute; reflexivity.
Qed.
