(** Property theorems C90: what the post-conditions of a transaction do when it runs. *)

From Coq Require Import Strings.String.
From Coq Require Import Lia ZifyBool ZifyNat ZifyN Permutation.
From Verif Require Import Base BaseFacts Sha2 SpecText SpecAddr Hash C32 Clarity SpecWire Tx SpecTx Signer Builder
     WireFacts ClarityFacts TxWire TxFacts TxThms SpecSign SignFacts SignThms AuthThms
     Wallet SpecClient PropsClarity PropsTx PropsSign PropsClient SpecNode NodeThms SpecFlow FlowThms SpecAdmit PropsAdmit SpecCond CondThms.
Local Open Scope N_scope.

(** ** C90 *)
(** The node lets a run stand iff the conditions, read by the names the library gives to codes and modes, say so. *)
Theorem C90_exact : forall t w e ms, tx_means t w -> wf_tx w -> enc_tx t = Ok e -> (node_stands e ms <-> expected t ms).
Proof. exact node_stands_iff. Qed.
Print Assumptions C90_exact.

(** So it is for what is built and signed with given conditions and mode. *)
Theorem C90_signed : forall E n sk fee nonce anchor mode conds p wcs wp, ecdsa_correct E -> valid_key sk -> conds_wire conds wcs ->
  payload_means p wp -> wf_payload wp -> fee < 2 ^ 64 -> nonce < 2 ^ 64 ->
  let t := unsigned n (pubkey_of E sk) fee nonce anchor mode conds p in
  exists s s' e, signer_new t = Ok s /\ succeeds E s [SignOrigin sk] s' /\ enc_tx (sg_tx s') = Ok e
    /\ node_accepts E n e /\ forall ms, node_stands e ms <-> expected t ms.
Proof.
  intros E n sk fee nonce anchor mode conds p wcs wp C V Cw P Wp Fe No t.
  destruct (unsigned_flow E n sk fee nonce anchor mode conds p wcs wp C V Cw P Wp Fe No) as (s & s' & sig & Sn & Su & M & W & A & _).
  cbv zeta in *. set (w := signed_wire _ _ _ _ _ _ _ _ _) in *.
  assert (enc_tx (sg_tx s') = Ok (ser_tx w)) as En. { apply tx_iff. exists w. split; [exact M|]. split; [|reflexivity]. split; [exact I | apply (wf_fits_body w W)]. }
  exists s, s', (ser_tx w). repeat (split; [assumption|]). intros ms. rewrite (C90_exact _ w _ ms M W En), <- (stands_expected _ _ ms M).
  rewrite <- (stands_expected t (signed_wire n (hash20 (pubkey_of E sk)) fee nonce anchor mode wcs wp (repeat x00 65)) ms).
  - unfold run_stands, w. cbn [w_payload w_conds w_pcmode signed_wire]. tauto.
  - apply (unsigned_means E n sk fee nonce anchor mode conds p wcs wp Cw P).
Qed.
Print Assumptions C90_signed.

(** The order of the conditions, and the order of what moves, do not matter. *)
Theorem C90_order : forall t l ms ns w v e f, Permutation (tx_conds t) l -> Permutation ms ns ->
  tx_means t w -> wf_tx w -> enc_tx t = Ok e ->
  tx_means (with_conds t (tx_pcmode t) l) v -> wf_tx v -> enc_tx (with_conds t (tx_pcmode t) l) = Ok f ->
  (node_stands e ms <-> node_stands f ns).
Proof.
  intros t l ms ns w v e f P Q M W En N V Fn. rewrite (C90_exact _ _ _ ms M W En), (C90_exact _ _ _ ns N V Fn).
  unfold expected. cbn [with_conds tx_payload tx_conds tx_pcmode].
  assert (forall c, promised ms c <-> promised ns c) as Pr.
  { intros c. assert (forall m, In m ms <-> In m ns) as I by (intros m; split; apply Permutation_in; [exact Q | symmetry; exact Q]).
    destruct c; cbn [promised].
    - split; intros (x & A & B); exists x; (split; [exact A|]).
      + rewrite <- (stx_perm x _ _ Q). exact B.
      + rewrite (stx_perm x _ _ Q). exact B.
    - split; intros (x & y & A & B & C); exists x, y; (split; [exact A|]; split; [exact B|]).
      + rewrite <- (ft_perm x y _ _ Q). exact C.
      + rewrite (ft_perm x y _ _ Q). exact C.
    - split; intros (x & y & z & A & B & C & D); exists x, y, z; (repeat (split; [assumption|])); destruct code; cbn [token_named] in *; try contradiction;
        (rewrite <- I || rewrite I); exact D. }
  assert (Forall (promised ms) (tx_conds t) <-> Forall (promised ns) l) as A.
  { rewrite !Forall_forall. split; intros H c I; apply Pr, H; (apply (Permutation_in _ P) || apply (Permutation_in _ (Permutation_sym P))); exact I. }
  assert (forall m, Exists (about m) (tx_conds t) <-> Exists (about m) l) as B.
  { intros m. rewrite !Exists_exists. split; intros (c & I & H); exists c; (split; [|exact H]);
      (apply (Permutation_in _ P) || apply (Permutation_in _ (Permutation_sym P))); exact I. }
  assert (Forall (fun m => Exists (about m) (tx_conds t)) ms <-> Forall (fun m => Exists (about m) l) ns) as D.
  { rewrite !Forall_forall. split; intros H m I; apply B, H; (apply (Permutation_in _ Q) || apply (Permutation_in _ (Permutation_sym Q))); exact I. }
  assert (tx_conds t = [] <-> l = []) as Z.
  { split; intros E; rewrite E in P; [apply Permutation_nil | apply Permutation_nil, Permutation_sym]; exact P. }
  rewrite A, D, Z. tauto.
Qed.
Print Assumptions C90_order.

(** In mode [Deny] nothing leaves an account that no condition of the call is about. *)
Theorem C90_deny_protects : forall t w e ms who, tx_means t w -> wf_tx w -> enc_tx t = Ok e -> is_call (tx_payload t) ->
  tx_pcmode t = PcDeny -> (forall c, In c (tx_conds t) -> ~ means (cond_who c) who) -> node_stands e ms ->
  forall m, In m ms -> source m <> who.
Proof.
  intros t w e ms who M W En Ca D No S m I E. apply (C90_exact _ _ _ _ M W En) in S. destruct S as [S _]. destruct (S Ca) as [_ K].
  specialize (K D). rewrite Forall_forall in K. specialize (K m I). apply Exists_exists in K. destruct K as (c & Ic & A).
  apply (No c Ic). destruct c, m; cbn [about cond_who source] in *; try contradiction; subst; tauto.
Qed.
Print Assumptions C90_deny_protects.

(** A limit on an account's STX bounds each movement and their sum, in either mode. *)
Theorem C90_limit : forall t w e ms addr who n, tx_means t w -> wf_tx w -> enc_tx t = Ok e -> is_call (tx_payload t) ->
  In (CondSTX addr n CcLTE) (tx_conds t) -> means addr who -> node_stands e ms ->
  stx_sent who ms <= n /\ forall k, In (MStx who k) ms -> k <= n.
Proof.
  intros t w e ms addr who n M W En Ca I A S. apply (C90_exact _ _ _ _ M W En) in S. destruct S as [S _]. destruct (S Ca) as [F _].
  rewrite Forall_forall in F. destruct (F _ I) as (who' & A' & L). rewrite (means_fun _ _ _ A' A) in L. cbn [amount_named] in L.
  split; [exact L|]. intros k X. pose proof (stx_at_least who k ms X). lia.
Qed.
Print Assumptions C90_limit.

(** Without conditions: [Allow], which the builders choose, lets every run of a call stand; [Deny] only one that moves nothing. *)
Theorem C90_bare : forall t w e ms, tx_means t w -> wf_tx w -> enc_tx t = Ok e -> is_call (tx_payload t) -> tx_conds t = [] ->
  (tx_pcmode t = PcAllow -> node_stands e ms) /\ (tx_pcmode t = PcDeny -> (node_stands e ms <-> ms = [])).
Proof.
  intros t w e ms M W En Ca C. rewrite (C90_exact _ _ _ ms M W En). unfold expected. rewrite C. split.
  - intros ->. split; [intros _; split; [constructor | discriminate] | reflexivity].
  - intros ->. split.
    + intros [H _]. destruct (H Ca) as [_ K]. specialize (K eq_refl). destruct ms as [|m ms]; [reflexivity|].
      apply Forall_inv in K. inversion K.
    + intros ->. split; [intros _; split; constructor | reflexivity].
Qed.
Print Assumptions C90_bare.

Theorem C90_default : forall E addr contract fname args sk n t w e ms,
  build_call E (stx_call_default addr contract fname args sk n) = Ok t -> tx_means t w -> wf_tx w -> enc_tx t = Ok e -> node_stands e ms.
Proof.
  intros E addr contract fname args sk n t w e ms B M W En. unfold build_call in B. apply bind_ok in B. destruct B as (ad & _ & B).
  apply bind_ok in B. destruct B as (c & _ & B). cbn [cc_sponsored stx_call_default] in B. injection B as <-.
  exact (proj1 (C90_bare _ w e ms M W En I eq_refl) eq_refl).
Qed.
Print Assumptions C90_default.

(** A code of the wrong kind leaves no run that stands. *)
Theorem C90_wrong_code : forall t w e ms c, tx_means t w -> wf_tx w -> enc_tx t = Ok e -> is_call (tx_payload t) -> In c (tx_conds t) ->
  match c with
  | CondSTX _ _ k | CondFT _ _ k _ => k = CcHas \/ k = CcHasNot
  | CondNFT _ _ k _ => k <> CcHas /\ k <> CcHasNot
  end -> ~ node_stands e ms.
Proof.
  intros t w e ms c M W En Ca I K S. apply (C90_exact _ _ _ _ M W En) in S. destruct S as [S _]. destruct (S Ca) as [F _].
  rewrite Forall_forall in F. specialize (F c I). destruct c; cbn [promised] in F.
  - destruct F as (? & _ & F). destruct K as [->| ->]; exact F.
  - destruct F as (? & ? & _ & _ & F). destruct K as [->| ->]; exact F.
  - destruct F as (? & ? & ? & _ & _ & _ & F). destruct K as [K K']. destruct code; cbn [token_named] in F; congruence || contradiction.
Qed.
Print Assumptions C90_wrong_code.

(** Finding: the transfer builder takes conditions, but no run of a transfer that carries any stands. *)
Theorem C90_transfer_conditions : forall (E : ecdsa) (X : Type) b (t : tx) w e ms, build_transfer (X := X) E b = Ok t -> st_conds b <> [] ->
  tx_means t w -> wf_tx w -> enc_tx t = Ok e -> ~ node_stands e ms.
Proof.
  intros E X b t w e ms B N M W En S. apply (C90_exact _ _ _ _ M W En) in S. destruct S as [_ S].
  unfold build_transfer in B. apply bind_ok in B. destruct B as (c & _ & B). destruct (st_sponsored b); [discriminate|]. injection B as <-.
  apply N, S. exact (fun x => x).
Qed.
Print Assumptions C90_transfer_conditions.

(** ** Examples *)

Definition tidy_call (m : pc_mode) (l : list condition) : tx := with_conds ex_call m l.
Definition tidy_wcall (m : pc_mode) (l : list wcond) : wtx :=
  {| w_version := w_version ex_wcall; w_chain := w_chain ex_wcall; w_auth := w_auth ex_wcall; w_anchor := w_anchor ex_wcall;
     w_pcmode := pcmode_code m; w_conds := l; w_payload := w_payload ex_wcall |}.
Lemma tidy_ok m l ws : conds_wire l ws ->
  tx_means (tidy_call m l) (tidy_wcall m ws) /\ wf_tx (tidy_wcall m ws) /\ enc_tx (tidy_call m l) = Ok (ser_tx (tidy_wcall m ws)).
Proof.
  intros (C & K & F). destruct ex_call_means as (A1 & A2 & A3 & A4 & _ & _ & A7). destruct ex_wcall_wf as (W1 & W2 & _ & _ & W5).
  assert (tx_means (tidy_call m l) (tidy_wcall m ws)) as M by (unfold tx_means; cbn [tidy_call with_conds tidy_wcall w_version w_chain w_auth w_anchor w_pcmode w_conds w_payload tx_ver tx_chain tx_auth tx_anchor tx_pcmode tx_conds tx_payload]; auto 10).
  assert (wf_tx (tidy_wcall m ws)) as W by (unfold wf_tx; cbn [tidy_wcall w_chain w_auth w_conds w_payload]; auto 10).
  split; [exact M|]. split; [exact W|]. apply tx_iff. exists (tidy_wcall m ws). split; [exact M|]. split; [|reflexivity].
  split; [exact I | apply (wf_fits_body _ W)].
Qed.

Definition me : wval := WStd x16 key_hash.
Definition guard : list condition := [CondSTX (CPrinStd sample_addr) 5 CcLTE].
Definition wguard : list wcond := [WcSTX me x05 5].
Lemma guard_wire : conds_wire guard wguard.
Proof.
  split; [|split; [reflexivity|]]; (constructor; [|constructor]).
  - exact (conj I (conj ex_principal (conj eq_refl eq_refl))).
  - exact (conj I (conj ex_solid_std eq_refl)).
Qed.

(** Finding: "Allow mode, this turns off all post-conditions" is not so; listed conditions are still in force. *)
Theorem C90_allow_off_refuted : exists t w e ms, tx_means t w /\ wf_tx w /\ enc_tx t = Ok e /\ is_call (tx_payload t)
  /\ tx_pcmode t = PcAllow /\ ~ node_stands e ms.
Proof.
  destruct (tidy_ok PcAllow guard wguard guard_wire) as (M & W & En).
  exists (tidy_call PcAllow guard), (tidy_wcall PcAllow wguard), (ser_tx (tidy_wcall PcAllow wguard)), [MStx me 6].
  repeat (split; [first [assumption | exact I | reflexivity]|]). intros S.
  destruct (C90_limit _ _ _ _ (CPrinStd sample_addr) me 5 M W En I (or_introl eq_refl) ex_principal S) as [_ L].
  specialize (L 6 (or_introl eq_refl)). lia.
Qed.
Print Assumptions C90_allow_off_refuted.

(** Finding: in mode [Deny] one more condition can let more runs stand. *)
Theorem C90_more_is_less_refuted : exists t l c e f ms w v, tx_conds t = l /\ tx_pcmode t = PcDeny
  /\ tx_means t w /\ wf_tx w /\ enc_tx t = Ok e
  /\ tx_means (with_conds t PcDeny (c :: l)) v /\ wf_tx v /\ enc_tx (with_conds t PcDeny (c :: l)) = Ok f
  /\ ~ node_stands e ms /\ node_stands f ms.
Proof.
  assert (conds_wire [] []) as C0 by (split; [constructor | split; [reflexivity | constructor]]).
  destruct (tidy_ok PcDeny [] [] C0) as (M & W & En). destruct (tidy_ok PcDeny guard wguard guard_wire) as (M' & W' & En').
  exists (tidy_call PcDeny []), [], (CondSTX (CPrinStd sample_addr) 5 CcLTE), (ser_tx (tidy_wcall PcDeny [])), (ser_tx (tidy_wcall PcDeny wguard)),
    [MStx me 4], (tidy_wcall PcDeny []), (tidy_wcall PcDeny wguard).
  repeat (split; [first [assumption | reflexivity]|]). split.
  - intros S. apply (C90_bare _ _ _ _ M W En I eq_refl) in S; [discriminate | reflexivity].
  - apply (C90_exact _ _ _ _ M' W' En'). split; [|intros N; exfalso; exact (N I)]. intros _. split.
    + constructor; [|constructor]. exists me. split; [exact ex_principal|]. vm_compute. discriminate.
    + intros _. constructor; [|constructor]. left. exact ex_principal.
Qed.
Print Assumptions C90_more_is_less_refuted.

(** Three conditions in mode [Deny]; a run that stands, and runs that do not: too little STX, too much of the token, the
    collectible sent away, a movement no condition is about. *)
Definition my_wallet : wval := WCon x16 key_hash (str "abc"%string).
Definition fine_run : list movement := [MStx me 2; MFt my_wallet ex_wasset 6; MStx me 3].
Example C90_ex : conds_wire ex_tidy ex_wtidy
  /\ tx_means (tidy_call PcDeny ex_tidy) (tidy_wcall PcDeny ex_wtidy) /\ wf_tx (tidy_wcall PcDeny ex_wtidy)
  /\ exists e, enc_tx (tidy_call PcDeny ex_tidy) = Ok e
     /\ node_stands e fine_run /\ ~ node_stands e [MStx me 2; MFt my_wallet ex_wasset 6]
     /\ ~ node_stands e (MFt my_wallet ex_wasset 1 :: fine_run)
     /\ ~ node_stands e (MNft me ex_wasset WTrue :: fine_run) /\ ~ node_stands e (MStx my_wallet 1 :: fine_run).
Proof.
  pose proof (proj1 C68_ex) as C. destruct (tidy_ok PcDeny _ _ C) as (M & W & En).
  refine (conj C (conj M (conj W _))). eexists. split; [exact En|].
  assert (forall ms, node_stands (ser_tx (tidy_wcall PcDeny ex_wtidy)) ms <-> run_stands (tidy_wcall PcDeny ex_wtidy) ms) as X
    by (intros ms; rewrite (C90_exact _ _ _ ms M W En); symmetry; apply stands_expected, M).
  rewrite !X. unfold run_stands, tidy_wcall, ex_wtidy. cbn [w_payload ex_wcall w_conds w_pcmode]. split; [|repeat split].
  - split.
    + constructor; [right; right; left; split; [reflexivity | vm_compute; discriminate]|]. constructor; [left; split; vm_compute; reflexivity|].
      constructor; [|constructor]. right. split; [reflexivity|]. unfold fine_run. cbn [In]. intuition discriminate.
    + intros _. unfold fine_run. constructor; [left; reflexivity|]. constructor; [right; left; split; reflexivity|]. constructor; [left; reflexivity | constructor].
  - intros [H _]. apply Forall_inv in H. cbn [holds] in H. unfold amount_code in H. vm_compute in H. intuition (congruence || discriminate).
  - intros [H _]. apply Forall_inv_tail, Forall_inv in H. cbn [holds] in H. unfold amount_code in H. vm_compute in H. intuition (congruence || discriminate).
  - intros [H _]. apply Forall_inv_tail, Forall_inv_tail, Forall_inv in H. cbn [holds] in H. destruct H as [[H _]|[_ H]]; [discriminate|].
    apply H. left. reflexivity.
  - intros [_ H]. specialize (H eq_refl). apply Forall_inv in H. unfold my_wallet, me in H.
    repeat (apply Exists_cons in H; destruct H as [H|H]; [cbn [covers] in H; try contradiction; discriminate H|]). inversion H.
Qed.

(** A call built with the defaults, and a transfer built with a condition, meet the hypotheses of [C90_default] and
    [C90_transfer_conditions]. *)
Definition default_call : stx_call := stx_call_default sample_addr (str "abc"%string) (str "f"%string) [CTrue] (toy_sk 6) NetTestnet.
Definition guarded_transfer : stx_transfer :=
  {| st_recipient := CPrinStd sample_addr; st_amount := 1000; st_sender := toy_sk 6; st_network := NetTestnet; st_fee := 9; st_nonce := 1;
     st_anchor := AnAny; st_memo := str "hi"%string; st_pcmode := PcDeny; st_conds := guard; st_sponsored := false |}.
Example C90_ex_built :
  (exists t w e, build_call toy default_call = Ok t /\ tx_means t w /\ wf_tx w /\ enc_tx t = Ok e /\ node_stands e fine_run)
  /\ exists t w e, build_transfer (X := cl_err) toy guarded_transfer = Ok t /\ tx_means t w /\ wf_tx w /\ enc_tx t = Ok e /\ ~ node_stands e [].
Proof.
  assert (forall fee nonce mode conds p wcs wp, conds_wire conds wcs -> payload_means p wp -> wf_payload wp -> fee < 2 ^ 64 -> nonce < 2 ^ 64 ->
            let t := unsigned NetTestnet (pubkey_of toy (toy_sk 6)) fee nonce AnAny mode conds p in
            exists w e, tx_means t w /\ wf_tx w /\ enc_tx t = Ok e) as K.
  { intros fee nonce mode conds p wcs wp C P W Fe No t. pose proof (unsigned_means toy NetTestnet (toy_sk 6) fee nonce AnAny mode conds p wcs wp C P) as M.
    fold t in M. destruct C as (_ & L & F).
    pose proof (signed_wf NetTestnet (hash20 (pubkey_of toy (toy_sk 6))) fee nonce AnAny mode wcs wp (repeat x00 65) F L W (hash20_length _) Fe No (repeat_length _ _)) as Wf.
    eexists _, _. split; [exact M|]. split; [exact Wf|]. apply tx_iff. eexists. split; [exact M|]. split; [|reflexivity].
    split; [exact I | apply (wf_fits_body _ Wf)]. }
  split.
  - destruct (K 0 0 PcAllow [] (PCall {| addr_hash := key_hash; addr_version := x16 |} (str "abc"%string) (str "f"%string) [CTrue]) []
        (WpCall x16 key_hash (str "abc"%string) (str "f"%string) [WTrue])) as (w & e & M & W & En).
    + split; [constructor | split; [reflexivity | constructor]].
    + repeat split. constructor; [exact I | constructor].
    + refine (conj eq_refl (conj _ (conj _ (conj eq_refl _)))); [vm_compute; discriminate | vm_compute; discriminate |].
      constructor; [exact (proper_solid _ ex_proper_true) | constructor].
    + reflexivity.
    + reflexivity.
    + assert (build_call toy default_call = Ok (unsigned NetTestnet (pubkey_of toy (toy_sk 6)) 0 0 AnAny PcAllow []
        (PCall {| addr_hash := key_hash; addr_version := x16 |} (str "abc"%string) (str "f"%string) [CTrue]))) as B by (vm_compute; reflexivity).
      eexists _, w, e. split; [exact B|]. repeat (split; [assumption|]). exact (C90_default _ _ _ _ _ _ _ _ _ _ _ B M W En).
  - destruct (K 9 1 PcDeny guard ex_transfer wguard ex_wtransfer guard_wire) as (w & e & M & W & En).
    + exact (conj ex_principal (conj eq_refl ex_memo)).
    + split; [exact ex_solid_std | split; reflexivity].
    + reflexivity.
    + reflexivity.
    + assert (build_transfer (X := cl_err) toy guarded_transfer = Ok (unsigned NetTestnet (pubkey_of toy (toy_sk 6)) 9 1 AnAny PcDeny guard ex_transfer)) as B
        by (vm_compute; reflexivity).
      eexists _, w, e. split; [exact B|]. repeat (split; [assumption|]). apply (C90_transfer_conditions toy cl_err guarded_transfer _ w e [] B); auto. discriminate.
Qed.
