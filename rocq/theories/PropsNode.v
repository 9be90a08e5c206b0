(** Property theorems C65: what a node that follows SIP-005 makes of the bytes. *)

From Coq Require Import Strings.String Lia ZifyBool ZifyNat ZifyN.
From Verif Require Import Base BaseFacts Sha2 SpecText SpecAddr Hash C32 Clarity SpecWire Tx SpecTx Signer Builder
     TxWire TxFacts TxThms SpecSign SignFacts SignThms HistThms PlanThms AuthThms
     PropsClarity PropsTx PropsSign SpecBind BindThms LengthThms SpecNode NodeThms.
Local Open Scope N_scope.

(** ** C65 *)
(** The node's verdict on the bytes is the library's verdict on the transaction, for the node's own network and with no
    more signatures than required. *)
Theorem C65_exact : forall E n t w e, tx_means t w -> wf_tx w -> enc_tx t = Ok e -> small_tx t ->
  (node_accepts E n e <-> net_ids n = (tx_ver t, tx_chain t) /\ exact_tx t /\ verified E t).
Proof. exact node_exact. Qed.
Print Assumptions C65_exact.

(** Single- and multi-signature transactions signed as their origin asks for. *)
Theorem C65_signed : forall E n t o l w, ecdsa_correct E -> tx_auth t = AStandard o -> plan E o l -> 1 <= threshold o -> count l <= 16 ->
  tx_means t w -> wf_tx w -> net_ids n = (tx_ver t, tx_chain t) ->
  exists s s' e, signer_new t = Ok s /\ succeeds E s (map step_op l) s' /\ enc_tx (sg_tx s') = Ok e /\ node_accepts E n e.
Proof. exact plan_accepted. Qed.
Print Assumptions C65_signed.

(** Sponsored transactions: [q] is the placeholder the origin signs over, [p] the sponsor. *)
Theorem C65_sponsored : forall E n t o p q l sks w, ecdsa_correct E -> tx_auth t = ASponsored o q -> typed q -> held q <= threshold q ->
  plan E o l -> plan E p (map Sign sks) -> 1 <= threshold o -> 1 <= threshold p -> count l <= 16 -> count sks <= 16 ->
  tx_means (tx_with_auth t (ASponsored o p)) w -> wf_tx w -> net_ids n = (tx_ver t, tx_chain t) ->
  exists s s1 s2 s3 e, signer_new t = Ok s /\ succeeds E s (map step_op l) s1
    /\ signer_new_sponsor E (sg_tx s1) p = Ok s2 /\ succeeds E s2 (map SignSponsor sks) s3
    /\ enc_tx (sg_tx s3) = Ok e /\ node_accepts E n e.
Proof. exact sponsored_accepted. Qed.
Print Assumptions C65_sponsored.

(** Whatever is asked of a signer that counts signatures: what verifies in the end is accepted. *)
Theorem C65_history : forall E n s l t w, same_but_signatures t (sg_tx s) -> tx_means t w -> wf_tx w ->
  sg_oversign s = true -> typed_tx (sg_tx s) -> not_oversigned (sg_tx s) -> Forall typed_op l ->
  1 <= threshold (origin_of t) -> (forall p, sponsor_of t = Some p -> 1 <= threshold p) ->
  threshold (origin_of t) <= 16 -> (forall p, sponsor_of t = Some p -> threshold p <= 16) ->
  size (origin_of (sg_tx s)) + count (filter (fun o => negb (on_sponsor o)) l) <= 16 ->
  sponsor_size (sg_tx s) + count (filter on_sponsor l) <= 16 ->
  net_ids n = (tx_ver t, tx_chain t) -> verified E (sg_tx (perform_all E s l)) ->
  exists e, enc_tx (sg_tx (perform_all E s l)) = Ok e /\ node_accepts E n e.
Proof. exact history_accepted. Qed.
Print Assumptions C65_history.

(** No bytes are accepted by nodes of both networks. *)
Theorem C65_one_network : forall E e n m, node_accepts E n e -> node_accepts E m e -> (n = NetMainnet <-> m = NetMainnet).
Proof.
  intros E e n m (w & -> & W & N & _) (v & X & V & M & _).
  destruct (tx_prefix w v [] []) as [<- _]; auto. { rewrite !app_nil_r. exact X. }
  destruct n, m; cbn in *; split; intros H; try reflexivity; try discriminate H; destruct N, M; congruence.
Qed.
Print Assumptions C65_one_network.

(** Finding: the library also verifies a transaction with more signatures than required. *)
Definition over_auth (fs : list auth_field) : auth :=
  AStandard (SMulti {| ms_mode := P2SH; ms_fee := 0; ms_nonce := 0; ms_signer := hash20 (script 1 [pk1; pk2]); ms_fields := fs; ms_required := x01 |}).
Definition over_sigs : list auth_field := Eval vm_compute in
  match initial_hash (tx_with_auth ex_tx (over_auth [])) with
  | Ok h => let s1 := signed_by 0 0 h sk1 in [FSig s1; FSig (signed_by 0 0 (link (digest h x04 0 0) s1) sk2)]
  | _ => []
  end.
Definition ex_over_tx : tx := tx_with_auth ex_tx (over_auth over_sigs).
Definition ex_over_wtx : wtx :=
  {| w_version := w_version ex_wtx; w_chain := w_chain ex_wtx; w_auth := auth_wire (tx_auth ex_over_tx); w_anchor := w_anchor ex_wtx;
     w_pcmode := w_pcmode ex_wtx; w_conds := w_conds ex_wtx; w_payload := w_payload ex_wtx |}.
Lemma ex_over_means : tx_means ex_over_tx ex_over_wtx /\ wf_tx ex_over_wtx.
Proof.
  destruct ex_tx_means as (A & B & _ & D & F & G & H). destruct ex_wtx_wf as (W1 & _ & W3 & W4 & W5). split.
  - exact (conj A (conj B (conj eq_refl (conj D (conj F (conj G H)))))).
  - refine (conj W1 (conj _ (conj W3 (conj W4 W5)))). repeat split; [left; reflexivity|]. repeat constructor; vm_compute; reflexivity.
Qed.
Theorem C65_oversigned_refuted : exists E t e, ecdsa_correct E /\ enc_tx t = Ok e /\ verified E t /\ small_tx t
  /\ forall n, ~ node_accepts E n e.
Proof.
  destruct ex_over_means as [M W]. assert (exists e, enc_tx ex_over_tx = Ok e) as [e En] by (eexists; vm_compute; reflexivity).
  assert (small_tx ex_over_tx) as S by (split; [split; vm_compute; split; discriminate | discriminate]).
  exists toy, ex_over_tx, e. refine (conj toy_correct (conj En (conj _ (conj S _)))).
  - unfold verified. cbn [tx_auth ex_over_tx tx_with_auth over_auth]. eexists. vm_compute. reflexivity.
  - intros n H. apply (node_exact _ _ _ _ _ M W En S) in H. destruct H as (_ & [X _] & _). vm_compute in X. discriminate X.
Qed.
Print Assumptions C65_oversigned_refuted.

(** Finding: the library's script is the Bitcoin script for thresholds and key counts from 1 to 16 only. *)
Theorem C54_standard : forall m ks, 1 <= m <= 16 -> 1 <= count ks <= 16 -> script m ks = node_script m ks.
Proof. intros m ks A B. symmetry. apply small_script; assumption. Qed.
Print Assumptions C54_standard.

Theorem C54_nonstandard : forall m ks ks', m < 256 -> Forall (fun k => length k = 33%nat) ks -> Forall (fun k => length k = 33%nat) ks' ->
  m = 0 \/ 16 < m \/ count ks = 0 \/ 16 < count ks -> node_script m ks' <> script m ks.
Proof. exact large_script. Qed.
Print Assumptions C54_nonstandard.

(** So the address that [multi_new] computes for any other numbers cannot be spent from. *)
Theorem C65_large_refused : forall E typ h ks fee nonce required mode c h' fs, ecdsa_correct E ->
  @multi_new unit ks fee nonce required mode = Ok c -> Forall (fun k => length k = 33%nat) ks -> Forall typed_field fs ->
  Byte.to_N required = 0 \/ 16 < Byte.to_N required \/ count ks = 0 \/ 16 < count ks ->
  node_spend E typ h (spend_wire (SMulti (with_fields c fs))) h' ->
  exists ks', length ks' = length fs
    /\ script_clash mode (node_script (Byte.to_N required) ks') (script (Byte.to_N required) ks).
Proof.
  intros E typ h ks fee nonce required mode c h' fs C N F T L H. apply C38_multi_new in N. destruct N as (A & _ & M & _ & _ & R & _).
  destruct (large_refused E typ h (with_fields c fs) ks h') as (ks' & K & X); auto; cbn [with_fields ms_mode ms_required ms_signer ms_fields] in *.
  - rewrite M, R. exact A.
  - rewrite R. exact L.
  - rewrite M, R in X. eauto.
Qed.
Print Assumptions C65_large_refused.

Definition ex_multi_wtx : wtx :=
  {| w_version := w_version ex_wtx; w_chain := w_chain ex_wtx; w_auth := auth_wire (tx_auth ex_multi_tx); w_anchor := w_anchor ex_wtx;
     w_pcmode := w_pcmode ex_wtx; w_conds := w_conds ex_wtx; w_payload := w_payload ex_wtx |}.
Definition ex_both_wtx : wtx :=
  {| w_version := w_version ex_wtx; w_chain := w_chain ex_wtx; w_auth := auth_wire (ASponsored (SMulti ex_2of3_m) ex_sponsor);
     w_anchor := w_anchor ex_wtx; w_pcmode := w_pcmode ex_wtx; w_conds := w_conds ex_wtx; w_payload := w_payload ex_wtx |}.
Example C65_ex : plan toy (SMulti ex_2of3_m) ex_steps /\ tx_auth ex_multi_tx = AStandard (SMulti ex_2of3_m)
  /\ tx_means ex_multi_tx ex_multi_wtx /\ wf_tx ex_multi_wtx /\ net_ids NetMocknet = (tx_ver ex_multi_tx, tx_chain ex_multi_tx)
  /\ tx_auth ex_sponsored_tx = ASponsored (SMulti ex_2of3_m) (SStd std_default) /\ typed (SStd std_default)
  /\ held (SStd std_default) <= threshold (SStd std_default) /\ plan toy ex_sponsor (map Sign [sk2])
  /\ tx_means (tx_with_auth ex_sponsored_tx (ASponsored (SMulti ex_2of3_m) ex_sponsor)) ex_both_wtx /\ wf_tx ex_both_wtx
  /\ exists c, @multi_new unit (repeat pk1 17) 0 0 x01 P2SH = Ok c.
Proof.
  destruct ex_tx_means as (A & B & _ & D & F & G & H). destruct ex_wtx_wf as (W1 & _ & W3 & W4 & W5).
  refine (conj ex_plan (conj eq_refl (conj _ (conj _ (conj eq_refl (conj eq_refl (conj eq_refl (conj _ (conj ex_sponsor_plan (conj _ (conj _ _))))))))))).
  - exact (conj A (conj B (conj eq_refl (conj D (conj F (conj G H)))))).
  - refine (conj W1 (conj _ (conj W3 (conj W4 W5)))). repeat split; [right; left; reflexivity | constructor].
  - vm_compute. discriminate.
  - exact (conj A (conj B (conj eq_refl (conj D (conj F (conj G H)))))).
  - refine (conj W1 (conj _ (conj W3 (conj W4 W5)))). repeat split; [right; left; reflexivity | constructor | right; left; reflexivity].
  - eexists. vm_compute. reflexivity.
Qed.
