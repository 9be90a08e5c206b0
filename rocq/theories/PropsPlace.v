(** Property theorems C87: a signature is good for one place of one transaction. *)

From Coq Require Import Strings.String Lia.
From Verif Require Import Base BaseFacts Sha2 SpecText SpecAddr Hash C32 Clarity SpecWire Tx SpecTx TxThms Signer Builder
     SpecSign SignFacts SignThms HistThms PlanThms AuthThms PropsClarity PropsTx PropsSign SpecBind BindThms PropsBind SpecPlace PlaceThms
     WireFacts Secp EcSign.
Local Open Scope N_scope.

(** ** C87 *)

(** Places of any two transactions, or of one, for which the same digest is to be signed are the same place of the same
    transaction, after the same signatures and under the same fee and nonce, unless hashes coincide. *)
Theorem C87_one_digest : forall t u w v h k b s b' s', tx_means t w -> tx_means u v -> wf_tx w -> wf_tx v ->
  initial_hash t = Ok h -> initial_hash u = Ok k -> stands t b s -> stands u b' s' -> digest_at h b s = digest_at k b' s' ->
  (same_body t u /\ same_origin (tx_auth t) (tx_auth u) /\ b = b' /\ sp_role s = sp_role s' /\ sp_fee s = sp_fee s' /\ sp_nonce s = sp_nonce s')
  \/ coincidence w h (b ++ [s]) v k (b' ++ [s']).
Proof. exact one_digest. Qed.
Print Assumptions C87_one_digest.

(** So a signature that counts for a key at one place counts for that key at no other. *)
Theorem C87_one_place : forall E t u w v h k b s b' s' pk, binds_digest E ->
  tx_means t w -> tx_means u v -> wf_tx w -> wf_tx v -> initial_hash t = Ok h -> initial_hash u = Ok k ->
  stands t b s -> stands u b' s' -> sp_sig s = sp_sig s' -> counts E h b s pk -> counts E k b' s' pk ->
  (same_body t u /\ same_origin (tx_auth t) (tx_auth u) /\ b = b' /\ s = s')
  \/ digest_clash (digest_at h b s) (digest_at k b' s') \/ coincidence w h (b ++ [s]) v k (b' ++ [s']).
Proof. exact one_place. Qed.
Print Assumptions C87_one_place.

(** The same for secp256k1, with nothing assumed. *)
Theorem C87_secp : forall t u w v h k b s b' s' pk,
  tx_means t w -> tx_means u v -> wf_tx w -> wf_tx v -> initial_hash t = Ok h -> initial_hash u = Ok k ->
  stands t b s -> stands u b' s' -> sp_sig s = sp_sig s' -> counts secp h b s pk -> counts secp k b' s' pk ->
  (same_body t u /\ same_origin (tx_auth t) (tx_auth u) /\ b = b' /\ s = s')
  \/ digest_clash (digest_at h b s) (digest_at k b' s') \/ coincidence w h (b ++ [s]) v k (b' ++ [s']).
Proof. intros t u w v h k b s b' s' pk. exact (one_place secp t u w v h k b s b' s' pk secp_binds). Qed.
Print Assumptions C87_secp.

(** Within one transaction: no signature counts twice for a key, be it among the origin's or as the origin's and the sponsor's. *)
Theorem C87_not_twice : forall E t w h b s b' s' pk, binds_digest E -> tx_means t w -> wf_tx w -> initial_hash t = Ok h ->
  stands t b s -> stands t b' s' -> length b <> length b' -> sp_sig s = sp_sig s' ->
  counts E h b s pk -> counts E h b' s' pk ->
  digest_clash (digest_at h b s) (digest_at h b' s') \/ coincidence w h (b ++ [s]) w h (b' ++ [s']).
Proof.
  intros E t w h b s b' s' pk B M W H S S' L G C C'.
  destruct (one_place E t t w w h h b s b' s' pk B M M W W H H S S' G C C') as [(_ & _ & -> & _)|X]; [contradiction|exact X].
Qed.
Print Assumptions C87_not_twice.

(** These are the signatures that verification looks at: each place of what verifies is signed for by a key. *)
Theorem C87_origin_counts : forall E t h g, typed (origin_of t) -> initial_hash t = Ok h -> tx_verify_origin E t = Ok g ->
  g = run h (stamps x04 (origin_of t)) /\ forall b s a, stamps x04 (origin_of t) = b ++ s :: a -> exists pk, counts E h b s pk.
Proof. exact origin_counts. Qed.
Print Assumptions C87_origin_counts.
Theorem C87_sponsored_counts : forall E t o p h, tx_auth t = ASponsored o p -> typed o -> typed p -> auth_verify E (tx_auth t) h = Ok tt ->
  forall b s, stands t b s -> exists pk, counts E h b s pk.
Proof. exact sponsored_counts. Qed.
Print Assumptions C87_sponsored_counts.

(** The one coincidence that is not of two equal hashes: a digest that begins with the version and chain of a transaction and its
    signer and ends in five zero bytes, with a signature beginning with ten, and only for a call by a multi-signature account
    without post-conditions and with 15 bytes of names and arguments. *)
Theorem C87_lookalike : forall t w h b s v, tx_means t w -> wf_tx w -> wf_tx v -> stands t b s -> lookalike h (b ++ [s]) v ->
  exists c x, (exists r, b ++ [s] = c ++ x :: r)
  /\ exists mode signer nonce fee fields required ver hash contract fname args r,
    w_auth v = WaStandard (WsMulti mode signer nonce fee fields required) /\ w_conds v = []
    /\ w_payload v = WpCall ver hash contract fname args
    /\ count contract + count fname + count (flat_map wser args) = 15
    /\ digest_at h c x = w_version v :: big_endian 4 (w_chain v) ++ x04 :: mode :: signer ++ repeat x00 5
    /\ sp_sig x = repeat x00 10 ++ r.
Proof.
  intros t w h b s v M W V S (c & x & r & L & Q). exists c, x. split; [eauto|].
  apply (lookalike_shape (digest_at h c x) (sp_sig x) v); auto; [apply digest_length|].
  apply (stands_sig t w c x M W). destruct S as [a S]. exists (r ++ a).
  rewrite S. change (s :: a) with ([s] ++ a). rewrite app_assoc, L, <- app_assoc. reflexivity.
Qed.
Print Assumptions C87_lookalike.

(** Lengths alone do not exclude it: there are strings of the one kind that are strings of the other, with a signature in compact form. *)
Definition ex_look : wtx :=
  {| w_version := x00; w_chain := 1; w_auth := WaStandard (WsMulti x01 (repeat x11 20) 0 0 [] 2); w_anchor := x03; w_pcmode := x02;
     w_conds := []; w_payload := WpCall x16 (repeat x22 20) (str "pool"%string) (str "claim-lock2"%string) [] |}.
Theorem C87_lengths_refuted : exists d g, length d = 32%nat /\ compact_form g /\ wf_tx ex_look
  /\ link_text d (sig_bytes g) = ser_tx (clear_tx ex_look).
Proof.
  exists (firstn 32 (ser_tx ex_look)), {| rs_id := 0; rs_bytes := skipn 34 (ser_tx ex_look) |}.
  split; [reflexivity|]. split; [|split; [|vm_compute; reflexivity]].
  - split; [vm_compute; discriminate|]. split; [reflexivity|]. split; vm_compute; reflexivity.
  - split; [reflexivity|]. split; [|split; [reflexivity|split; [constructor|]]].
    + split; [left; reflexivity|]. repeat split; try reflexivity; constructor.
    + split; [reflexivity|]. split; [vm_compute; discriminate|]. split; [vm_compute; discriminate|]. split; [reflexivity|constructor].
Qed.
Print Assumptions C87_lengths_refuted.

(** A transaction with three signatures, the second and third standing after others; the first, copied over the second, is another key's. *)
Definition ex_copied : tx := Eval vm_compute in
  match tx_auth ex_both with
  | ASponsored (SMulti m) p =>
    match ms_fields m with
    | [FSig s; FPk k; FSig _] => tx_with_auth ex_both (ASponsored (SMulti (with_fields m [FSig s; FPk k; FSig s])) p)
    | _ => ex_both
    end
  | _ => ex_both
  end.
Definition ex_full_wtx (t : tx) : wtx :=
  {| w_version := w_version ex_wtx; w_chain := w_chain ex_wtx; w_auth := auth_wire (tx_auth t); w_anchor := w_anchor ex_wtx;
     w_pcmode := w_pcmode ex_wtx; w_conds := w_conds ex_wtx; w_payload := w_payload ex_wtx |}.
Definition nth_place (t : tx) (n : nat) : list stamp * stamp :=
  (firstn n (all_stamps t), nth n (all_stamps t) {| sp_role := x00; sp_fee := 0; sp_nonce := 0; sp_sig := [] |}).
Definition key_at (t : tx) (n : nat) : option bytes :=
  let '(b, s) := nth_place t n in
  recover shift (digest_at (ex_both_hash t) b s) {| rs_id := Byte.to_N (hd x00 (sp_sig s)); rs_bytes := tl (sp_sig s) |}.
Lemma key_at_counts t n pk : key_at t n = Some pk ->
  compact_form {| rs_id := Byte.to_N (hd x00 (sp_sig (snd (nth_place t n)))); rs_bytes := tl (sp_sig (snd (nth_place t n))) |} ->
  sp_sig (snd (nth_place t n)) <> [] -> counts shift (ex_both_hash t) (fst (nth_place t n)) (snd (nth_place t n)) pk.
Proof.
  unfold key_at. destruct (nth_place t n) as [b s]. cbn [fst snd]. intros K C N. eexists. split; [exact C|]. split; [|exact K].
  unfold sig_bytes. cbn [rs_id rs_bytes]. rewrite octet_n2b, n2b_b2n. destruct (sp_sig s); [contradiction|reflexivity].
Qed.
Example C87_ex : exists k0 k1 k2 c0 c1,
  tx_means ex_both (ex_full_wtx ex_both) /\ wf_tx (ex_full_wtx ex_both) /\ initial_hash ex_both = Ok (ex_both_hash ex_both)
  /\ length (all_stamps ex_both) = 3%nat
  /\ (forall n, (n < 3)%nat -> stands ex_both (fst (nth_place ex_both n)) (snd (nth_place ex_both n)))
  /\ map (key_at ex_both) [0; 1; 2]%nat = [Some k0; Some k1; Some k2] /\ [k0; k1; k2] = map (pubkey_of shift) [sk1; sk3; sk2]
  /\ counts shift (ex_both_hash ex_both) (fst (nth_place ex_both 1)) (snd (nth_place ex_both 1)) k1
  /\ sp_sig (snd (nth_place ex_copied 0)) = sp_sig (snd (nth_place ex_copied 1))
  /\ counts shift (ex_both_hash ex_copied) (fst (nth_place ex_copied 0)) (snd (nth_place ex_copied 0)) c0
  /\ counts shift (ex_both_hash ex_copied) (fst (nth_place ex_copied 1)) (snd (nth_place ex_copied 1)) c1
  /\ c0 = k0 /\ c1 <> c0.
Proof.
  destruct ex_tx_means as (A & B & _ & D & F & G & H). destruct ex_wtx_wf as (W1 & _ & W3 & W4 & W5).
  eexists _, _, _, _, _.
  split; [exact (conj A (conj B (conj eq_refl (conj D (conj F (conj G H))))))|].
  split; [refine (conj W1 (conj _ (conj W3 (conj W4 W5)))); repeat split; try (right; left; reflexivity); repeat constructor|].
  split; [vm_compute; reflexivity|]. split; [reflexivity|].
  split. { intros [|[|[|n]]] L; try lia; eexists; reflexivity. }
  split; [vm_compute; reflexivity|]. split; [vm_compute; reflexivity|].
  split; [apply key_at_counts; [vm_compute; reflexivity|repeat split; vm_compute; (reflexivity || discriminate)|discriminate]|].
  split; [reflexivity|].
  split; [apply key_at_counts; [vm_compute; reflexivity|repeat split; vm_compute; (reflexivity || discriminate)|discriminate]|].
  split; [apply key_at_counts; [vm_compute; reflexivity|repeat split; vm_compute; (reflexivity || discriminate)|discriminate]|].
  split; [vm_compute; reflexivity|]. vm_compute. discriminate.
Qed.
