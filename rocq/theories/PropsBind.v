(** Property theorems C62 and C63: signatures cannot be moved to another transaction. *)

From Coq Require Import Strings.String.
From Verif Require Import Base BaseFacts Sha2 SpecText SpecAddr Hash C32 Clarity SpecWire Tx SpecTx Signer Builder
     SpecSign SignFacts SignThms HistThms PlanThms AuthThms PropsClarity PropsTx PropsSign SpecBind BindThms.
Local Open Scope N_scope.

(** ** C62 *)
(** Two transactions with the same origin signatures that both verify agree in everything a signature is meant to
    cover, unless one of four named coincidences of hashes has been found. *)
Theorem C62_tampering_detected : forall E t u w v h k g g', ecdsa_correct E -> binds_digest E -> typed (origin_of t) ->
  tx_means t w -> tx_means u v -> wf_tx w -> wf_tx v -> initial_hash t = Ok h -> initial_hash u = Ok k ->
  same_signatures (origin_of t) (origin_of u) -> has_signature (origin_of t) ->
  tx_verify_origin E t = Ok g -> tx_verify_origin E u = Ok g' ->
  (same_body t u /\ same_kind (tx_auth t) (tx_auth u) /\ origin_of t = origin_of u)
  \/ collision (ser_tx (clear_tx w)) (ser_tx (clear_tx v))
  \/ collision (first_message h x04 (origin_of t)) (first_message k x04 (origin_of u))
  \/ digest_clash (first_digest h x04 (origin_of t)) (first_digest k x04 (origin_of u))
  \/ key_swap E x04 h (origin_of t) k (origin_of u).
Proof. exact tampering_detected. Qed.
Print Assumptions C62_tampering_detected.

(** Without any signature there is nothing to detect (a threshold of zero, see C39). *)
Theorem C62_unsigned_refuted : exists t u g g', origin_of t = origin_of u /\ tx_payload t <> tx_payload u
  /\ tx_verify_origin shift t = Ok g /\ tx_verify_origin shift u = Ok g'.
Proof.
  set (t := tx_with_auth ex_unsigned (AStandard (SMulti ex_zero))).
  exists t, {| tx_ver := tx_ver t; tx_chain := tx_chain t; tx_auth := tx_auth t; tx_anchor := tx_anchor t; tx_pcmode := tx_pcmode t;
     tx_conds := []; tx_payload := PTransfer (CPrinStd sample_addr) 1001 (str "hi") |}.
  eexists _, _. split; [reflexivity|]. split; [discriminate|]. split; vm_compute; reflexivity.
Qed.
Print Assumptions C62_unsigned_refuted.

Definition ex_shift_signed : res tx_err tx := tx_sign shift ex_unsigned sk1.
Definition with_amount (t : tx) (n : N) : tx :=
  {| tx_ver := tx_ver t; tx_chain := tx_chain t; tx_auth := tx_auth t; tx_anchor := tx_anchor t; tx_pcmode := tx_pcmode t;
     tx_conds := tx_conds t; tx_payload := PTransfer (CPrinStd sample_addr) n (str "hi") |}.
Example C62_ex : ecdsa_correct shift /\ binds_digest shift
  /\ exists t, ex_shift_signed = Ok t /\ typed (origin_of t) /\ has_signature (origin_of t)
       /\ (exists g, tx_verify_origin shift t = Ok g) /\ with_amount t 1000 = t
       /\ same_signatures (origin_of t) (origin_of (with_amount t 1001))
       /\ (exists e, tx_verify_origin shift (with_amount t 1001) = Err e)
       /\ (exists e, tx_verify_origin shift (tx_set_fee t 181) = Err e)
       /\ exists e, tx_verify_origin shift (tx_set_nonce t 8) = Err e.
Proof.
  split; [exact shift_correct|]. split; [exact shift_binds|].
  eexists. split; [vm_compute; reflexivity|]. split; [reflexivity|]. split; [exact I|].
  split; [eexists; vm_compute; reflexivity|]. split; [vm_compute; reflexivity|]. split; [repeat split|].
  split; [|split]; eexists; vm_compute; reflexivity.
Qed.

(** ** C63 *)
(** The same for a sponsor, whose signatures cover the origin's as well. *)
Theorem C63_sponsor_tampering : forall E t u w v h k o p o' p', ecdsa_correct E -> binds_digest E ->
  tx_auth t = ASponsored o p -> tx_auth u = ASponsored o' p' -> typed o -> typed p -> typed o' ->
  tx_means t w -> tx_means u v -> wf_tx w -> wf_tx v -> initial_hash t = Ok h -> initial_hash u = Ok k ->
  same_signatures p p' -> has_signature p -> length (signatures o) = length (signatures o') ->
  auth_verify E (tx_auth t) h = Ok tt -> auth_verify E (tx_auth u) k = Ok tt ->
  let h1 := hash_after x04 (fee_of o) (nonce_of o) h (signatures o) in
  let k1 := hash_after x04 (fee_of o') (nonce_of o') k (signatures o') in
  (same_body t u /\ p = p' /\ same_identity o o' /\ signatures o = signatures o'
   /\ (signatures o <> [] -> fee_of o = fee_of o' /\ nonce_of o = nonce_of o'))
  \/ collision (ser_tx (clear_tx w)) (ser_tx (clear_tx v))
  \/ chain_collision x04 (fee_of o) (nonce_of o) h (signatures o) (fee_of o') (nonce_of o') k (signatures o')
  \/ collision (first_message h1 x05 p) (first_message k1 x05 p')
  \/ digest_clash (first_digest h1 x05 p) (first_digest k1 x05 p')
  \/ key_swap E x05 h1 p k1 p'.
Proof. exact sponsor_tampering. Qed.
Print Assumptions C63_sponsor_tampering.

(** The other way round the origin does not choose its sponsor: its signatures verify whoever sponsors. *)
Theorem C63_any_sponsor : forall E t o p q g, tx_auth t = ASponsored o p ->
  tx_verify_origin E t = Ok g -> tx_verify_origin E (tx_with_auth t (ASponsored o q)) = Ok g.
Proof. exact any_sponsor. Qed.
Print Assumptions C63_any_sponsor.

(** What any number of signatures commits to: equal final hashes mean equal starts, signatures and terms. *)
Theorem C45_chain_commits : forall typ f n g m h k l l', length h = 32%nat -> length k = 32%nat ->
  f < 2 ^ 64 -> g < 2 ^ 64 -> n < 2 ^ 64 -> m < 2 ^ 64 -> length l = length l' ->
  hash_after typ f n h l = hash_after typ g m k l' ->
  (l = l' /\ h = k /\ (l <> [] -> f = g /\ n = m)) \/ chain_collision typ f n h l g m k l'.
Proof. exact chain_commits. Qed.
Print Assumptions C45_chain_commits.

Theorem C45_final_hash : forall E typ h c h', satisfied E typ h c h' ->
  h' = hash_after typ (fee_of c) (nonce_of c) h (signatures c).
Proof. exact satisfied_hash. Qed.
Print Assumptions C45_final_hash.

Definition ex_both : tx := Eval vm_compute in
  match signer_new (tx_with_auth ex_unsigned (ASponsored (SMulti ex_2of3_m) ex_sponsor)) with
  | Ok s => sg_tx (perform_all shift s (map step_op ex_steps ++ [SignSponsor sk2]))
  | _ => ex_unsigned
  end.
Definition ex_both_hash (t : tx) : bytes := match initial_hash t with Ok h => h | _ => [] end.
Definition refused {E A} (r : res E A) : bool := match r with Err _ => true | _ => false end.
Example C63_ex : exists o p, tx_auth ex_both = ASponsored o p /\ typed o /\ typed p /\ has_signature p
  /\ length (signatures o) = 2%nat /\ initial_hash ex_both = Ok (ex_both_hash ex_both)
  /\ auth_verify shift (tx_auth ex_both) (ex_both_hash ex_both) = Ok tt
  /\ refused (tx_verify_origin shift (tx_with_auth ex_both (ASponsored o ex_sponsor))) = false
  /\ refused (auth_verify shift (tx_auth ex_both) (ex_both_hash (with_amount ex_both 1001))) = true.
Proof.
  eexists _, _. split; [reflexivity|].
  split; [repeat constructor|]. split; [reflexivity|]. split; [exact I|]. split; [reflexivity|].
  split; [vm_compute; reflexivity|]. split; [vm_compute; reflexivity|]. split; vm_compute; reflexivity.
Qed.
