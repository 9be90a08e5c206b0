(** Property theorem C81: which signatures of a transaction anyone can replace. *)

From Coq Require Import ZArith List.
From Verif Require Import Base Sha2 SpecText SpecWire Hash C32 Clarity Tx SpecTx Signer Builder SpecSign SignFacts SignThms AuthThms
     SpecBind BindThms Secp EcSign SpecCurve PropsTx PropsSign PropsCurve SpecTwin TwinThms.
Import ListNotations.
Local Open Scope N_scope.

(** ** C81 *)
(** Finding: the last signature of any condition can be replaced by its twin, and the condition still verifies; so does
    a transaction, with another id. *)
Theorem C81_last : forall typ h c after c' h1, typed c -> twinned c after c' -> filter is_sig after = [] ->
  verify_scond secp c h typ = Ok h1 ->
  same_terms c c' /\ signatures c' <> signatures c /\ exists h2, verify_scond secp c' h typ = Ok h2.
Proof.
  intros typ h c after c' h1 Ty T N H. apply verify_iff in H; [|exact Ty]. destruct (last_twin typ h c after c' h1 T N H) as (h2 & S & D).
  split; [apply (twinned_same _ _ _ T)|]. split; [exact D|]. exists h2. apply verify_iff; [now apply (twinned_typed c after)|exact S].
Qed.
Print Assumptions C81_last.

Theorem C81_standard : forall t c after c' w h g1, tx_auth t = AStandard c -> typed c -> twinned c after c' -> filter is_sig after = [] ->
  tx_means t w -> wf_tx w -> initial_hash t = Ok h -> tx_verify_origin secp t = Ok g1 ->
  let t' := tx_with_auth t (AStandard c') in
  same_but_signatures t t' /\ (exists g2, tx_verify_origin secp t' = Ok g2)
  /\ exists w' a b, tx_means t' w' /\ tx_hash t = Ok a /\ tx_hash t' = Ok b /\ (a <> b \/ collision (ser_tx w) (ser_tx w')).
Proof. exact twin_standard. Qed.
Print Assumptions C81_standard.

Theorem C81_sponsored : forall t o p after p' w h, tx_auth t = ASponsored o p -> typed o -> typed p -> twinned p after p' -> filter is_sig after = [] ->
  tx_means t w -> wf_tx w -> initial_hash t = Ok h -> auth_verify secp (tx_auth t) h = Ok tt ->
  let t' := tx_with_auth t (ASponsored o p') in
  same_but_signatures t t' /\ initial_hash t' = Ok h /\ auth_verify secp (tx_auth t') h = Ok tt
  /\ exists w' a b, tx_means t' w' /\ tx_hash t = Ok a /\ tx_hash t' = Ok b /\ (a <> b \/ collision (ser_tx w) (ser_tx w')).
Proof. exact twin_sponsored. Qed.
Print Assumptions C81_sponsored.

(** Any signature before the last one is protected by those after it: *)
Theorem C81_earlier : forall typ h c after c' h1 h2, typed c -> twinned c after c' -> filter is_sig after <> [] ->
  verify_scond secp c h typ = Ok h1 -> verify_scond secp c' h typ = Ok h2 -> unnoticed secp typ h c c'.
Proof.
  intros typ h c after c' h1 h2 Ty T N H H'. apply verify_iff in H; [|exact Ty]. apply verify_iff in H'; [|now apply (twinned_typed c after)].
  now apply (early_twin typ h c after c' h1 h2).
Qed.
Print Assumptions C81_earlier.

(** and every signature of the origin by the sponsor's. *)
Theorem C81_origin : forall h o after o' p, typed o -> typed p -> length h = 32%nat -> fee_of o < 2 ^ 64 -> nonce_of o < 2 ^ 64 ->
  twinned o after o' -> has_signature p ->
  auth_verify secp (ASponsored o p) h = Ok tt -> auth_verify secp (ASponsored o' p) h = Ok tt -> unnoticed_by_sponsor secp h o o' p.
Proof. intros h o after o' p To Tp L Bf Bn T P. apply (origin_twin h o after o' p); auto. now apply (twinned_typed o after). Qed.
Print Assumptions C81_origin.

(** Finding: signatures beyond the required number can be taken away: the last one can be replaced by the key it was made with. *)
Theorem C81_surplus : forall E typ h m h1, typed (SMulti m) -> threshold (SMulti m) < held (SMulti m) ->
  (forall d r pk, recover E d r = Some pk -> length pk = 33%nat) -> verify_scond E (SMulti m) h typ = Ok h1 ->
  exists before sig pk after m' h2, unsigned_at m before sig pk after m' /\ verify_scond E (SMulti m') h typ = Ok h2.
Proof.
  intros E typ h m h1 Ty H L V. apply verify_iff in V; [|exact Ty]. destruct (surplus E typ h m h1 Ty H V) as (b & s & pk & a & m' & h2 & [Ef Em] & S & R).
  exists b, s, pk, a, m', h2. split; [split; assumption|]. apply verify_iff; [|exact S]. subst m'. cbn [typed with_fields ms_fields] in *.
  rewrite Ef in Ty. apply Forall_app in Ty. destruct Ty as [T1 T2]. apply Forall_app. split; [exact T1|]. inversion T2; subst. constructor; [|assumption].
  destruct R as (r & _ & _ & R). exact (L _ _ _ R).
Qed.
Print Assumptions C81_surplus.

(** Two keys, both signing, one required; alone and as the sponsor of a one-key origin. *)
Definition key_two : bytes := repeat x00 31 ++ [x02].
Lemma key_two_valid : valid_key key_two.
Proof. split; [reflexivity|split; reflexivity]. Qed.
Definition ex_tw_sig (h : bytes) (typ : byte) (sk : bytes) : rsig := sign_rec secp (digest h typ 180 7) sk.
Definition ex_tw_link (h : bytes) (typ : byte) (sk : bytes) : bytes := link (digest h typ 180 7) (sig_bytes (ex_tw_sig h typ sk)).
Definition ex_tw (h : bytes) (typ : byte) : sc_multi :=
  {| ms_mode := P2SH; ms_fee := 180; ms_nonce := 7; ms_required := x01;
     ms_signer := hash20 (script 1 [pubkey_of secp key_one; pubkey_of secp key_two]);
     ms_fields := [FSig (sig_bytes (ex_tw_sig h typ key_one)); FSig (sig_bytes (ex_tw_sig (ex_tw_link h typ key_one) typ key_two))] |}.
Definition ex_tw_origin (h : bytes) : sc_std :=
  {| std_mode := P2PKH; std_fee := 180; std_nonce := 7; std_signer := hash20 (pubkey_of secp key_one);
     std_sig := sig_bytes (ex_tw_sig h x04 key_one) |}.

Lemma ex_tw_form h typ sk : valid_key sk -> compact_form (ex_tw_sig h typ sk).
Proof. intros V. apply (sign_form secp secp_correct); [apply digest_length|exact V]. Qed.
Lemma ex_tw_recovers h typ sk : valid_key sk -> recovers secp (digest h typ 180 7) (sig_bytes (ex_tw_sig h typ sk)) (pubkey_of secp sk).
Proof.
  intros V. exists (ex_tw_sig h typ sk). split; [now apply ex_tw_form|]. split; [reflexivity|].
  apply (sign_recovers secp secp_correct); [apply digest_length|exact V].
Qed.
Lemma ex_tw_satisfied h typ : typed (SMulti (ex_tw h typ)) /\ exists h1, satisfied secp typ h (SMulti (ex_tw h typ)) h1.
Proof.
  split.
  - constructor; [|constructor; [|constructor]]; apply sig_bytes_length; apply ex_tw_form; [exact key_one_valid|exact key_two_valid].
  - eexists. apply (sat_multi secp typ h (ex_tw h typ) [pubkey_of secp key_one; pubkey_of secp key_two] (1 + (1 + 0))).
    + apply chain_sig; [apply ex_tw_recovers, key_one_valid|]. apply chain_sig; [apply ex_tw_recovers, key_two_valid|]. apply chain_nil.
    + apply N.leb_le. reflexivity.
    + reflexivity.
    + split; apply N.leb_le; reflexivity.
    + reflexivity.
Qed.

Example C81_ex : forall h typ, let m := ex_tw h typ in exists h1 c c', typed (SMulti m) /\ verify_scond secp (SMulti m) h typ = Ok h1
  /\ threshold (SMulti m) < held (SMulti m) /\ twinned (SMulti m) [] c
  /\ twinned (SMulti m) [FSig (sig_bytes (ex_tw_sig (ex_tw_link h typ key_one) typ key_two))] c'.
Proof.
  intros h typ m. destruct (ex_tw_satisfied h typ) as (Ty & h1 & S). eexists h1, _, _. split; [exact Ty|]. split; [now apply verify_iff|].
  split; [apply N.ltb_lt; reflexivity|]. split.
  - eapply (twinned_multi m [FSig _] _ []); [|reflexivity]. apply ex_tw_form. exact key_two_valid.
  - eapply (twinned_multi m [] _ [FSig _]); [|reflexivity]. apply ex_tw_form. exact key_one_valid.
Qed.

Example C81_sponsored_ex : forall h, let o := SStd (ex_tw_origin h) in let p := SMulti (ex_tw (ex_tw_link h x04 key_one) x05) in
  typed o /\ typed p /\ has_signature p /\ auth_verify secp (ASponsored o p) h = Ok tt /\ exists o', twinned o [] o'.
Proof.
  intros h o p. destruct (ex_tw_satisfied (ex_tw_link h x04 key_one) x05) as (Ty & h1 & S).
  assert (To : typed o) by (apply sig_bytes_length, ex_tw_form, key_one_valid).
  split; [exact To|]. split; [exact Ty|]. split; [apply N.ltb_lt; reflexivity|]. split.
  - apply sponsored_verify_iff; [exact To|exact Ty|]. eexists. exists h1. split; [|exact S].
    apply (sat_single secp x04 h (ex_tw_origin h) (pubkey_of secp key_one)); [|reflexivity]. apply ex_tw_recovers, key_one_valid.
  - eexists. apply twinned_single with (g := ex_tw_sig h x04 key_one); [apply ex_tw_form, key_one_valid|reflexivity].
Qed.
