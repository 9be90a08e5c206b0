(** Encoding of transactions always ends in bytes or an error. *)

From Verif Require Import Base BaseFacts Hash C32 Clarity SpecWire ClarityFacts Tx.
Local Open Scope N_scope.

Lemma encode_head c e : type_of c = TPrinStd \/ type_of c = TPrinCon -> encode c = Ok e ->
  exists b r, e = b :: r.
Proof.
  intros T H. destruct c; try (destruct T as [T|T]; discriminate T); cbn [encode] in H;
    rewrite bind_ok in H; destruct H as ([h v] & _ & H).
  - okinv H. subst. cbn [app]. eauto.
  - rewrite bind_ok in H. destruct H as (x & _ & H). okinv H. subst. cbn [app]. eauto.
Qed.

Lemma drop1_settled {E} b (r : bytes) : settled (@drop_slice E 1 (b :: r)).
Proof. cbn. auto. Qed.

Lemma cast_type ty c a : cast ty c = Ok a -> type_of a = ty.
Proof. unfold cast. destruct (cty_eq_dec (type_of c) ty); [|discriminate]. intros H. okinv H. congruence. Qed.

Lemma enc_cond_addr_settled a : settled (enc_cond_addr a).
Proof.
  unfold enc_cond_addr.
  assert (K : forall ty c (b : byte), ty = TPrinStd \/ ty = TPrinCon -> cast ty a = Ok c ->
    settled (let* e := encode c in let* e1 := drop_slice 1 e in Ok (b :: e1))).
  { intros ty c b T C. apply cast_type in C. apply settled_bind; [apply encode_settled|]. intros e H.
    apply encode_head in H as (x & r & ->); [|subst; tauto]. apply settled_bind; [apply drop1_settled | auto]. }
  destruct (cast TPrinStd a) eqn:C; try (eapply K; [left; reflexivity | exact C]);
  (destruct (cast TPrinCon a) eqn:D; try (eapply K; [right; reflexivity | exact D]); auto).
Qed.

Lemma enc_asset_settled i : settled (enc_asset i).
Proof.
  unfold enc_asset. apply settled_bind; [apply encode_settled|]. intros e H.
  apply encode_head in H as (x & r & ->); [|left; reflexivity]. apply settled_bind; [apply drop1_settled|]. intros ? _.
  apply settled_bind; [apply enc_lps_settled|]. intros ? _. apply settled_bind; [apply enc_lps_settled|]. auto.
Qed.

Lemma enc_condition_settled c : settled (enc_condition c).
Proof.
  destruct c; cbn [enc_condition]; (apply settled_bind; [apply enc_cond_addr_settled|]; intros ? _); auto;
    (apply settled_bind; [apply enc_asset_settled|]; intros ? _); auto.
  apply settled_bind; [apply encode_settled|]. auto.
Qed.

Lemma enc_conditions_settled l : settled (enc_conditions l).
Proof.
  unfold enc_conditions. apply settled_bind; [apply enc_len32_settled|]. intros ? _. apply settled_bind; [|auto].
  induction l; cbn [enc_conditions_body]; auto. apply settled_bind; [apply enc_condition_settled|]. intros ? _.
  apply settled_bind; auto.
Qed.

Lemma enc_payload_settled p : settled (enc_payload p).
Proof.
  destruct p; cbn [enc_payload].
  - unfold enc_transfer. destruct (34 <? lenN memo); auto. apply settled_bind; [apply encode_settled | auto].
  - unfold enc_call. apply settled_bind; [apply enc_lps_settled|]. intros ? _.
    apply settled_bind; [apply enc_lps_settled|]. intros ? _. apply settled_bind; [apply encode_settled | auto].
Qed.

Lemma enc_scond_settled c : settled (enc_scond c).
Proof.
  destruct c; cbn [enc_scond]; auto. unfold enc_multi. apply settled_bind; [apply enc_len32_settled | auto].
Qed.

Lemma enc_auth_settled a : settled (enc_auth a).
Proof.
  destruct a; cbn [enc_auth]; (apply settled_bind; [apply enc_scond_settled|]; intros ? _); auto.
  apply settled_bind; [apply enc_scond_settled | auto].
Qed.

Lemma enc_tx_settled t : settled (enc_tx t).
Proof.
  unfold enc_tx. apply settled_bind; [apply enc_auth_settled|]. intros ? _.
  apply settled_bind; [apply enc_conditions_settled|]. intros ? _. apply settled_bind; [apply enc_payload_settled|]. auto.
Qed.

Lemma initial_hash_settled t : settled (initial_hash t).
Proof.
  unfold initial_hash, tx_hash. destruct (enc_tx_settled (tx_with_auth t (auth_reset (tx_auth t)))) as [[e H]|[e H]];
    rewrite H; cbn [map_err bind]; auto.
Qed.
