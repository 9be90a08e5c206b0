(** Moved signatures. *)

From Coq Require Import Lia ZifyBool ZifyNat ZifyN.
From Verif Require Import Base BaseFacts SpecText NumFacts Sha2 Hash HashFacts C32 Clarity SpecWire Tx SpecTx Signer Builder
  WireFacts ClarityFacts TxWire TxFacts TxThms SpecSign SignFacts SignThms HistThms PlanThms AuthThms SpecBind.
Local Open Scope N_scope.

(** ** The shifting scheme *)

Lemma scalar_big k n : n < 256 ^ N.of_nat k -> scalar (big_endian k n) = n.
Proof. intros B. rewrite scalar_be, big_endian_be. apply be_val_be_bytes_small, B. Qed.

Lemma big_scalar b : big_endian (length b) (scalar b) = b.
Proof. rewrite scalar_be, big_endian_be. apply be_bytes_be_val. Qed.

Lemma order_pos : 0 < group_order. Proof. reflexivity. Qed.
Lemma order_small : group_order < 256 ^ N.of_nat 32. Proof. reflexivity. Qed.

Lemma mod_small_256 x : x mod group_order < 256 ^ N.of_nat 32.
Proof.
  pose proof (N.mod_lt x group_order) as H. pose proof order_small. pose proof order_pos.
  assert (group_order <> 0) as Z by lia. specialize (H Z). lia.
Qed.

Lemma unshift a b n : 0 < n -> a < n -> ((a + b) mod n + (n - b mod n)) mod n = a.
Proof.
  intros P A. pose proof (N.mod_lt b n ltac:(lia)) as B.
  rewrite N.add_mod_idemp_l by lia.
  replace (a + b + (n - b mod n)) with (a + (b + (n - b mod n))) by lia.
  rewrite (N.div_mod b n) at 1 by lia.
  replace (n * (b / n) + b mod n + (n - b mod n)) with ((b / n + 1) * n) by lia.
  rewrite N.mod_add by lia. apply N.mod_small, A.
Qed.

Lemma shift_inj s a b n : 0 < n -> (s + (n - a mod n)) mod n = (s + (n - b mod n)) mod n -> a mod n = b mod n.
Proof.
  intros P H.
  pose proof (N.mod_lt a n ltac:(lia)) as A. pose proof (N.mod_lt b n ltac:(lia)) as B.
  set (x := a mod n) in *. set (y := b mod n) in *. clearbody x y.
  assert (forall u v, u mod n = v mod n -> u <= v -> exists q, v = u + q * n) as K.
  { intros u v E L. exists (v / n - u / n). rewrite (N.div_mod u n), (N.div_mod v n) at 1 by lia. rewrite E.
    assert (u / n <= v / n) by (apply N.div_le_mono; lia). nia. }
  assert (forall x y, x < n -> y < n -> x <= y -> (s + (n - y)) mod n = (s + (n - x)) mod n -> x = y) as W.
  { clear -K. intros x y A B L H. destruct (K _ _ H) as [q Q]; [lia|].
    assert (q = 0) by nia. subst q. lia. }
  destruct (N.le_ge_cases x y) as [L|L].
  - apply W; auto.
  - symmetry. apply W; auto.
Qed.

Lemma shift_length m sk : length (rs_bytes (sign_rec shift m sk)) = 64%nat.
Proof. cbn [shift sign_rec rs_bytes]. rewrite app_length, !big_endian_length. reflexivity. Qed.

Lemma firstn_big k n t : firstn k (big_endian k n ++ t) = big_endian k n.
Proof. rewrite <- (big_endian_length k n) at 1. apply firstn_app_exact. Qed.
Lemma skipn_big k n t : skipn k (big_endian k n ++ t) = t.
Proof. rewrite <- (big_endian_length k n) at 1. apply skipn_app_exact. Qed.

Lemma shift_correct : ecdsa_correct shift.
Proof.
  split.
  - intros sk [L _]. cbn [shift pubkey_of length]. rewrite L. reflexivity.
  - intros m sk _ V. unfold compact_form. rewrite shift_length. cbn [shift sign_rec rs_id rs_bytes].
    rewrite firstn_big, skipn_big, !scalar_big; [|apply mod_small_256|reflexivity].
    split; [lia|]. split; [reflexivity|]. split; [reflexivity|]. apply N.mod_lt. discriminate.
  - intros m sk _ V. cbn [shift sign_rec rs_bytes]. rewrite firstn_big, scalar_big; reflexivity.
  - intros m sk _ [L V]. cbn [recover shift]. rewrite (shift_length m sk). cbn [Nat.eqb shift sign_rec rs_bytes pubkey_of].
    rewrite skipn_big, scalar_big by apply mod_small_256. rewrite unshift; [|reflexivity|apply V].
    rewrite <- L, big_scalar. reflexivity.
  - intros m r pk. cbn [shift recover]. destruct (Nat.eqb (length (rs_bytes r)) 64); [|discriminate].
    intros H. apply (f_equal (fun o => match o with Some p => length p | None => O end)) in H. cbn [length] in H.
    rewrite big_endian_length in H. congruence.
Qed.

Lemma shift_binds : binds_digest shift.
Proof.
  intros d d' r pk _ _ (_ & L & _). cbn [shift recover]. rewrite L. cbn [Nat.eqb]. intros R R'. rewrite <- R' in R. clear R'.
  assert (X := f_equal (fun o => match o with Some p => tl p | None => [] end) R). cbn [tl] in X. clear R.
  apply big_endian_inj in X; [|apply mod_small_256..]. apply shift_inj in X; [exact X | reflexivity].
Qed.

(** ** Same signatures, same key: same digest *)

Lemma same_digest E d d' sig pk : binds_digest E -> length d = 32%nat -> length d' = 32%nat ->
  recovers E d sig pk -> recovers E d' sig pk -> d = d' \/ digest_clash d d'.
Proof.
  intros B L L' (r & F & S & R) (r' & F' & S' & R'). assert (r = r') as <- by (apply sig_bytes_inj; congruence).
  destruct (bytes_dec d d') as [X|X]; [auto|right]. split; [exact X|]. exact (B d d' r pk L L' F R R').
Qed.

Lemma first_recovers E typ f n h fs ks c h' g m k c' k' :
  chain E typ f n h fs ks c h' -> chain E typ g m k fs ks c' k' -> 0 < count (filter is_sig fs) ->
  exists sig pk, recovers E (digest h typ f n) sig pk /\ recovers E (digest k typ g m) sig pk.
Proof.
  intros C. revert c' k'. induction C as [h|h pk fs ks c h' C IH|h sig pk fs ks c h' R C IH]; intros c' k' D P.
  - cbn in P. lia.
  - inversion D; subst. eapply IH; eauto.
  - inversion D; subst. eauto.
Qed.

Lemma moved E typ h c g k d g' : ecdsa_correct E -> binds_digest E -> typed c -> same_signatures c d -> has_signature c ->
  satisfied E typ h c g -> satisfied E typ k d g' ->
  first_digest h typ c = first_digest k typ d \/ digest_clash (first_digest h typ c) (first_digest k typ d) \/ key_swap E typ h c k d.
Proof.
  intros EC B T [I S] P X Y. destruct X as [s pk R A|m ks n h' C Q N F A]; inversion Y as [s' pk' R' A'|m' ks' n' h1 C' Q' N' F' A']; subst; try contradiction.
  - cbn [same_identity] in I. destruct I as [IM IS]. destruct (key_address_inj (std_mode s) pk pk' (std_signer s)) as [E1|E1]; [exact A|congruence| |].
    + subst pk'. rewrite S in R. destruct (same_digest E _ _ _ _ B (digest_length _ _ _ _) (digest_length _ _ _ _) R R') as [X|X]; auto.
    + right. right. cbn [key_swap]. eauto.
  - cbn [same_identity typed has_signature held] in *. destruct I as (IM & IS & IR). rewrite <- S in C'.
    destruct (keys_address_inj (ms_mode m) (Byte.to_N (ms_required m)) (Byte.to_N (ms_required m)) ks ks' (ms_signer m)) as [[_ E1]|E1].
    + eapply chain_keys; eauto.
    + eapply chain_keys; eauto.
    + apply F.
    + apply F.
    + exact A.
    + congruence.
    + subst ks'. destruct (first_recovers E typ _ _ h _ ks n _ _ _ k n' _ C C' P) as (sig & pk & R & R').
      destruct (same_digest E _ _ _ _ B (digest_length _ _ _ _) (digest_length _ _ _ _) R R') as [X|X]; auto.
    + right. right. cbn [key_swap]. rewrite S in C'. eauto 10.
Qed.

Lemma same_signatures_eq c d : same_signatures c d -> fee_of c = fee_of d -> nonce_of c = nonce_of d -> c = d.
Proof.
  intros [I S] F N. destruct c as [s|m], d as [s'|m']; try contradiction; cbn in *.
  - destruct I, s, s'; cbn in *; subst; reflexivity.
  - destruct I as (? & ? & ?), m, m'; cbn in *; subst; reflexivity.
Qed.

Lemma wf_terms c : wf_spend (spend_wire c) -> fee_of c < 2 ^ 64 /\ nonce_of c < 2 ^ 64.
Proof. destruct c; cbn [spend_wire wf_spend fee_of nonce_of]; tauto. Qed.

Lemma wf_origin t w : tx_means t w -> wf_tx w -> fee_of (origin_of t) < 2 ^ 64 /\ nonce_of (origin_of t) < 2 ^ 64.
Proof.
  intros (_ & _ & A & _) (_ & W & _). rewrite A in W. unfold origin_of. destruct (tx_auth t); cbn [auth_wire wf_auth] in W;
    apply wf_terms; tauto.
Qed.

Lemma wf_sponsor t w p : tx_means t w -> wf_tx w -> sponsor_of t = Some p -> fee_of p < 2 ^ 64 /\ nonce_of p < 2 ^ 64.
Proof.
  intros (_ & _ & A & _) (_ & W & _) S. rewrite A in W. unfold sponsor_of in S. destruct (tx_auth t); [discriminate|].
  injection S as ->. cbn [auth_wire wf_auth] in W. apply wf_terms. tauto.
Qed.

Lemma same_origin_kind t u : same_origin (tx_auth t) (tx_auth u) -> same_kind (tx_auth t) (tx_auth u).
Proof. destruct (tx_auth t), (tx_auth u); cbn; auto. Qed.

(** ** C62 *)

Lemma tampering_detected E t u w v h k g g' : ecdsa_correct E -> binds_digest E -> typed (origin_of t) ->
  tx_means t w -> tx_means u v -> wf_tx w -> wf_tx v -> initial_hash t = Ok h -> initial_hash u = Ok k ->
  same_signatures (origin_of t) (origin_of u) -> has_signature (origin_of t) ->
  tx_verify_origin E t = Ok g -> tx_verify_origin E u = Ok g' ->
  (same_body t u /\ same_kind (tx_auth t) (tx_auth u) /\ origin_of t = origin_of u)
  \/ collision (ser_tx (clear_tx w)) (ser_tx (clear_tx v))
  \/ collision (first_message h x04 (origin_of t)) (first_message k x04 (origin_of u))
  \/ digest_clash (first_digest h x04 (origin_of t)) (first_digest k x04 (origin_of u))
  \/ key_swap E x04 h (origin_of t) k (origin_of u).
Proof.
  intros EC B T M N W V H K S P X Y.
  assert (typed (origin_of u)) as Tu.
  { destruct S as [_ S]. destruct (origin_of t), (origin_of u); cbn in *; try contradiction; congruence. }
  apply (verify_origin_iff E t h g H T) in X. apply (verify_origin_iff E u k g' K Tu) in Y.
  destruct (moved E x04 h _ g k _ g' EC B T S P X Y) as [D|[D|D]]; [|right; right; right; left; exact D|right; right; right; right; exact D].
  unfold first_digest in D. rewrite <- !digest_eq in D.
  destruct (wf_origin t w M W) as [Bf Bn]. destruct (wf_origin u v N V) as [Bf' Bn'].
  destruct (message_commits t u w v h k x04 x04 _ _ _ _ M N W V H K Bf Bf' Bn Bn' D) as [(A & O & _ & F & Nn)|[C|C]].
  - left. split; [exact A|]. split; [apply same_origin_kind; exact O|]. apply same_signatures_eq; auto.
  - right. left. exact C.
  - right. right. left. exact C.
Qed.

(** ** Chains commit to their signatures *)

Lemma hash_after_snoc typ f n h l s : hash_after typ f n h (l ++ [s]) = link (digest (hash_after typ f n h l) typ f n) s.
Proof. unfold hash_after. rewrite fold_left_app. reflexivity. Qed.

Lemma hash_after_length typ f n h l : length h = 32%nat -> length (hash_after typ f n h l) = 32%nat.
Proof.
  intros L. destruct l as [|s l] using rev_ind; [exact L|]. rewrite hash_after_snoc. apply sha512_256_length.
Qed.

Lemma chain_commits typ f n g m h k l l' : length h = 32%nat -> length k = 32%nat ->
  f < 2 ^ 64 -> g < 2 ^ 64 -> n < 2 ^ 64 -> m < 2 ^ 64 -> length l = length l' ->
  hash_after typ f n h l = hash_after typ g m k l' ->
  (l = l' /\ h = k /\ (l <> [] -> f = g /\ n = m)) \/ chain_collision typ f n h l g m k l'.
Proof.
  intros Lh Lk Bf Bg Bn Bm. revert l'. induction l as [|s l IH] using rev_ind; intros l' L H.
  - destruct l'; [|discriminate]. left. repeat split; auto; contradiction.
  - destruct l' as [|s' l' _] using rev_ind; [rewrite app_length in L; cbn in L; lia|].
    rewrite !app_length in L. cbn [length] in L. assert (length l = length l') as L0 by lia.
    rewrite !hash_after_snoc in H.
    assert (forall X : Prop, (collision (message_text (hash_after typ f n h l) typ f n) (message_text (hash_after typ g m k l') typ g m)
        \/ collision (link_text (digest (hash_after typ f n h l) typ f n) s) (link_text (digest (hash_after typ g m k l') typ g m) s')) ->
        X \/ chain_collision typ f n h (l ++ [s]) g m k (l' ++ [s'])) as Here.
    { intros X C. right. exists l, s, [], l', s', []. auto. }
    apply sha_eq in H. destruct H as [H|H]; [|apply Here; right; exact H].
    apply link_inj in H; [|rewrite !digest_length; reflexivity]. destruct H as [H <-].
    apply sha_eq in H. destruct H as [H|H]; [|apply Here; left; exact H].
    apply message_text_inj in H; auto; [|rewrite !hash_after_length by assumption; reflexivity].
    destruct H as (H & _ & <- & <-). destruct (IH l' L0 H) as [(<- & <- & _)|C].
    + left. auto.
    + right. destruct C as (a & x & b & a' & x' & b' & -> & -> & La & C).
      exists a, x, (b ++ [s]), a', x', (b' ++ [s]). rewrite <- !app_assoc. auto.
Qed.

Lemma chain_hash E typ f n h fs ks c h' : chain E typ f n h fs ks c h' ->
  h' = hash_after typ f n h (flat_map (fun x => match x with FSig sig => [sig] | FPk _ => [] end) fs).
Proof. induction 1 as [|h pk fs ks c h' C IH|h sig pk fs ks c h' R C IH]; [reflexivity|exact IH|exact IH]. Qed.

Lemma satisfied_hash E typ h c h' : satisfied E typ h c h' -> h' = hash_after typ (fee_of c) (nonce_of c) h (signatures c).
Proof. destruct 1 as [s pk R A|m ks n h' C Q N F A]; [reflexivity|]. exact (chain_hash _ _ _ _ _ _ _ _ _ C). Qed.

(** ** C63 *)

Lemma sponsor_tampering E t u w v h k o p o' p' : ecdsa_correct E -> binds_digest E ->
  tx_auth t = ASponsored o p -> tx_auth u = ASponsored o' p' -> typed o -> typed p -> typed o' ->
  tx_means t w -> tx_means u v -> wf_tx w -> wf_tx v -> initial_hash t = Ok h -> initial_hash u = Ok k ->
  same_signatures p p' -> has_signature p -> length (signatures o) = length (signatures o') ->
  auth_verify E (tx_auth t) h = Ok tt -> auth_verify E (tx_auth u) k = Ok tt ->
  let h1 := hash_after x04 (fee_of o) (nonce_of o) h (signatures o) in
  let k1 := hash_after x04 (fee_of o') (nonce_of o') k (signatures o') in
  (same_body t u /\ p = p' /\ same_identity o o' /\ signatures o = signatures o'
   /\ (signatures o <> [] -> fee_of o = fee_of o' /\ nonce_of o = nonce_of o'))
  \/ collision (ser_tx (clear_tx w)) (ser_tx (clear_tx v))
  \/ chain_collision x04 (fee_of o) (nonce_of o) h (signatures o) (fee_of o') (nonce_of o') k (signatures o')
  \/ collision (first_message h1 x05 p) (first_message k1 x05 p')
  \/ digest_clash (first_digest h1 x05 p) (first_digest k1 x05 p')
  \/ key_swap E x05 h1 p k1 p'.
Proof.
  intros EC B At Au To Tp To' M N W V H K S P L X Y h1 k1.
  assert (typed p') as Tp'.
  { destruct S as [_ S]. destruct p, p'; cbn in *; try contradiction; congruence. }
  rewrite At in X. rewrite Au in Y. apply sponsored_verify_iff in X; auto. apply sponsored_verify_iff in Y; auto.
  destruct X as (x1 & x2 & X1 & X2), Y as (y1 & y2 & Y1 & Y2).
  apply satisfied_hash in X1, Y1. fold h1 in X1. fold k1 in Y1. subst x1 y1.
  destruct (moved E x05 h1 p x2 k1 p' y2 EC B Tp S P X2 Y2) as [D|[D|D]]; [|right; right; right; right; left; exact D|right; right; right; right; right; exact D].
  assert (length h = 32%nat) as Lh by (apply initial_hash_iff in H; destruct H as (? & _ & _ & ->); apply sha512_256_length).
  assert (length k = 32%nat) as Lk by (apply initial_hash_iff in K; destruct K as (? & _ & _ & ->); apply sha512_256_length).
  assert (length h1 = 32%nat) as Lh1 by (apply hash_after_length; exact Lh).
  assert (length k1 = 32%nat) as Lk1 by (apply hash_after_length; exact Lk).
  destruct (wf_origin t w M W) as [Bf Bn]. destruct (wf_origin u v N V) as [Bf' Bn'].
  unfold origin_of in Bf, Bn, Bf', Bn'. rewrite At in Bf, Bn. rewrite Au in Bf', Bn'.
  destruct (wf_sponsor t w p M W) as [Cf Cn]; [unfold sponsor_of; rewrite At; reflexivity|].
  destruct (wf_sponsor u v p' N V) as [Cf' Cn']; [unfold sponsor_of; rewrite Au; reflexivity|].
  apply sha_eq in D. destruct D as [D|D]; [|right; right; right; left; exact D].
  apply message_text_inj in D; auto; [|congruence]. destruct D as (D & _ & Fe & No).
  destruct (chain_commits x04 _ _ _ _ h k _ _ Lh Lk Bf Bf' Bn Bn' L D) as [(Sg & Hk & Te)|C]; [|right; right; left; exact C].
  subst k. destruct (initial_hash_commits t u w v h M N W V H K) as [[Bo Or]|C]; [|right; left; exact C].
  left. split; [exact Bo|]. split; [apply same_signatures_eq; auto|]. split; [|auto].
  rewrite At, Au in Or. exact Or.
Qed.

(** Whoever sponsors, the origin's signatures stay valid. *)
Lemma any_sponsor E t o p q g : tx_auth t = ASponsored o p ->
  tx_verify_origin E t = Ok g -> tx_verify_origin E (tx_with_auth t (ASponsored o q)) = Ok g.
Proof.
  intros A X. unfold tx_verify_origin in *. rewrite initial_hash_auth.
  - destruct (initial_hash t); cbn [bind] in *; try discriminate. rewrite A in X. exact X.
  - rewrite A. cbn [same_origin]. apply identity_refl.
Qed.
