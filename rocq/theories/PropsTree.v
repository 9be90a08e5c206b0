(** C84: accounts are the BIP-32 children of the phrase's key, and can be watched without it. *)

From Coq Require Import Strings.String ZArith List Lia.
From Verif Require Import Base SpecText SpecAddr Hash C32 SpecWire SpecSign Secp Hd Wallet Derive Rpc SpecClient ClientThms PropsClient
  EcField EcGroup EcMul SpecCurve EcRecover SpecTree SpecPhrase CurveThms PropsCurve TreeThms.
Import ListNotations.
Local Open Scope Z_scope.

(** The wallet's key: the words of the text are a BIP-39 sentence; seed of those words with single spaces, BIP-32 master key, path m/44'/5757'/0'/0. *)
Theorem C84_wallet : forall phrase (w : wallet bip_hd), from_secret_key phrase = Ok w
  <-> w_accounts w = [] /\ exists ent ws, spells phrase ws /\ sentence ent ws
        /\ exists s ch, master_key (seed_of (joined ws)) s ch
             /\ descends s ch stacks_path (xk_secret (w_ext w)) (xk_chain (w_ext w)).
Proof.
  intros phrase w. unfold from_secret_key. split.
  - destruct (from_mnemonic bip_hd phrase) as [e|k] eqn:E; [discriminate|]. intros [= <-]. cbn [w_accounts w_ext].
    split; [reflexivity|]. now apply root_iff.
  - destruct w as [k l]. cbn [w_accounts w_ext]. intros (-> & R). apply root_iff in R. now rewrite R.
Qed.
Print Assumptions C84_wallet.

Lemma wallet_root (H : hd) phrase (w : wallet H) : from_secret_key phrase = Ok w -> from_mnemonic H phrase = inr (w_ext w).
Proof. unfold from_secret_key. destruct (from_mnemonic H phrase) as [e|k]; intros X; [discriminate|]. injection X as <-. reflexivity. Qed.
Lemma lookup_child (H : hd) (root : xprv H) l i : stored l i = None ->
  looked_up root l i = match derive_child H root i with inr x => Ok {| acc_ext := x; acc_index := i |} | inl e => Err (WHd e) end.
Proof. intros S. unfold looked_up. rewrite S. reflexivity. Qed.
Lemma lookup_ok (H : hd) (r : hd_err H + xprv H) i a :
  match r with inr x => Ok {| acc_ext := x; acc_index := i |} | inl e => Err (WHd e) end = Ok a <-> acc_index a = i /\ r = inr (acc_ext a).
Proof.
  destruct r as [e|x]; split.
  - discriminate.
  - intros [_ X]. discriminate.
  - intros [= <-]. split; reflexivity.
  - destruct a as [y j]. cbn [acc_index acc_ext]. intros [-> [= ->]]. reflexivity.
Qed.
Lemma lookup_err (H : hd) (r : hd_err H + xprv H) i :
  (exists e, match r with inr x => Ok {| acc_ext := x; acc_index := i |} | inl e => Err (WHd e) end = Err e) <-> forall x, r <> inr x.
Proof.
  destruct r as [e|x]; split.
  - intros _ x X. discriminate.
  - eauto.
  - intros [e X]. discriminate.
  - intros N. destruct (N x). reflexivity.
Qed.

(** Account [i], whatever was looked up before: child [i] of that key. *)
Theorem C84_account : forall phrase (w : wallet bip_hd) l i a, from_secret_key phrase = Ok w -> stored l i = None ->
  (snd (get_account (wrun w l) i) = Ok a
   <-> acc_index a = i /\ child_private (xk_secret (w_ext w)) (xk_chain (w_ext w)) i (xk_secret (acc_ext a)) (xk_chain (acc_ext a)))
  /\ ((exists e, snd (get_account (wrun w l) i) = Err e)
   <-> forall s ch, ~ child_private (xk_secret (w_ext w)) (xk_chain (w_ext w)) i s ch).
Proof.
  intros phrase w l i a E S.
  rewrite (C48_lookup bip_hd phrase w (w_ext w) l i E (wallet_root bip_hd phrase w E)), (lookup_child bip_hd (w_ext w) l i S). split.
  - rewrite lookup_ok. rewrite <- (ckd_iff (w_ext w) i (acc_ext a)). reflexivity.
  - rewrite lookup_err. split.
    + intros N s ch C. destruct (held s ch (child_range _ _ _ _ _ C)) as (k & Hs & Hc). rewrite <- Hs, <- Hc in C.
      exact (N k (proj2 (ckd_iff (w_ext w) i k) C)).
    + intros N x X. exact (N _ _ (proj1 (ckd_iff (w_ext w) i x) X)).
Qed.
Print Assumptions C84_account.

(** The points of the children below 2^31 follow from the point and the chain code of the parent alone. *)
Theorem C84_watch : forall (k : xprv bip_hd) i P' ch', (i < 2 ^ 31)%N ->
  (child_public (secret_point (xk_secret k)) (xk_chain k) i P' ch'
   <-> exists c, derive_child bip_hd k i = inr c /\ P' = secret_point (xk_secret c) /\ ch' = xk_chain c).
Proof. intros k i P' ch' L. apply public_iff. unfold hardened. lia. Qed.
Print Assumptions C84_watch.

Lemma xpub_point (c : xprv bip_hd) : point_bytes (secret_point (xk_secret c)) (xpub_bytes bip_hd c).
Proof.
  rewrite <- (hd_pub secp bip_hd bip_correct c). pose proof (C77_public_key _ (hd_key secp bip_hd bip_correct c)) as H.
  assert (E : scalar_z (xprv_bytes bip_hd c) = xk_secret c) by exact (secret_value c). rewrite E in H. exact H.
Qed.

(** So do the account's addresses. *)
Theorem C84_watch_address : forall (k : xprv bip_hd) i P' ch' a v, (i < 2 ^ 31)%N ->
  child_public (secret_point (xk_secret k)) (xk_chain k) i P' ch' -> account_derive i k = Ok a ->
  exists b s, point_bytes P' b /\ get_address a v = Ok s /\ address_text (hash20 b) (address_code v) s.
Proof.
  intros k i P' ch' a v L C D. apply (proj1 (C84_watch k i P' ch' L)) in C. destruct C as (c & E & -> & _).
  unfold account_derive in D. rewrite E in D.
  assert (A : a = {| acc_ext := c; acc_index := i |}) by (injection D as <-; reflexivity). clear D.
  destruct (C49_address bip_hd a v) as (s & G & T & _).
  exists (xpub_bytes bip_hd (acc_ext a)), s. split; [|split; [exact G|exact T]]. rewrite A. exact (xpub_point c).
Qed.
Print Assumptions C84_watch_address.

(** One child's private key and the parent's public data give the parent's private key, and so every other child's. *)
Theorem C84_one_key_opens_all : forall (k : xprv bip_hd) i c h, (i < 2 ^ 31)%N -> derive_child bip_hd k i = inr c ->
  public_tweak (secret_point (xk_secret k)) (xk_chain k) i h ->
  xk_secret k = (xk_secret c - scalar_z (firstn 32 h)) mod curve_order.
Proof. intros k i c h L. apply parent_secret. unfold hardened. lia. Qed.
Print Assumptions C84_one_key_opens_all.

(** A key with children of both kinds, and the data its watcher needs. *)
Definition ex_key : xkey := {| xk_secret := 1; xk_chain := repeat x2a 32; xk_ok := eq_refl |}.
Definition has_child (k : xkey) (i : N) : bool := match ckd_priv k i with inr _ => true | inl _ => false end.
Lemma has_child_some k i : has_child k i = true -> exists c, derive_child bip_hd k i = inr c.
Proof. unfold has_child. cbn [derive_child bip_hd]. destruct (ckd_priv k i) as [|c]; [discriminate|]. eauto. Qed.
Example C84_ex : (exists c, derive_child bip_hd ex_key 0 = inr c) /\ (exists c, derive_child bip_hd ex_key (2 ^ 31) = inr c)
  /\ (exists P' ch', child_public (secret_point 1) (repeat x2a 32) 0 P' ch')
  /\ exists h, public_tweak (secret_point 1) (repeat x2a 32) 0 h.
Proof.
  assert (A : exists c, derive_child bip_hd ex_key 0 = inr c) by (apply has_child_some; vm_compute; reflexivity).
  split; [exact A|]. split; [apply has_child_some; vm_compute; reflexivity|]. split.
  - destruct A as [c A]. exists (secret_point (xk_secret c)), (xk_chain c).
    apply (proj2 (C84_watch ex_key 0 _ _ eq_refl)). exists c. split; [exact A|split; reflexivity].
  - eexists. exists (public_bytes ex_key). split; [exact (public_point ex_key)|reflexivity].
Qed.
