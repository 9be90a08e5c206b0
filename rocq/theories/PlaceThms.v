(** A signature is one for one place of one transaction. *)

From Coq Require Import Lia ZifyBool ZifyNat ZifyN.
From Verif Require Import Base BaseFacts SpecText NumFacts Sha2 Hash HashFacts C32 Clarity SpecWire Tx SpecTx Signer Builder
  WireFacts ClarityFacts TxWire TxFacts TxThms SpecSign SignFacts SignThms HistThms PlanThms AuthThms SpecBind BindThms SpecPlace.
Local Open Scope N_scope.

Lemma run_snoc h l s : run h (l ++ [s]) = link (digest_at h l s) (sp_sig s).
Proof. unfold run. rewrite fold_left_app. reflexivity. Qed.
Lemma run_length h l : length h = 32%nat -> length (run h l) = 32%nat.
Proof. intros L. destruct l as [|s l _] using rev_ind; [exact L|]. rewrite run_snoc. apply sha512_256_length. Qed.

Definition in_range (s : stamp) : Prop := sp_fee s < 2 ^ 64 /\ sp_nonce s < 2 ^ 64.

Lemma stamps_range role c : fee_of c < 2 ^ 64 -> nonce_of c < 2 ^ 64 -> Forall in_range (stamps role c).
Proof. intros F N. unfold stamps. apply Forall_forall. intros s H. apply in_map_iff in H. destruct H as (x & <- & _). split; assumption. Qed.

Lemma all_range t w : tx_means t w -> wf_tx w -> Forall in_range (all_stamps t).
Proof.
  intros M W. unfold all_stamps. apply Forall_app. destruct (wf_origin t w M W) as [F N]. split; [now apply stamps_range|].
  destruct (sponsor_of t) as [p|] eqn:S; [|constructor]. destruct (wf_sponsor t w p M W S). now apply stamps_range.
Qed.

Lemma hashed_more w h l r a : hashed w h l a -> hashed w h (l ++ r) a.
Proof.
  destruct 1 as [|b s a ->|b s a ->]; [constructor|..]; rewrite <- app_assoc; cbn [app];
    [eapply hashed_message|eapply hashed_link]; reflexivity.
Qed.
Lemma collision_more w h l v k l' r r' : hash_collision w h l v k l' -> hash_collision w h (l ++ r) v k (l' ++ r').
Proof. intros (a & b & A & B & C). exists a, b. split; [now apply hashed_more|]. split; [now apply hashed_more|exact C]. Qed.
Lemma lookalike_more h l v r : lookalike h l v -> lookalike h (l ++ r) v.
Proof. intros (b & s & a & -> & L). exists b, s, (a ++ r). rewrite <- app_assoc. auto. Qed.

Section Two.
Variables (w v : wtx) (h k : bytes).
Hypothesis (Hh : h = sha512_256 (ser_tx (clear_tx w))) (Hk : k = sha512_256 (ser_tx (clear_tx v))).

Notation coincidence l l' := (SpecPlace.coincidence w h l v k l').

Lemma coincidence_more l l' r r' : coincidence l l' -> coincidence (l ++ r) (l' ++ r').
Proof.
  intros [C|[C|C]]; [left; now apply collision_more|right; left; now apply lookalike_more|right; right; now apply lookalike_more].
Qed.

Lemma h_length : length h = 32%nat. Proof. rewrite Hh. apply sha512_256_length. Qed.
Lemma k_length : length k = 32%nat. Proof. rewrite Hk. apply sha512_256_length. Qed.

(** Equal digests are equal hashes so far, under the same terms. *)
Lemma digests_same l s l' s' : in_range s -> in_range s' -> digest_at h l s = digest_at k l' s' ->
  (run h l = run k l' /\ sp_role s = sp_role s' /\ sp_fee s = sp_fee s' /\ sp_nonce s = sp_nonce s') \/ coincidence (l ++ [s]) (l' ++ [s']).
Proof.
  intros [F N] [F' N'] D. unfold digest_at, digest in D. apply sha_eq in D. destruct D as [D|D].
  - left. apply message_text_inj in D; auto. rewrite !run_length; [reflexivity|apply k_length|apply h_length].
  - right. left. eexists _, _. split; [|split; [|exact D]]; eapply hashed_message; reflexivity.
Qed.

(** Equal hashes so far have equal pasts. *)
Lemma runs_same l : forall l', Forall in_range l -> Forall in_range l' -> run h l = run k l' ->
  (l = l' /\ h = k /\ (ser_tx (clear_tx w) = ser_tx (clear_tx v))) \/ coincidence l l'.
Proof.
  induction l as [|s l IH] using rev_ind; intros l' R R' H.
  - destruct l' as [|s' l' _] using rev_ind.
    + cbn in H. assert (D := H). rewrite Hh, Hk in D. apply sha_eq in D. destruct D as [D|D]; [left; auto|].
      right. left. eexists _, _. split; [constructor|]. split; [constructor|exact D].
    + rewrite run_snoc in H. change (run h []) with h in H. rewrite Hh in H. unfold link in H. apply sha_eq in H. destruct H as [H|H].
      * right. right. right. exists l', s', []. split; [reflexivity|]. now symmetry.
      * right. left. eexists _, _. split; [constructor|]. split; [|exact H]. eapply hashed_link. reflexivity.
  - destruct l' as [|s' l' _] using rev_ind.
    + rewrite run_snoc in H. change (run k []) with k in H. rewrite Hk in H. unfold link in H. apply sha_eq in H. destruct H as [H|H].
      * right. right. left. exists l, s, []. split; [reflexivity|exact H].
      * right. left. eexists _, _. split; [eapply hashed_link; reflexivity|]. split; [constructor|exact H].
    + rewrite !run_snoc in H. apply Forall_app in R, R'. destruct R as [R Rs], R' as [R' Rs']. inversion_clear Rs as [|? ? Hs _]. inversion_clear Rs' as [|? ? Hs' _].
      unfold link in H. apply sha_eq in H. destruct H as [H|H].
      * apply link_inj in H; [|unfold digest_at; rewrite !digest_length; reflexivity]. destruct H as [D S].
        destruct (digests_same l s l' s' Hs Hs' D) as [(E & A & B & C)|C]; [|now right].
        destruct (IH l' R R' E) as [(-> & Q)|C']; [|right; now apply coincidence_more].
        left. split; [|exact Q]. do 2 f_equal. destruct s, s'. cbn in *. congruence.
      * right. left. eexists _, _. split; [eapply hashed_link; reflexivity|]. split; [eapply hashed_link; reflexivity|exact H].
Qed.
End Two.

Lemma hash_of t w h : tx_means t w -> wf_tx w -> initial_hash t = Ok h -> h = sha512_256 (ser_tx (clear_tx w)).
Proof.
  intros M W H. apply initial_hash_iff in H. destruct H as (w' & M' & _ & ->).
  assert (w' = w) as -> by (apply (tx_same t t); auto; split; [apply (body_same t t w w); auto; splits; auto|reflexivity]). reflexivity.
Qed.

Lemma stands_range t w b s : tx_means t w -> wf_tx w -> stands t b s -> Forall in_range b /\ in_range s.
Proof.
  intros M W [a A]. assert (R := all_range t w M W). rewrite A in R. apply Forall_app in R. destruct R as [R Q]. inversion_clear Q. auto.
Qed.

Lemma stamps_sig role c : wf_spend (spend_wire c) -> Forall (fun s => length (sp_sig s) = 65%nat) (stamps role c).
Proof.
  intros W. unfold stamps. apply Forall_forall. intros s H. apply in_map_iff in H. destruct H as (x & <- & I). cbn [sp_sig].
  destruct c as [c|c]; cbn [signatures spend_wire wf_spend] in I, W.
  - destruct I as [<-|[]]. apply W.
  - destruct W as (_ & _ & _ & _ & _ & W & _). apply in_flat_map in I. destruct I as (f & I & J). rewrite Forall_forall in W.
    destruct f as [pk|sig]; [destruct J|destruct J as [<-|[]]]. exact (W (WfSig sig) (in_map field_wire _ _ I)).
Qed.
Lemma stands_sig t w b s : tx_means t w -> wf_tx w -> stands t b s -> length (sp_sig s) = 65%nat.
Proof.
  intros (_ & _ & A & _) (_ & W & _) [a S]. rewrite A in W.
  assert (F : Forall (fun s => length (sp_sig s) = 65%nat) (all_stamps t)).
  { unfold all_stamps, origin_of, sponsor_of. destruct (tx_auth t) as [o|o p]; cbn [auth_wire wf_auth] in W; apply Forall_app.
    - split; [now apply stamps_sig|constructor].
    - split; apply stamps_sig; apply W. }
  rewrite S in F. apply Forall_app in F. destruct F as [_ F]. now inversion_clear F.
Qed.

(** ** One place *)
Lemma one_digest t u w v h k b s b' s' : tx_means t w -> tx_means u v -> wf_tx w -> wf_tx v ->
  initial_hash t = Ok h -> initial_hash u = Ok k -> stands t b s -> stands u b' s' -> digest_at h b s = digest_at k b' s' ->
  (same_body t u /\ same_origin (tx_auth t) (tx_auth u) /\ b = b' /\ sp_role s = sp_role s' /\ sp_fee s = sp_fee s' /\ sp_nonce s = sp_nonce s')
  \/ coincidence w h (b ++ [s]) v k (b' ++ [s']).
Proof.
  intros M N W V H K S S' D. assert (Hh := hash_of t w h M W H). assert (Hk := hash_of u v k N V K).
  destruct (stands_range t w b s M W S) as [R Rs], (stands_range u v b' s' N V S') as [R' Rs'].
  destruct (digests_same w v h k Hh Hk b s b' s' Rs Rs' D) as [(E & Q)|C]; [|now right].
  destruct (runs_same w v h k Hh Hk b b' R R' E) as [(-> & <- & X)|C]; [|right; now apply coincidence_more].
  left. destruct (initial_hash_commits t u w v h M N W V H K) as [[B O]|[C _]]; [auto|contradiction].
Qed.

Lemma one_place E t u w v h k b s b' s' pk : binds_digest E -> tx_means t w -> tx_means u v -> wf_tx w -> wf_tx v ->
  initial_hash t = Ok h -> initial_hash u = Ok k -> stands t b s -> stands u b' s' -> sp_sig s = sp_sig s' ->
  counts E h b s pk -> counts E k b' s' pk ->
  (same_body t u /\ same_origin (tx_auth t) (tx_auth u) /\ b = b' /\ s = s')
  \/ digest_clash (digest_at h b s) (digest_at k b' s') \/ coincidence w h (b ++ [s]) v k (b' ++ [s']).
Proof.
  intros B M N W V H K S S' G C C'. unfold counts in *. rewrite <- G in C'.
  destruct (same_digest E _ _ _ _ B (digest_length _ _ _ _) (digest_length _ _ _ _) C C') as [D|D]; [|right; left; exact D].
  destruct (one_digest t u w v h k b s b' s' M N W V H K S S' D) as [(X & Y & Z & P)|X]; [|right; right; exact X].
  left. split; [exact X|]. split; [exact Y|]. split; [exact Z|]. destruct s, s'. cbn in *. destruct P as (-> & -> & ->). congruence.
Qed.

(** ** The signatures of a verified transaction count *)
Definition stamp_of (role : byte) (f n : N) (s : bytes) : stamp := {| sp_role := role; sp_fee := f; sp_nonce := n; sp_sig := s |}.

Lemma chain_counts E role f n h fs ks c h' : chain E role f n h fs ks c h' -> forall b s a,
  map (stamp_of role f n) (flat_map (fun x => match x with FSig sig => [sig] | FPk _ => [] end) fs) = b ++ s :: a ->
  exists pk, In pk ks /\ counts E h b s pk.
Proof.
  induction 1 as [h|h pk fs ks c h' C IH|h sig pk fs ks c h' R C IH]; intros b s a L.
  - destruct b; discriminate.
  - cbn [flat_map app] in L. destruct (IH b s a L) as (q & I & Q). exists q. split; [right; exact I|exact Q].
  - cbn [flat_map app map] in L. destruct b as [|x b].
    + injection L as <- _. exists pk. split; [left; reflexivity|exact R].
    + injection L as <- L. destruct (IH b s a L) as (q & I & Q). exists q. split; [right; exact I|exact Q].
Qed.

Lemma satisfied_counts E role h c h' : satisfied E role h c h' ->
  run h (stamps role c) = h' /\ forall b s a, stamps role c = b ++ s :: a -> exists pk, counts E h b s pk.
Proof.
  intros S. split.
  - rewrite (satisfied_hash E role h c h' S). unfold stamps, run, hash_after. generalize (signatures c) as l. clear S. intros l. revert h.
    induction l as [|x l IH]; intros h; [reflexivity|]. cbn [map fold_left]. apply IH.
  - destruct S as [s pk R A|m ks n h' C Q N F A]; intros b x a L.
    + cbn in L. destruct b as [|y b]; [|destruct b; discriminate]. injection L as <- _. exists pk. exact R.
    + destruct (chain_counts E role _ _ h _ ks n h' C b x a L) as (pk & _ & P). eauto.
Qed.

Lemma run_app h a b : run h (a ++ b) = run (run h a) b.
Proof. apply fold_left_app. Qed.

Lemma origin_counts E t h g : typed (origin_of t) -> initial_hash t = Ok h -> tx_verify_origin E t = Ok g ->
  g = run h (stamps x04 (origin_of t)) /\ forall b s a, stamps x04 (origin_of t) = b ++ s :: a -> exists pk, counts E h b s pk.
Proof.
  intros T H V. apply (verify_origin_iff E t h g H T) in V. destruct (satisfied_counts _ _ _ _ _ V) as [R C]. split; [now symmetry|exact C].
Qed.

Lemma split_at {A} (l m b : list A) s a : l ++ m = b ++ s :: a ->
  (exists r, l = b ++ s :: r) \/ exists c, b = l ++ c /\ m = c ++ s :: a.
Proof.
  revert b. induction l as [|x l IH]; intros b H; [right; exists b; auto|]. destruct b as [|y b].
  - injection H as <- _. left. exists l. reflexivity.
  - injection H as <- H. destruct (IH b H) as [[r ->]|(c & -> & ->)]; [left; exists r; reflexivity|right; exists c; auto].
Qed.

Lemma sponsored_counts E t o p h : tx_auth t = ASponsored o p -> typed o -> typed p -> auth_verify E (tx_auth t) h = Ok tt ->
  forall b s, stands t b s -> exists pk, counts E h b s pk.
Proof.
  intros A To Tp V b s [a S]. rewrite A in V. apply sponsored_verify_iff in V; auto. destruct V as (h1 & h2 & V1 & V2).
  unfold all_stamps, origin_of, sponsor_of in S. rewrite A in S.
  destruct (satisfied_counts _ _ _ _ _ V1) as [R1 C1], (satisfied_counts _ _ _ _ _ V2) as [_ C2].
  apply split_at in S. destruct S as [[r S]|(c & -> & S)]; [exact (C1 b s r S)|]. destruct (C2 c s a S) as [pk C]. exists pk.
  unfold counts, digest_at. rewrite run_app, R1. exact C.
Qed.

(** ** Digests that read as transactions *)

Lemma cond_long c : wf_cond c -> (32 <= length (ser_cond c))%nat.
Proof.
  assert (forall p, is_principal p -> wall hash1 p -> (22 <= length (ser_who p))%nat) as W.
  { intros p P H. destruct p; try contradiction; cbn in H |- *; [|rewrite app_length]; lia. }
  destruct c as [p k n|p [av ah an aa] k n|p [av ah an aa] v k]; cbn [wf_cond ser_cond wf_asset wa_hash].
  - intros (P & (_ & _ & _ & H) & _). specialize (W p P H). cbn [length]. rewrite app_length. cbn [length]. rewrite big_endian_length. lia.
  - intros (P & (_ & _ & _ & H) & (L & _) & _). specialize (W p P H). cbn [wa_hash] in L. unfold ser_asset. cbn [length wa_ver wa_hash wa_contract wa_name].
    rewrite !app_length. cbn [length]. rewrite !app_length. cbn [length]. rewrite big_endian_length. lia.
  - intros (P & (_ & _ & _ & H) & (L & _) & _). specialize (W p P H). cbn [wa_hash] in L. unfold ser_asset. cbn [length wa_ver wa_hash wa_contract wa_name].
    rewrite !app_length. cbn [length]. rewrite !app_length. cbn [length]. lia.
Qed.

Lemma spend_long c : wf_spend c -> (43 <= length (ser_spend (clear_spend c)))%nat.
Proof.
  destruct c as [m s n f g|m s n f l r]; cbn [wf_spend clear_spend ser_spend].
  - intros (_ & L & _). cbn [length]. rewrite !app_length, !big_endian_length. cbn [length]. rewrite repeat_length. lia.
  - intros (_ & L & _). cbn [length flat_map app]. rewrite !app_length, !big_endian_length. lia.
Qed.

Lemma lookalike_shape d s v : length d = 32%nat -> length s = 65%nat -> wf_tx v -> link_text d s = ser_tx (clear_tx v) ->
  exists mode signer nonce fee fields required ver hash contract fname args r,
    w_auth v = WaStandard (WsMulti mode signer nonce fee fields required) /\ w_conds v = []
    /\ w_payload v = WpCall ver hash contract fname args
    /\ count contract + count fname + count (flat_map wser args) = 15
    /\ d = w_version v :: big_endian 4 (w_chain v) ++ x04 :: mode :: signer ++ repeat x00 5
    /\ s = repeat x00 10 ++ r.
Proof.
  intros Ld Ls (_ & A & _ & Cs & P) H.
  assert (L := f_equal (@length byte) H). unfold link_text in L. rewrite !app_length, Ld, Ls in L. cbn [length Nat.add] in L.
  unfold ser_tx, clear_tx in H, L. cbn [w_version w_chain w_auth w_anchor w_pcmode w_conds w_payload] in H, L.
  cbn [length] in L. rewrite !app_length in L. cbn [length] in L. rewrite !app_length, !big_endian_length in L.
  assert (Lp : (28 <= length (ser_payload (w_payload v)))%nat /\ (forall to n memo, w_payload v = WpTransfer to n memo ->
    44 <= length (ser_payload (w_payload v)))%nat).
  { destruct (w_payload v) as [to n memo|ver hash c f args]; cbn [wf_payload ser_payload] in P |- *.
    - destruct P as ((_ & _ & W & _) & _ & Lm). apply wser_nonempty in W. cbn [length]. rewrite !app_length, big_endian_length, Lm.
      split; [|intros _ _ _ _]; lia.
    - destruct P as (Lh & _). unfold ser_name. cbn [length]. rewrite !app_length, !big_endian_length. split; [lia|discriminate]. }
  destruct Lp as [Lp Lt].
  destruct (w_conds v) as [|c cs] eqn:Cv.
  2:{ inversion_clear Cs as [|? ? Wc _]. apply cond_long in Wc. cbn [flat_map] in L. rewrite app_length in L. exfalso.
      destruct (w_auth v) as [o|o p]; cbn [clear_auth ser_auth length wf_auth] in L, A.
      - apply spend_long in A. lia.
      - destruct A as [A _]. apply spend_long in A. rewrite app_length in L. lia. }
  cbn [flat_map length] in L.
  destruct (w_auth v) as [o|o p] eqn:Av; cbn [clear_auth ser_auth length wf_auth] in L, A.
  2:{ destruct A as [A _]. apply spend_long in A. rewrite app_length in L. cbn [ser_spend length] in L. rewrite !app_length, !big_endian_length in L.
      cbn [length] in L. rewrite !repeat_length in L. lia. }
  destruct o as [m sg n f g|m sg n f l r]; cbn [clear_spend ser_spend length flat_map app wf_spend] in L, A.
  { destruct A as (_ & A & _). rewrite !app_length, !big_endian_length in L. cbn [length] in L. rewrite repeat_length in L. lia. }
  destruct A as (_ & A & _). rewrite !app_length, !big_endian_length in L.
  destruct (w_payload v) as [to n0 memo|ver hash c f0 args] eqn:Pv; [specialize (Lt _ _ _ eq_refl); lia|]. clear Lt Lp.
  cbn [ser_payload wf_payload length] in L, P. destruct P as (Lh & _). unfold ser_name in L. rewrite !app_length, !big_endian_length in L.
  set (tail := big_endian 4 (count (@nil wfield)) ++ big_endian 2 r) in *.
  cbn [clear_auth ser_auth clear_spend ser_spend flat_map app] in H.
  exists m, sg, n, f, l, r, ver, hash, c, f0, args. unfold link_text in H.
  assert (X : w_version v :: big_endian 4 (w_chain v) ++ (x04 :: m :: sg ++ big_endian 8 0 ++ big_endian 8 0 ++ tail)
    ++ w_anchor v :: w_pcmode v :: big_endian 4 (count (@nil wcond)) ++ ser_payload (WpCall ver hash c f0 args)
    = (w_version v :: big_endian 4 (w_chain v) ++ x04 :: m :: sg ++ repeat x00 5)
      ++ ([x00] ++ repeat x00 10 ++ (tail ++ w_anchor v :: w_pcmode v :: big_endian 4 (count (@nil wcond)) ++ ser_payload (WpCall ver hash c f0 args)))).
  { change (big_endian 8 0) with (repeat x00 8). cbn [app]. rewrite <- !app_assoc. cbn [app]. rewrite <- !app_assoc. reflexivity. }
  apply (eq_trans H) in X. clear H. rename X into H. apply app_inj_len in H.
  2:{ cbn [length]. rewrite Ld, !app_length, big_endian_length. cbn [length]. rewrite app_length, repeat_length, A. reflexivity. }
  destruct H as [H1 H2]. injection H2 as H2. eexists.
  split; [reflexivity|]. split; [reflexivity|]. split; [reflexivity|]. split; [unfold count; lia|]. split; [exact H1|].
  rewrite H2. reflexivity.
Qed.
