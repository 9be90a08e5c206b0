(** Proofs about replaced signatures (C81). *)

From Coq Require Import ZArith List Lia.
From Verif Require Import Base BaseFacts Sha2 SpecText SpecWire Hash C32 Clarity Tx SpecTx Signer Builder TxThms SpecSign SignFacts SignThms AuthThms
     SpecBind BindThms Secp EcSign SpecCurve EcRecover WireFacts PlanThms SpecNode NodeThms CurveThms SpecTwin.
Import ListNotations.
Local Open Scope N_scope.

Lemma chain_app_inv E typ f n h a b ks c h' : chain E typ f n h (a ++ b) ks c h' ->
  exists ka ca hm kb cb, ks = ka ++ kb /\ c = ca + cb /\ length ka = length a
    /\ chain E typ f n h a ka ca hm /\ chain E typ f n hm b kb cb h'.
Proof.
  revert h ks c. induction a as [|x a IH]; intros h ks c H; cbn [app] in H.
  - exists [], 0, h, ks, c. repeat split; try assumption. constructor.
  - inversion H as [|? pk ? kt ? ? C|? sig pk ? kt nt ? R C]; subst.
    + destruct (IH _ _ _ C) as (ka & ca & hm & kb & cb & -> & -> & L & A & B).
      exists (pk :: ka), ca, hm, kb, cb. cbn [length app]. rewrite L. repeat split; auto. now constructor.
    + destruct (IH _ _ _ C) as (ka & ca & hm & kb & cb & -> & -> & L & A & B).
      exists (pk :: ka), (1 + ca), hm, kb, cb. cbn [length app]. rewrite L. repeat split; auto; [lia|]. econstructor; eauto.
Qed.

Lemma chain_app E typ f n h a b ka ca hm kb cb h' :
  chain E typ f n h a ka ca hm -> chain E typ f n hm b kb cb h' -> chain E typ f n h (a ++ b) (ka ++ kb) (ca + cb) h'.
Proof.
  intros A B. induction A as [h|h pk fs ks c hm A IH|h sig pk fs ks c hm R A IH]; cbn [app].
  - exact B.
  - constructor. now apply IH.
  - rewrite <- N.add_assoc. econstructor; [exact R|]. now apply IH.
Qed.

Lemma chain_det E typ f n h fs ks c g ks' c' g' : chain E typ f n h fs ks c g -> chain E typ f n h fs ks' c' g' -> ks = ks' /\ c = c' /\ g = g'.
Proof.
  intros A. revert ks' c' g'. induction A as [h|h pk fs ks c hm A IH|h sig pk fs ks c hm R A IH]; intros ks' c' g' B; inversion B as [|? ? ? ? ? ? B1|? ? pk' ? ? ? ? R' B1]; subst.
  - auto.
  - destruct (IH _ _ _ B1) as (-> & -> & ->). auto.
  - destruct (IH _ _ _ B1) as (-> & -> & ->). destruct R as (r & F & S & R), R' as (r' & F' & S' & R').
    assert (r = r') as <- by (apply sig_bytes_inj; congruence). rewrite R in R'. injection R' as <-. auto.
Qed.

(** Without signatures the hash is of no account. *)
Lemma chain_keys_only E typ f n fs h ks c g : filter is_sig fs = [] -> chain E typ f n h fs ks c g -> c = 0 /\ forall k, chain E typ f n k fs ks 0 k.
Proof.
  intros N C. induction C as [h|h pk fs ks c hm C IH|h sig pk fs ks c hm R C IH]; cbn [filter is_sig] in N.
  - split; [reflexivity|constructor].
  - destruct (IH N) as [-> K]. split; [reflexivity|]. intros k. constructor. apply K.
  - discriminate.
Qed.

Lemma recovers_twin d g pk : compact_form g -> recovers secp d (sig_bytes g) pk -> recovers secp d (sig_bytes (twin g)) pk.
Proof.
  intros F (r & F' & S & R). assert (g = r) as <- by (now apply sig_bytes_inj). destruct (twin_recovers d g pk F R) as (T & R' & _).
  exists (twin g). auto.
Qed.

Lemma twin_differs d g pk : compact_form g -> recovers secp d (sig_bytes g) pk -> sig_bytes (twin g) <> sig_bytes g.
Proof.
  intros F (r & F' & S & R) X. assert (g = r) as <- by (now apply sig_bytes_inj). destruct (twin_recovers d g pk F R) as (T & _ & _ & N).
  apply N. now apply sig_bytes_inj.
Qed.

Lemma with_fields_parts m fs : ms_mode (with_fields m fs) = ms_mode m /\ ms_fee (with_fields m fs) = ms_fee m /\ ms_nonce (with_fields m fs) = ms_nonce m
  /\ ms_signer (with_fields m fs) = ms_signer m /\ ms_required (with_fields m fs) = ms_required m /\ ms_fields (with_fields m fs) = fs.
Proof. repeat split. Qed.

Lemma twinned_same c after c' : twinned c after c' -> same_identity c c' /\ fee_of c' = fee_of c /\ nonce_of c' = nonce_of c /\ same_terms c c'.
Proof. intros T. destruct T; cbn; repeat split. Qed.

(** ** The last signature *)
Lemma last_twin typ h c after c' h1 : twinned c after c' -> filter is_sig after = [] -> satisfied secp typ h c h1 ->
  exists h2, satisfied secp typ h c' h2 /\ signatures c' <> signatures c.
Proof.
  intros T N S. destruct T as [s g F Es|m before g after F Ef].
  - inversion S as [s0 pk R A|]; subst s0. eexists. split.
    + apply (sat_single secp typ h (with_sig s (sig_bytes (twin g))) pk); [|exact A]. cbn [with_sig std_fee std_nonce std_sig].
      apply recovers_twin; [exact F|]. rewrite <- Es. exact R.
    + cbn [signatures with_sig std_sig]. intros X. apply (f_equal (@hd bytes [])) in X. cbn [app hd] in X. rewrite Es in *. exact (twin_differs _ g pk F R X).
  - inversion S as [|m0 ks n h' C Q B Fi A]; subst m0. rewrite Ef in C.
    destruct (chain_app_inv _ _ _ _ _ _ _ _ _ _ C) as (ka & ca & hm & kb & cb & -> & -> & L & Ca & Cb).
    inversion Cb as [| |? sig pk ? kt nt ? R Ct]; subst. destruct (chain_keys_only _ _ _ _ _ _ _ _ _ N Ct) as [-> K].
    eexists. split.
    + destruct (with_fields_parts m (before ++ FSig (sig_bytes (twin g)) :: after)) as (E1 & E2 & E3 & E4 & E5 & E6).
      eapply (sat_multi secp typ h (with_fields m (before ++ FSig (sig_bytes (twin g)) :: after)) (ka ++ pk :: kt) (ca + (1 + 0)));
        rewrite ?E1, ?E2, ?E3, ?E4, ?E5, ?E6; try assumption.
      eapply chain_app; [exact Ca|]. econstructor; [apply recovers_twin; [exact F|exact R]|]. apply K.
    + cbn [signatures with_fields ms_fields]. rewrite Ef, !flat_map_app. cbn [flat_map]. intros X. apply app_inv_head in X.
      apply (f_equal (@hd bytes [])) in X. cbn [app hd] in X. exact (twin_differs _ g pk F R X).
Qed.

(** ** An earlier signature *)
Lemma first_signature E typ f n h k fs ks c g c' g' : chain E typ f n h fs ks c g -> chain E typ f n k fs ks c' g' -> filter is_sig fs <> [] ->
  exists sig pk rest, flat_map (fun x => match x with FSig sig => [sig] | FPk _ => [] end) fs = sig :: rest
    /\ recovers E (digest h typ f n) sig pk /\ recovers E (digest k typ f n) sig pk.
Proof.
  intros C. revert c' g'. induction C as [h|h pk fs ks c hm C IH|h sig pk fs ks c hm R C IH]; intros c' g' D P.
  - now destruct P.
  - inversion D; subst. cbn [flat_map app]. eapply IH; eauto.
  - inversion D; subst. cbn [flat_map app]. eauto 10.
Qed.

Lemma early_twin typ h c after c' h1 h2 : typed c -> twinned c after c' -> filter is_sig after <> [] ->
  satisfied secp typ h c h1 -> satisfied secp typ h c' h2 -> unnoticed secp typ h c c'.
Proof.
  intros Ty T N S S'. destruct T as [s g F Es|m before g after F Ef]; [now destruct N|].
  set (m' := with_fields m (before ++ FSig (sig_bytes (twin g)) :: after)) in *.
  inversion S as [|m0 ks n g1 C Q B Fi A]; subst m0 g1. inversion S' as [|m0 ks' n' g1 C' Q' B' Fi' A']; subst m0 g1.
  cbn [typed] in Ty.
  assert (Ty' : Forall typed_field (ms_fields m')).
  { cbn [m' with_fields ms_fields]. rewrite Ef in Ty. apply Forall_app in Ty. destruct Ty as [T1 T2]. inversion T2; subst.
    apply Forall_app. split; [assumption|]. constructor; [|assumption]. cbn [typed_field].
    rewrite Ef in C. destruct (chain_app_inv _ _ _ _ _ _ _ _ _ _ C) as (ka & ca & hm & kb & cb & _ & _ & _ & _ & Cb).
    inversion Cb as [| |? sig pk ? kt nt ? R Ct]; subst. destruct R as (r & F' & X & R).
    assert (g = r) as <- by (now apply sig_bytes_inj). apply sig_bytes_length. now destruct (twin_recovers _ g pk F R). }
  destruct (keys_address_inj (ms_mode m) (Byte.to_N (ms_required m)) (Byte.to_N (ms_required m)) ks ks' (ms_signer m)) as [[_ E1]|E1].
  - exact (chain_keys _ _ _ _ _ _ _ _ _ secp_correct Ty C).
  - exact (chain_keys _ _ _ _ _ _ _ _ _ secp_correct Ty' C').
  - apply Fi.
  - apply Fi.
  - exact A.
  - exact A'.
  - subst ks'. pose proof C as C0. rewrite Ef in C. cbn [m' with_fields ms_fields ms_fee ms_nonce] in C'.
    destruct (chain_app_inv _ _ _ _ _ _ _ _ _ _ C) as (ka & ca & hm & kb & cb & -> & -> & L & Ca & Cb).
    destruct (chain_app_inv _ _ _ _ _ _ _ _ _ _ C') as (ka' & ca' & hm' & kb' & cb' & X & -> & L' & Ca' & Cb').
    destruct (chain_det _ _ _ _ _ _ _ _ _ _ _ _ Ca Ca') as (<- & <- & <-). apply app_inv_head in X. subst kb'.
    pose proof (chain_hash _ _ _ _ _ _ _ _ _ Ca) as Hm.
    inversion Cb as [| |? sig pk ? kt nt ? R Ct]; subst. inversion Cb' as [| |? sig' pk' ? kt' nt' ? R' Ct']; subst.
    destruct (first_signature _ _ _ _ _ _ _ _ _ _ _ _ Ct Ct' N) as (s & p & rest & Es & P1 & P2).
    set (sa := flat_map (fun x => match x with FSig sig => [sig] | FPk _ => [] end) before) in *.
    assert (G1 : signatures (SMulti m) = (sa ++ [sig_bytes g]) ++ s :: rest).
    { cbn [signatures]. rewrite Ef, flat_map_app. cbn [flat_map]. rewrite Es. fold sa. now rewrite <- app_assoc. }
    assert (G2 : signatures (SMulti m') = (sa ++ [sig_bytes (twin g)]) ++ s :: rest).
    { cbn [signatures m' with_fields ms_fields]. rewrite flat_map_app. cbn [flat_map]. rewrite Es. fold sa. now rewrite <- app_assoc. }
    assert (H1 : hash_after typ (ms_fee m) (ms_nonce m) h (sa ++ [sig_bytes g]) = link (digest (hash_after typ (ms_fee m) (ms_nonce m) h sa) typ (ms_fee m) (ms_nonce m)) (sig_bytes g))
      by apply hash_after_snoc.
    assert (H2 : hash_after typ (ms_fee m) (ms_nonce m) h (sa ++ [sig_bytes (twin g)]) = link (digest (hash_after typ (ms_fee m) (ms_nonce m) h sa) typ (ms_fee m) (ms_nonce m)) (sig_bytes (twin g)))
      by apply hash_after_snoc.
    unfold unnoticed. cbn [fee_of nonce_of]. rewrite G1, G2.
    destruct (same_digest secp _ _ s p secp_binds (digest_length _ _ _ _) (digest_length _ _ _ _) P1 P2) as [D|D].
    + left. apply sha_eq in D. destruct D as [D|D].
      * unfold message_text in D. apply app_inv_tail in D. apply sha_eq in D. destruct D as [D|D].
        -- apply link_inj in D; [|reflexivity]. destruct D as [_ D]. symmetry in D. now apply (twin_differs _ g pk F R) in D.
        -- exists sa, (sig_bytes g), (s :: rest), sa, (sig_bytes (twin g)), (s :: rest). rewrite <- !app_assoc. auto 10.
      * exists (sa ++ [sig_bytes g]), s, rest, (sa ++ [sig_bytes (twin g)]), s, rest. rewrite !app_length. rewrite H1, H2. auto 10.
    + right. left. exists (sa ++ [sig_bytes g]), s, rest, (sa ++ [sig_bytes (twin g)]), rest. rewrite !app_length, H1, H2. auto 10.
  - right. right. cbn [key_swap]. eauto 10.
Qed.

(** ** Sponsored transactions *)
Lemma sponsor_twin h o p after p' : typed o -> typed p -> typed p' -> twinned p after p' -> filter is_sig after = [] ->
  auth_verify secp (ASponsored o p) h = Ok tt -> auth_verify secp (ASponsored o p') h = Ok tt.
Proof.
  intros To Tp Tp' T N H. apply sponsored_verify_iff in H; auto. destruct H as (h1 & h2 & A & B).
  destruct (last_twin x05 h1 p after p' h2 T N B) as (h3 & B' & _). apply sponsored_verify_iff; eauto.
Qed.

Lemma same_sig_refl p : same_signatures p p.
Proof. split; [apply identity_refl|]. destruct p; reflexivity. Qed.

Lemma origin_twin h o after o' p : typed o -> typed o' -> typed p -> length h = 32%nat -> fee_of o < 2 ^ 64 -> nonce_of o < 2 ^ 64 ->
  twinned o after o' -> has_signature p ->
  auth_verify secp (ASponsored o p) h = Ok tt -> auth_verify secp (ASponsored o' p) h = Ok tt -> unnoticed_by_sponsor secp h o o' p.
Proof.
  intros To To' Tp Lh Bf Bn T P X Y. apply sponsored_verify_iff in X; auto. apply sponsored_verify_iff in Y; auto.
  destruct X as (x1 & x2 & X1 & X2), Y as (y1 & y2 & Y1 & Y2).
  assert (D0 : length (signatures o) = length (signatures o') /\ signatures o <> signatures o').
  { clear - T X1. destruct T as [s g F Es|m before g after F Ef].
    - split; [reflexivity|]. inversion X1 as [s0 pk R A|]; subst s0. cbn [signatures with_sig std_sig]. intros X. apply (f_equal (@hd bytes [])) in X. cbn [app hd] in X. symmetry in X. rewrite Es in X, R.
      exact (twin_differs _ g pk F R X).
    - cbn [signatures with_fields ms_fields]. rewrite Ef, !flat_map_app. cbn [flat_map app]. split; [now rewrite !app_length|].
      inversion X1 as [|m0 ks n h' C]; subst m0. rewrite Ef in C.
      destruct (chain_app_inv _ _ _ _ _ _ _ _ _ _ C) as (ka & ca & hm & kb & cb & _ & _ & _ & _ & Cb).
      inversion Cb as [| |? sig pk ? kt nt ? R Ct]; subst. intros X. apply app_inv_head in X. apply (f_equal (@hd bytes [])) in X. cbn [app hd] in X. symmetry in X.
      exact (twin_differs _ g pk F R X). }
  destruct (twinned_same _ _ _ T) as (_ & Ef & En & _).
  apply satisfied_hash in X1, Y1. unfold unnoticed_by_sponsor. cbv zeta. rewrite <- X1, <- Y1.
  assert (L1 : length x1 = 32%nat) by (rewrite X1; now apply hash_after_length).
  assert (L2 : length y1 = 32%nat) by (rewrite Y1; now apply hash_after_length).
  destruct (moved secp x05 x1 p x2 y1 p y2 secp_correct secp_binds Tp (same_sig_refl p) P X2 Y2) as [D|[D|D]]; auto.
  apply sha_eq in D. destruct D as [D|D]; [|auto]. unfold first_message in D. unfold message_text in D. apply app_inv_tail in D.
  rewrite X1, Y1 in D. rewrite Ef, En in D |- *.
  destruct (chain_commits x04 _ _ _ _ h h _ _ Lh Lh Bf Bf Bn Bn (proj1 D0) D) as [(Sg & _)|C]; [now destruct (proj2 D0)|]. left. exact C.
Qed.

(** ** Surplus signatures *)
Lemma last_signature fs : 0 < count (filter is_sig fs) -> exists before sig after, fs = before ++ FSig sig :: after /\ filter is_sig after = [].
Proof.
  induction fs as [|f fs IH] using rev_ind; [cbn; lia|]. intros P. rewrite filter_app in P. destruct f as [pk|sig].
  - cbn [filter is_sig] in P. rewrite app_nil_r in P. destruct (IH P) as (b & s & a & -> & N). exists b, s, (a ++ [FPk pk]).
    rewrite <- app_assoc. split; [reflexivity|]. rewrite filter_app, N. reflexivity.
  - exists fs, sig, []. auto.
Qed.

Lemma surplus E typ h m h1 : typed (SMulti m) -> threshold (SMulti m) < held (SMulti m) -> satisfied E typ h (SMulti m) h1 ->
  exists before sig pk after m' h2, unsigned_at m before sig pk after m' /\ satisfied E typ h (SMulti m') h2
    /\ recovers E (digest (hash_after typ (ms_fee m) (ms_nonce m) h (signatures (SMulti (with_fields m before)))) typ (ms_fee m) (ms_nonce m)) sig pk.
Proof.
  intros Ty H S. cbn [threshold held] in H. inversion S as [|m0 ks n h' C Q B Fi A]; subst m0 h'.
  destruct (last_signature (ms_fields m)) as (before & sig & after & Ef & N); [lia|].
  destruct (chain_counts _ _ _ _ _ _ _ _ _ C) as [_ Cn]. rewrite Ef in C.
  destruct (chain_app_inv _ _ _ _ _ _ _ _ _ _ C) as (ka & ca & hm & kb & cb & -> & -> & L & Ca & Cb).
  inversion Cb as [| |? ? pk ? kt nt ? R Ct]; subst. destruct (chain_keys_only _ _ _ _ _ _ _ _ _ N Ct) as [-> K].
  exists before, sig, pk, after, (with_fields m (before ++ FPk pk :: after)), hm. split; [split; [exact Ef|reflexivity]|]. split.
  - destruct (with_fields_parts m (before ++ FPk pk :: after)) as (E1 & E2 & E3 & E4 & E5 & E6).
    eapply (sat_multi E typ h (with_fields m (before ++ FPk pk :: after)) (ka ++ pk :: kt) (ca + 0)); rewrite ?E1, ?E2, ?E3, ?E4, ?E5, ?E6; try assumption; try lia.
    eapply chain_app; [exact Ca|]. constructor. apply K.
  - cbn [signatures with_fields ms_fields]. rewrite <- (chain_hash _ _ _ _ _ _ _ _ _ Ca). exact R.
Qed.

(** ** Transaction ids *)
Lemma wf_fits_auth a : wf_auth a -> fits_auth a.
Proof.
  assert (S : forall s, wf_spend s -> fits_spend s) by (intros [?|?]; cbn; tauto).
  destruct a; cbn [wf_auth fits_auth]; [apply S|intros [? ?]; split; now apply S].
Qed.

Lemma other_auth t a w : tx_means t w -> wf_tx w -> wf_auth (auth_wire a) -> tx_auth t <> a ->
  exists w' x y, tx_means (tx_with_auth t a) w' /\ tx_hash t = Ok x /\ tx_hash (tx_with_auth t a) = Ok y /\ (x <> y \/ collision (ser_tx w) (ser_tx w')).
Proof.
  intros M W Wa Ne. set (t' := tx_with_auth t a).
  set (w' := {| w_version := w_version w; w_chain := w_chain w; w_auth := auth_wire a; w_anchor := w_anchor w;
      w_pcmode := w_pcmode w; w_conds := w_conds w; w_payload := w_payload w |}).
  assert (M' : tx_means t' w') by (destruct M as (M1 & M2 & _ & M4 & M5 & M6 & M7); repeat split; assumption).
  assert (W' : wf_tx w') by (destruct W as (W1 & W2 & W3 & W4 & W5); repeat split; assumption).
  assert (Fi : forall v, wf_tx v -> fits_tx v) by (intros v V; split; [apply wf_fits_auth, V|apply (wf_fits_body v V)]).
  exists w', (sha512_256 (ser_tx w)), (sha512_256 (ser_tx w')). split; [exact M'|].
  assert (A : tx_hash t = Ok (sha512_256 (ser_tx w))) by (apply txid_iff; exists w; auto).
  assert (B : tx_hash t' = Ok (sha512_256 (ser_tx w'))) by (apply txid_iff; exists w'; auto).
  split; [exact A|]. split; [exact B|].
  destruct (bytes_dec (sha512_256 (ser_tx w)) (sha512_256 (ser_tx w'))) as [E|N]; [right|now left].
  rewrite <- E in B. destruct (txid_commits t t' w w' _ M M' W W' A B) as [[_ X]|C]; [contradiction|exact C].
Qed.

Lemma twin_length g : compact_form g -> length (sig_bytes (twin g)) = 65%nat.
Proof. intros (_ & L & _). unfold sig_bytes, twin. cbn [length rs_bytes]. rewrite app_length, firstn_length, big_endian_length, L. reflexivity. Qed.

Lemma twinned_typed c after c' : twinned c after c' -> typed c -> typed c'.
Proof.
  intros T. destruct T as [s g F Es|m before g after F Ef]; cbn [typed with_sig std_sig with_fields ms_fields].
  - intros _. now apply twin_length.
  - rewrite Ef. intros Ty. apply Forall_app in Ty. destruct Ty as [T1 T2]. apply Forall_app. split; [exact T1|]. inversion T2; subst.
    constructor; [now apply twin_length|assumption].
Qed.

Lemma twinned_wf c after c' : twinned c after c' -> wf_spend (spend_wire c) -> wf_spend (spend_wire c').
Proof.
  intros T. destruct T as [s g F Es|m before g after F Ef]; cbn [spend_wire wf_spend with_sig with_fields std_mode std_signer std_nonce std_fee std_sig
    ms_mode ms_signer ms_nonce ms_fee ms_fields ms_required].
  - intros (A & B & C & D & _). repeat (split; [assumption|]). now apply twin_length.
  - rewrite Ef, !map_app. cbn [map]. intros (A & B & C & D & E1 & E2 & G). repeat (split; [assumption|]). split; [|split; [|exact G]].
    + unfold count in *. rewrite !app_length in *. exact E1.
    + apply Forall_app in E2. destruct E2 as [T1 T2]. apply Forall_app. split; [exact T1|]. inversion T2; subst. constructor; [|assumption].
      cbn [field_wire]. now apply twin_length.
Qed.

Lemma twin_standard t c after c' w h g1 : tx_auth t = AStandard c -> typed c -> twinned c after c' -> filter is_sig after = [] ->
  tx_means t w -> wf_tx w -> initial_hash t = Ok h -> tx_verify_origin secp t = Ok g1 ->
  let t' := tx_with_auth t (AStandard c') in
  same_but_signatures t t' /\ (exists g2, tx_verify_origin secp t' = Ok g2)
  /\ exists w' a b, tx_means t' w' /\ tx_hash t = Ok a /\ tx_hash t' = Ok b /\ (a <> b \/ collision (ser_tx w) (ser_tx w')).
Proof.
  intros Ha Ty T N M W Hh Hv t'. destruct (twinned_same _ _ _ T) as (Id & _ & _ & Te). pose proof (twinned_typed _ _ _ T Ty) as Ty'.
  assert (O : origin_of t = c) by (unfold origin_of; now rewrite Ha). rewrite <- O in Ty. apply (verify_origin_iff secp t h g1 Hh Ty) in Hv.
  rewrite O in Hv. destruct (last_twin _ _ _ _ _ _ T N Hv) as (h2 & S2 & Ne).
  split; [unfold t', same_but_signatures; cbn [tx_with_auth tx_ver tx_chain tx_anchor tx_pcmode tx_conds tx_payload tx_auth]; rewrite Ha; do 6 (split; [reflexivity|]); exact Te|].
  split.
  - exists h2. apply (verify_origin_iff secp t' h h2); [|exact Ty'|exact S2]. rewrite <- Hh. apply initial_hash_auth. rewrite Ha. exact Id.
  - apply other_auth; [exact M|exact W| |].
    + destruct M as (_ & _ & M3 & _). destruct W as (_ & W2 & _). rewrite M3, Ha in W2. cbn [auth_wire wf_auth] in *. now apply (twinned_wf c after).
    + rewrite Ha. intros E. injection E as <-. now apply Ne.
Qed.

Lemma twin_sponsored t o p after p' w h : tx_auth t = ASponsored o p -> typed o -> typed p -> twinned p after p' -> filter is_sig after = [] ->
  tx_means t w -> wf_tx w -> initial_hash t = Ok h -> auth_verify secp (tx_auth t) h = Ok tt ->
  let t' := tx_with_auth t (ASponsored o p') in
  same_but_signatures t t' /\ initial_hash t' = Ok h /\ auth_verify secp (tx_auth t') h = Ok tt
  /\ exists w' a b, tx_means t' w' /\ tx_hash t = Ok a /\ tx_hash t' = Ok b /\ (a <> b \/ collision (ser_tx w) (ser_tx w')).
Proof.
  intros Ha To Tp T N M W Hh Hv t'. destruct (twinned_same _ _ _ T) as (Id & _ & _ & Te). pose proof (twinned_typed _ _ _ T Tp) as Tp'. rewrite Ha in Hv.
  split; [unfold t', same_but_signatures; cbn [tx_with_auth tx_ver tx_chain tx_anchor tx_pcmode tx_conds tx_payload tx_auth]; rewrite Ha; do 6 (split; [reflexivity|]); split; [destruct o; cbn; repeat split|exact Te]|].
  split; [rewrite <- Hh; apply initial_hash_auth; rewrite Ha; apply identity_refl|].
  split; [cbn [t' tx_with_auth tx_auth]; exact (sponsor_twin h o p after p' To Tp Tp' T N Hv)|].
  apply sponsored_verify_iff in Hv; auto. destruct Hv as (h1 & h2 & S1 & S2). destruct (last_twin _ _ _ _ _ _ T N S2) as (h3 & _ & Ne).
  apply other_auth; [exact M|exact W| |].
  - destruct M as (_ & _ & M3 & _). destruct W as (_ & W2 & _). rewrite M3, Ha in W2. cbn [auth_wire wf_auth] in *. split; [apply W2|now apply (twinned_wf p after)].
  - rewrite Ha. intros E. injection E as <-. now apply Ne.
Qed.
