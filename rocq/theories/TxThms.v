(** Theorems about transaction encoding and the signing hash. *)

From Coq Require Import Lia ZifyBool ZifyNat ZifyN.
From Verif Require Import Base BaseFacts Utf8 Utf8Facts Utf8Thms Sha2 SpecText SpecAddr Hash HashFacts C32 Clarity SpecWire Tx SpecTx
  WireFacts ClarityFacts ClarityTotal ClarityShort ClarityThms TxWire TxFacts PayloadFacts.
Local Open Scope N_scope.

(** ** Payload round trips *)

Lemma transfer_encode r w amount memo : means r w -> wall fits1 w -> count memo <= 34 ->
  exists m, memo_field memo m /\ enc_transfer r amount memo = Ok (ser_payload (WpTransfer w amount m)).
Proof.
  intros M F L. exists (memo ++ repeat x00 (34 - length memo)).
  assert (memo_field memo (memo ++ repeat x00 (34 - length memo))) as D by (apply memo_field_iff; auto).
  split; [exact D|]. apply transfer_iff. eexists. split; [|split; [|reflexivity]]; [exact (conj M (conj eq_refl D)) | exact F].
Qed.

Lemma transfer_long r amount memo : 34 < count memo -> enc_transfer r amount memo = Err (ClBadStringLength (count memo) 34).
Proof.
  intros L. unfold enc_transfer. change @lenN with @count.
  destruct (N.ltb_spec 34 (count memo)); [reflexivity | lia].
Qed.

Lemma transfer_roundtrip r w amount memo t : means r w -> proper w -> amount < 2 ^ 64 -> utf8 memo -> count memo <= 34 ->
  exists e r' m, enc_transfer r amount memo = Ok e /\ dec_transfer (e ++ t) = Ok (PTransfer r' amount m)
    /\ canonically_means r' w /\ memo_field memo m /\ enc_transfer r' amount m = Ok e.
Proof.
  intros M P A U L. destruct (transfer_encode r w amount memo M (proper_fits _ P) L) as (m & D & E).
  destruct (canonical_exists w) as [r' C]; [apply P|]. exists (ser_payload (WpTransfer w amount m)), r', m.
  assert (D' := D). destruct D' as (Lm & k & Em).
  splits; auto.
  - apply dec_transfer_exact. exists w, amount, m, t. split; [reflexivity|]. split.
    + split; [exact P|]. split; [exact A|]. split; [exact Lm|]. rewrite Em.
      apply utf8_app; [exact U|]. apply utf8_valid_iff, utf8_valid_ascii. clear. induction k; auto.
    + exact (conj C (conj eq_refl eq_refl)).
  - apply transfer_iff. eexists. split; [|split; [|reflexivity]].
    + refine (conj (canonical_means _ _ C) (conj eq_refl _)). split; [exact Lm|]. exists 0%nat. cbn [repeat]. rewrite app_nil_r. reflexivity.
    + exact (proper_fits _ P).
Qed.

Lemma pad_swap (a b : bytes) i j k : a ++ repeat x00 i = b ++ repeat x00 j ->
  a ++ repeat x00 (i + k) = b ++ repeat x00 (j + k).
Proof. intros H. rewrite !repeat_app, !app_assoc, H. reflexivity. Qed.

Lemma memo_same a b m n : memo_field a m -> memo_field b n -> (same_memo a b <-> m = n).
Proof.
  intros (La & i & Ea) (Lb & j & Eb). split.
  - intros (p & q & E). apply (pad_swap _ _ _ _ 34) in E.
    pose proof La as La'. pose proof Lb as Lb'. rewrite Ea, app_length, repeat_length in La'. rewrite Eb, app_length, repeat_length in Lb'.
    replace (p + 34)%nat with (i + (p + 34 - i))%nat in E by lia.
    replace (q + 34)%nat with (j + (q + 34 - j))%nat in E by lia.
    rewrite !repeat_app, !app_assoc, <- Ea, <- Eb in E. apply app_inj_len in E; [apply E | congruence].
  - intros <-. exists i, j. congruence.
Qed.

Lemma transfer_same_bytes r1 w1 a1 m1 r2 w2 a2 m2 e1 e2 :
  means r1 w1 -> means r2 w2 -> solid w1 -> solid w2 -> a1 < 2 ^ 64 -> a2 < 2 ^ 64 ->
  enc_transfer r1 a1 m1 = Ok e1 -> enc_transfer r2 a2 m2 = Ok e2 ->
  (e1 = e2 <-> same_payload (PTransfer r1 a1 m1) (PTransfer r2 a2 m2)).
Proof.
  intros M1 M2 S1 S2 A1 A2 E1 E2. apply transfer_iff in E1, E2.
  destruct E1 as (x & X & _ & ->), E2 as (y & Y & _ & ->).
  destruct x as [x xa xm|]; [|contradiction]. destruct y as [y ya ym|]; [|contradiction].
  destruct X as (X & -> & Xm), Y as (Y & -> & Ym).
  rewrite (means_fun _ _ _ X M1) in *. rewrite (means_fun _ _ _ Y M2) in *. clear X Y.
  cbn [same_payload]. rewrite (memo_same _ _ _ _ Xm Ym). split.
  - intros H. rewrite <- (app_nil_r (ser_payload (WpTransfer w1 _ _))), <- (app_nil_r (ser_payload (WpTransfer w2 _ _))) in H.
    apply payload_prefix in H; [|exact (conj S1 (conj A1 (proj1 Xm))) | exact (conj S2 (conj A2 (proj1 Ym)))].
    destruct H as [H _]. inversion H; subst. splits; auto. exists w2. auto.
  - intros ((w & X & Y) & -> & ->). rewrite (means_fun _ _ _ M1 X), (means_fun _ _ _ M2 Y). reflexivity.
Qed.

Lemma args_canonical ws : Forall proper ws -> exists cs, Forall2 canonically_means cs ws.
Proof.
  induction 1 as [|w ws P _ [cs IH]]; [exists []; constructor|].
  destruct (canonical_exists w) as [c C]; [apply P|]. exists (c :: cs). auto.
Qed.

Lemma call_roundtrip ad c n args ws t : length (addr_hash ad) = 20%nat ->
  count c <= 128 -> utf8 c -> count n <= 128 -> utf8 n ->
  Forall2 means args ws -> Forall proper ws -> count ws < 2 ^ 32 ->
  exists e args', enc_call ad c n args = Ok e /\ dec_call (e ++ t) = Ok (PCall ad c n args')
    /\ Forall2 canonically_means args' ws /\ enc_call ad c n args' = Ok e.
Proof.
  intros L Lc Uc Ln Un M P K. destruct (args_canonical ws P) as [cs C].
  exists (ser_payload (WpCall (addr_version ad) (addr_hash ad) c n ws)), cs.
  assert (fits_payload (WpCall (addr_version ad) (addr_hash ad) c n ws)) as F.
  { cbn [fits_payload]. splits; auto. eapply Forall_impl; [|exact P]. apply proper_fits. }
  splits; auto.
  - apply call_iff. eexists. split; [|split; [exact F | reflexivity]]. cbn [payload_means]. splits; auto.
  - apply dec_call_exact. exists (addr_version ad), (addr_hash ad), c, n, ws, t. split; [reflexivity|]. split.
    + cbn [proper_payload]. splits; auto.
    + cbn [payload_exact]. splits; auto.
  - apply call_iff. eexists. split; [|split; [exact F | reflexivity]]. cbn [payload_means]. splits; auto.
    clear -C. induction C; constructor; auto. apply canonical_means. assumption.
Qed.

Lemma call_roundtrip_exact ad c n args ws t : length (addr_hash ad) = 20%nat ->
  count c <= 128 -> utf8 c -> count n <= 128 -> utf8 n ->
  Forall2 canonically_means args ws -> Forall proper ws -> count ws < 2 ^ 32 ->
  exists e, enc_call ad c n args = Ok e /\ dec_call (e ++ t) = Ok (PCall ad c n args).
Proof.
  intros L Lc Uc Ln Un M P K. exists (ser_payload (WpCall (addr_version ad) (addr_hash ad) c n ws)). split.
  - apply call_iff. eexists. split; [|split; [|reflexivity]]; cbn [payload_means fits_payload]; splits; auto.
    + clear -M. induction M; constructor; auto. apply canonical_means. assumption.
    + eapply Forall_impl; [|exact P]. apply proper_fits.
  - apply dec_call_exact. exists (addr_version ad), (addr_hash ad), c, n, ws, t. split; [reflexivity|]. split.
    + cbn [proper_payload]. splits; auto.
    + cbn [payload_exact]. splits; auto.
Qed.

Lemma payload_exact_means p w : payload_exact p w -> proper_payload w -> payload_means p w.
Proof.
  destruct p, w; cbn [payload_exact payload_means proper_payload]; try contradiction.
  - intros (C & -> & ->) (_ & _ & L & _). splits; auto; [apply canonical_means; exact C|].
    split; [exact L|]. exists 0%nat. cbn. rewrite app_nil_r. reflexivity.
  - intros (-> & -> & -> & -> & C) _. splits; auto. clear -C. induction C; constructor; auto. apply canonical_means. assumption.
Qed.

Lemma proper_payload_fits w : proper_payload w -> fits_payload w.
Proof.
  destruct w; cbn [proper_payload fits_payload].
  - intros (P & _). apply P.
  - intros (_ & C & _ & N & _ & K & P). splits; auto. eapply Forall_impl; [|exact P]. apply proper_fits.
Qed.

(** What is decoded encodes to the bytes it was decoded from. *)
Lemma payload_canonical bs p : dec_payload bs = Ok p -> exists e t, enc_payload p = Ok e /\ bs = e ++ t.
Proof.
  intros H. apply dec_payload_exact in H. destruct H as (w & t & -> & P & X). exists (ser_payload w), t.
  split; [|reflexivity]. apply payload_iff. exists w. auto using payload_exact_means, proper_payload_fits.
Qed.

(** ** Post-conditions *)

Lemma cond_addr_not a : ~ principal_value a -> enc_cond_addr a = Err ClBadDowncast.
Proof.
  intros H. destruct a; try reflexivity; exfalso; apply H; [left | right]; eauto.
Qed.

Lemma principal_value_dec a : {principal_value a} + {~ principal_value a}.
Proof.
  destruct a; try (right; intros [(? & H) | (? & ? & H)]; discriminate H).
  - left. left. eauto.
  - left. right. eauto.
Qed.

Lemma principal_means a w : principal_value a -> means a w -> is_principal w.
Proof. intros [(x & ->) | (x & y & ->)]; destruct w; cbn; auto. Qed.

Lemma asset_ok_iff i : asset_ok i <-> exists w, asset_means i w /\ fits_asset w.
Proof.
  split.
  - intros ((h & v & A) & C & N).
    exists {| wa_ver := v; wa_hash := h; wa_contract := ai_contract i; wa_name := ai_asset i |}.
    unfold asset_means, fits_asset. cbn. auto.
  - intros (w & (A & C & N) & FC & FN). unfold asset_ok. rewrite C in FC. rewrite N in FN. eauto.
Qed.

Lemma cond_verdict c : parts_ok c ->
  (principal_value (cond_who c) -> exists w, cond_means c w /\ fits_cond w /\ enc_condition c = Ok (ser_cond w))
  /\ (~ principal_value (cond_who c) -> enc_condition c = Err ClBadDowncast).
Proof.
  intros [V O]. split.
  - intros P. destruct (V P) as (w & M & F). pose proof (principal_means _ _ P M) as I. destruct c; cbn [cond_who] in *.
    + exists (WcSTX w (cond_code_code code) amount). assert (cond_means (CondSTX addr amount code) (WcSTX w (cond_code_code code) amount)) as C
        by (cbn; auto). splits; auto. apply cond_iff. eauto.
    + apply asset_ok_iff in O. destruct O as (wa & MA & FA).
      exists (WcFT w wa (cond_code_code code) amount).
      assert (cond_means (CondFT addr amount code info) (WcFT w wa (cond_code_code code) amount)) as C
        by (cbn [cond_means]; auto). assert (fits_cond (WcFT w wa (cond_code_code code) amount)) as F' by (split; auto).
      splits; auto. apply cond_iff. eauto.
    + destruct O as (O & wn & MN & FN). apply asset_ok_iff in O. destruct O as (wa & MA & FA).
      exists (WcNFT w wa wn (cond_code_code code)).
      assert (cond_means (CondNFT addr name code info) (WcNFT w wa wn (cond_code_code code))) as C
        by (cbn [cond_means]; auto). assert (fits_cond (WcNFT w wa wn (cond_code_code code))) as F'
        by (cbn [fits_cond]; auto).
      splits; auto. apply cond_iff. eauto.
  - intros P. destruct c; cbn [cond_who enc_condition] in *; rewrite (cond_addr_not _ P); reflexivity.
Qed.

Lemma conds_body_verdict l : Forall parts_ok l ->
  (Forall (fun c => principal_value (cond_who c)) l ->
     exists ws, Forall2 cond_means l ws /\ Forall fits_cond ws)
  /\ (Exists (fun c => ~ principal_value (cond_who c)) l -> enc_conditions_body l = Err ClBadDowncast).
Proof.
  induction 1 as [|c l O _ [IH1 IH2]]; split.
  - exists []. auto.
  - intros H. inv H.
  - intros H. inv H. destruct (cond_verdict c O) as [V _]. destruct (V H2) as (w & M & F & _).
    destruct (IH1 H3) as (ws & Ms & Fs). exists (w :: ws). auto.
  - intros H. cbn [enc_conditions_body]. destruct (cond_verdict c O) as [V V'].
    destruct (principal_value_dec (cond_who c)) as [P|P].
    + destruct (V P) as (w & _ & _ & E). rewrite E. cbn [bind]. inversion H as [? ? H1 | ? ? H1]; subst; [contradiction|].
      rewrite (IH2 H1). reflexivity.
    + rewrite (V' P). reflexivity.
Qed.

Lemma conds_verdict l : Forall parts_ok l -> count l < 2 ^ 32 ->
  (Forall (fun c => principal_value (cond_who c)) l ->
     exists ws, Forall2 cond_means l ws /\ enc_conditions l = Ok (big_endian 4 (count ws) ++ flat_map ser_cond ws))
  /\ (enc_conditions l = Err ClBadDowncast <-> Exists (fun c => ~ principal_value (cond_who c)) l).
Proof.
  intros O L. destruct (conds_body_verdict l O) as [V1 V2].
  assert (Forall (fun c => principal_value (cond_who c)) l ->
     exists ws, Forall2 cond_means l ws /\ enc_conditions l = Ok (big_endian 4 (count ws) ++ flat_map ser_cond ws)) as V.
  { intros H. destruct (V1 H) as (ws & M & F). exists ws. split; [exact M|]. apply conds_iff. exists ws. splits; auto.
    rewrite <- (Forall2_count _ _ _ M). exact L. }
  split; [exact V|]. split.
  - intros E. destruct (Exists_dec (fun c => ~ principal_value (cond_who c)) l) as [X|X]; [|exact X|].
    + intros c. destruct (principal_value_dec (cond_who c)); [right; tauto | left; assumption].
    + exfalso. destruct V as (ws & _ & E'); [|congruence]. apply Forall_forall. intros c Hc.
      destruct (principal_value_dec (cond_who c)) as [P|P]; [exact P|]. exfalso. apply X. apply Exists_exists. eauto.
  - intros H. unfold enc_conditions. change @lenN with @count.
    rewrite (proj2 (enc_len32_ok _ _) (conj L eq_refl)). cbn [bind]. rewrite (V2 H). reflexivity.
Qed.

(** ** Same bytes, same transaction *)

Lemma code_inj c d : cond_code_code c = cond_code_code d -> c = d.
Proof. destruct c, d; cbn; congruence. Qed.
Lemma mode_inj c d : mode_code c = mode_code d -> c = d.
Proof. destruct c, d; cbn; congruence. Qed.

Lemma asset_same i j w v : asset_means i w -> asset_means j v -> (same_asset i j <-> w = v).
Proof.
  intros (A & C & N) (A' & C' & N'). split.
  - intros ((h & x & X & Y) & EC & EN). destruct w, v; cbn in *.
    destruct (address_spelling_fun _ _ _ _ _ A X) as [-> ->]. destruct (address_spelling_fun _ _ _ _ _ A' Y) as [-> ->]. congruence.
  - intros <-. split; [eauto|]. split; congruence.
Qed.

Lemma clarity_same c d w v : means c w -> means d v -> (same_clarity c d <-> w = v).
Proof.
  intros M N. split.
  - intros (x & X & Y). rewrite (means_fun _ _ _ M X), (means_fun _ _ _ N Y). reflexivity.
  - intros <-. exists w. auto.
Qed.

Lemma cond_same c d w v : cond_means c w -> cond_means d v -> (same_cond c d <-> w = v).
Proof.
  intros M N. destruct c, w; cbn [cond_means] in M; try contradiction; destruct d, v; cbn [cond_means] in N; try contradiction;
    cbn [same_cond]; try (split; [contradiction | discriminate]).
  - destruct M as (_ & M & -> & ->), N as (_ & N & -> & ->). rewrite (clarity_same _ _ _ _ M N). split.
    + intros (-> & -> & ->). reflexivity.
    + intros H. inversion H. auto using code_inj.
  - destruct M as (_ & M & A & -> & ->), N as (_ & N & B & -> & ->).
    rewrite (clarity_same _ _ _ _ M N), (asset_same _ _ _ _ A B). split.
    + intros (-> & -> & -> & ->). reflexivity.
    + intros H. inversion H. auto using code_inj.
  - destruct M as (_ & M & A & X & ->), N as (_ & N & B & Y & ->).
    rewrite (clarity_same _ _ _ _ M N), (asset_same _ _ _ _ A B), (clarity_same _ _ _ _ X Y). split.
    + intros (-> & -> & -> & ->). reflexivity.
    + intros H. inversion H. auto using code_inj.
Qed.

Lemma Forall2_same {A W} (mean : A -> W -> Prop) (same : A -> A -> Prop) :
  (forall a b w v, mean a w -> mean b v -> (same a b <-> w = v)) ->
  forall l m ws vs, Forall2 mean l ws -> Forall2 mean m vs -> (Forall2 same l m <-> ws = vs).
Proof.
  intros S l m ws vs M. revert m vs. induction M as [|a w l ws Ma M IH]; intros m vs N.
  - split.
    + intros H. inversion H; subst. inversion N; subst. reflexivity.
    + intros <-. inversion N; subst. constructor.
  - split.
    + intros H. inversion H as [|? b ? m' Sab Sr]; subst. inversion N as [|? v ? vs' Nb Nr]; subst.
      f_equal; [eapply S; eassumption | eapply IH; eassumption].
    + intros <-. inversion N as [|b ? m' ? Nb Nr]; subst. constructor; [eapply S; eauto | eapply IH; eauto].
Qed.

Lemma payload_same p q w v : payload_means p w -> payload_means q v -> (same_payload p q <-> w = v).
Proof.
  intros M N. destruct p, w; cbn [payload_means] in M; try contradiction; destruct q, v; cbn [payload_means] in N; try contradiction;
    cbn [same_payload]; try (split; [contradiction | discriminate]).
  - destruct M as (M & -> & D), N as (N & -> & D'). rewrite (clarity_same _ _ _ _ M N), (memo_same _ _ _ _ D D'). split.
    + intros (-> & -> & ->). reflexivity.
    + intros H. inversion H. auto.
  - destruct M as (-> & -> & -> & -> & M), N as (-> & -> & -> & -> & N).
    rewrite (Forall2_same means same_clarity clarity_same _ _ _ _ M N). split.
    + intros (-> & -> & -> & ->). reflexivity.
    + intros H. destruct addr, addr0; cbn in *. inversion H. subst. auto.
Qed.

Lemma body_same t u w v : tx_means t w -> tx_means u v ->
  (same_body t u <-> w_version w = w_version v /\ w_chain w = w_chain v /\ w_anchor w = w_anchor v
                     /\ w_pcmode w = w_pcmode v /\ w_conds w = w_conds v /\ w_payload w = w_payload v).
Proof.
  intros (V & C & A & N & P & Cs & Pl) (V' & C' & A' & N' & P' & Cs' & Pl').
  unfold same_body. rewrite V, C, N, P, V', C', N', P'.
  rewrite (Forall2_same cond_means same_cond cond_same _ _ _ _ Cs Cs'), (payload_same _ _ _ _ Pl Pl'). split.
  - intros (-> & -> & -> & -> & -> & ->). splits; auto.
  - intros (X1 & X2 & X3 & X4 & -> & ->). splits; auto.
    + revert X1. clear. destruct (tx_ver t), (tx_ver u); cbn; congruence.
    + revert X2. clear. destruct (tx_chain t), (tx_chain u); cbn; congruence.
    + revert X3. clear. destruct (tx_anchor t), (tx_anchor u); cbn; congruence.
    + revert X4. clear. destruct (tx_pcmode t), (tx_pcmode u); cbn; congruence.
Qed.

Lemma field_wire_inj l m : map field_wire l = map field_wire m -> l = m.
Proof.
  revert m. induction l as [|x l IH]; intros [|y m] H; cbn in H; try discriminate; [reflexivity|].
  inversion H as [[X Y]]. rewrite (IH m Y). f_equal. destruct x, y; cbn in X; congruence.
Qed.

Lemma spend_wire_inj c d : spend_wire c = spend_wire d -> c = d.
Proof.
  destruct c as [s|m], d as [s'|m']; cbn [spend_wire]; intros H; try discriminate; f_equal.
  - destruct s, s'; cbn in H. inversion H. f_equal; auto using mode_inj.
  - destruct m, m'; cbn in H. inversion H. f_equal; auto using mode_inj, field_wire_inj. apply b2n_inj. assumption.
Qed.

Lemma auth_wire_inj a b : auth_wire a = auth_wire b -> a = b.
Proof.
  destruct a, b; cbn [auth_wire]; intros H; try discriminate; inversion H; f_equal; auto using spend_wire_inj.
Qed.

Lemma tx_same t u w v : tx_means t w -> tx_means u v -> (same_body t u /\ tx_auth t = tx_auth u <-> w = v).
Proof.
  intros M N. rewrite (body_same _ _ _ _ M N). destruct M as (_ & _ & A & _), N as (_ & _ & A' & _). split.
  - intros [(X1 & X2 & X3 & X4 & X5 & X6) E]. destruct w, v; cbn in *. congruence.
  - intros ->. splits; auto. apply auth_wire_inj. congruence.
Qed.

Lemma enc_means t w e : tx_means t w -> enc_tx t = Ok e -> fits_tx w /\ e = ser_tx w.
Proof.
  intros M E. apply tx_iff in E. destruct E as (v & N & F & ->).
  assert (v = w) as ->; [|auto]. apply (tx_same t t v w N M). split; [|reflexivity].
  apply (body_same t t w w M M). splits; auto.
Qed.

Lemma tx_injective t u w v e f x y : tx_means t w -> tx_means u v -> wf_tx w -> wf_tx v ->
  enc_tx t = Ok e -> enc_tx u = Ok f -> e ++ x = f ++ y -> same_body t u /\ tx_auth t = tx_auth u /\ x = y.
Proof.
  intros M N W V E F H. destruct (enc_means _ _ _ M E) as [_ ->]. destruct (enc_means _ _ _ N F) as [_ ->].
  apply tx_prefix in H; auto. destruct H as [-> ->]. destruct (proj2 (tx_same t u v v M N) eq_refl). auto.
Qed.

Lemma tx_same_bytes t u e f : enc_tx t = Ok e -> enc_tx u = Ok f -> same_body t u -> tx_auth t = tx_auth u -> e = f.
Proof.
  intros E F B A. apply tx_iff in E, F. destruct E as (w & M & _ & ->), F as (v & N & _ & ->).
  f_equal. apply (tx_same t u); auto.
Qed.

(** ** Signing hash *)

Lemma reset_wire a : auth_wire (auth_reset a) = clear_auth (auth_wire a).
Proof. destruct a as [[]|[] ?]; reflexivity. Qed.

Lemma clear_means t w : tx_means t w -> tx_means (tx_with_auth t (auth_reset (tx_auth t))) (clear_tx w).
Proof.
  intros (V & C & A & N & P & Cs & Pl). unfold tx_means, clear_tx, tx_with_auth.
  cbn [tx_ver tx_chain tx_auth tx_anchor tx_pcmode tx_conds tx_payload w_version w_chain w_auth w_anchor w_pcmode w_conds w_payload].
  splits; auto. rewrite A. symmetry. apply reset_wire.
Qed.

Lemma clear_fits w : fits_tx (clear_tx w) <-> fits_body w.
Proof.
  unfold fits_tx, fits_body, clear_tx. cbn [w_auth w_conds w_payload]. split; [tauto|].
  intros (K & F & P). splits; auto. destruct (w_auth w) as [[]|[] ?]; cbn; auto; split; auto; reflexivity.
Qed.

(** The meaning of the cleared transaction, whatever the original authorization. *)
Lemma clear_means_inv t v : tx_means (tx_with_auth t (auth_reset (tx_auth t))) v -> exists w, tx_means t w /\ v = clear_tx w.
Proof.
  unfold tx_means, tx_with_auth. cbn [tx_ver tx_chain tx_auth tx_anchor tx_pcmode tx_conds tx_payload].
  intros (V & C & A & N & P & Cs & Pl).
  exists {| w_version := w_version v; w_chain := w_chain v; w_auth := auth_wire (tx_auth t); w_anchor := w_anchor v;
            w_pcmode := w_pcmode v; w_conds := w_conds v; w_payload := w_payload v |}.
  cbn. splits; auto. destruct v; cbn in *. unfold clear_tx. cbn. rewrite A, reset_wire. reflexivity.
Qed.

Lemma initial_hash_iff t h : initial_hash t = Ok h <->
  exists w, tx_means t w /\ fits_body w /\ h = sha512_256 (ser_tx (clear_tx w)).
Proof.
  unfold initial_hash, tx_hash. rewrite bind_ok. split.
  - intros (e & E & H). okinv H. rewrite map_err_ok in E. apply tx_iff in E. destruct E as (v & M & F & ->).
    apply clear_means_inv in M. destruct M as (w & M & ->). exists w. rewrite <- clear_fits. auto.
  - intros (w & M & F & ->). exists (ser_tx (clear_tx w)). split; [|reflexivity]. rewrite map_err_ok.
    apply tx_iff. exists (clear_tx w). rewrite clear_fits. auto using clear_means.
Qed.

Lemma spend_identity c d : same_identity c d <-> clear_spend (spend_wire c) = clear_spend (spend_wire d).
Proof.
  destruct c as [s|m], d as [s'|m']; cbn [same_identity spend_wire clear_spend].
  - split; [intros [-> ->]; reflexivity | intros H; inversion H; auto using mode_inj].
  - split; [contradiction | discriminate].
  - split; [contradiction | discriminate].
  - split; [intros (-> & -> & ->); reflexivity | intros H; inversion H]. splits; auto using mode_inj. apply b2n_inj. assumption.
Qed.

Lemma auth_identity a b : same_origin a b <-> clear_auth (auth_wire a) = clear_auth (auth_wire b).
Proof.
  destruct a, b; cbn [same_origin auth_wire clear_auth].
  - rewrite spend_identity. split; [intros ->; reflexivity | intros H; inversion H; reflexivity].
  - split; [contradiction | discriminate].
  - split; [contradiction | discriminate].
  - rewrite spend_identity. split; [intros ->; reflexivity | intros H; inversion H; reflexivity].
Qed.

Lemma clear_same t u w v : tx_means t w -> tx_means u v ->
  (same_body t u /\ same_origin (tx_auth t) (tx_auth u) <-> clear_tx w = clear_tx v).
Proof.
  intros M N. rewrite (body_same _ _ _ _ M N), auth_identity.
  assert (w_auth w = auth_wire (tx_auth t)) as A by apply M. assert (w_auth v = auth_wire (tx_auth u)) as A' by apply N.
  rewrite <- A, <- A'. split.
  - intros [(X1 & X2 & X3 & X4 & X5 & X6) E]. unfold clear_tx. congruence.
  - intros H. unfold clear_tx in H. inversion H. splits; auto.
Qed.

Lemma clear_wf w : wf_tx w -> wf_tx (clear_tx w).
Proof.
  unfold wf_tx, clear_tx. cbn [w_chain w_auth w_conds w_payload]. intros (C & A & K & F & P). splits; auto.
  assert (forall s, wf_spend s -> wf_spend (clear_spend s)) as S.
  { intros [] W; cbn [wf_spend clear_spend] in *.
    - destruct W as (I & L & _). splits; auto; try reflexivity.
    - destruct W as (I & L & _ & _ & _ & _ & R). splits; auto; try reflexivity. }
  destruct (w_auth w) as [o|o s]; cbn [clear_auth wf_auth] in *; [auto|]. destruct A as [A _]. split; [auto|].
  cbn [wf_spend]. splits; try reflexivity. left. reflexivity.
Qed.

(** The signing hash ignores what it should ... *)
Lemma initial_hash_same t u h k : same_body t u -> same_origin (tx_auth t) (tx_auth u) ->
  initial_hash t = Ok h -> initial_hash u = Ok k -> h = k.
Proof.
  intros B O H K. apply initial_hash_iff in H, K. destruct H as (w & M & _ & ->), K as (v & N & _ & ->).
  do 2 f_equal. apply (clear_same t u); auto.
Qed.

(** ... and nothing else. *)
Lemma initial_hash_commits t u w v h : tx_means t w -> tx_means u v -> wf_tx w -> wf_tx v ->
  initial_hash t = Ok h -> initial_hash u = Ok h ->
  (same_body t u /\ same_origin (tx_auth t) (tx_auth u)) \/ collision (ser_tx (clear_tx w)) (ser_tx (clear_tx v)).
Proof.
  intros M N W V H K. apply initial_hash_iff in H, K. destruct H as (w' & M' & _ & ->), K as (v' & N' & _ & K).
  assert (w' = w) as ->. { apply (tx_same t t); auto. split; [|reflexivity]. apply (body_same t t w w); auto. splits; auto. }
  assert (v' = v) as ->. { apply (tx_same u u); auto. split; [|reflexivity]. apply (body_same u u v v); auto. splits; auto. }
  destruct (bytes_dec (ser_tx (clear_tx w)) (ser_tx (clear_tx v))) as [E|E].
  - left. apply (clear_same t u w v M N).
    rewrite <- (app_nil_r (ser_tx _)), <- (app_nil_r (ser_tx (clear_tx v))) in E.
    apply tx_prefix in E; auto using clear_wf. apply E.
  - right. split; auto.
Qed.

(** Same hash exactly, including failures, after an operation that keeps everything but the
    authorization. *)
Lemma initial_hash_auth t a : same_origin (tx_auth t) a -> initial_hash (tx_with_auth t a) = initial_hash t.
Proof.
  intros O. unfold initial_hash, tx_hash. f_equal. f_equal.
  assert (auth_reset (tx_auth t) = auth_reset a) as E.
  { apply auth_wire_inj. rewrite !reset_wire. apply auth_identity. exact O. }
  unfold tx_with_auth. cbn [tx_ver tx_chain tx_auth tx_anchor tx_pcmode tx_conds tx_payload]. rewrite E. reflexivity.
Qed.

Lemma identity_refl c : same_identity c c.
Proof. destruct c; cbn; auto. Qed.
Lemma origin_refl a : same_origin a a.
Proof. destruct a; apply identity_refl. Qed.
Lemma origin_with a o : same_identity (auth_origin a) o -> same_origin a (auth_with_origin a o).
Proof. destruct a; auto. Qed.

Lemma modify_identity c m : same_identity c (fst (modify c m)).
Proof. destruct c, m; cbn; auto. Qed.

Lemma sign_append_identity E c h ty sk : same_identity c (fst (sign_and_append E c h ty sk)).
Proof.
  unfold sign_and_append. destruct (map_err _ _) as [[sig g]| | |]; try apply identity_refl.
  destruct (sc_mode c).
  - pose proof (modify_identity c (MSetSignature sig)). destruct (modify c (MSetSignature sig)); assumption.
  - pose proof (modify_identity c (MAddSignature sig)). destruct (modify c (MAddSignature sig)); assumption.
  - pose proof (modify_identity c (MSetSignature sig)). destruct (modify c (MSetSignature sig)); assumption.
  - pose proof (modify_identity c (MAddSignature sig)). destruct (modify c (MAddSignature sig)); assumption.
Qed.

Lemma with_auth_id t : tx_with_auth t (tx_auth t) = t.
Proof. destruct t; reflexivity. Qed.

Lemma hash_set_fee t f : initial_hash (tx_set_fee t f) = initial_hash t.
Proof. apply initial_hash_auth. apply origin_with. destruct (auth_origin (tx_auth t)); cbn; auto. Qed.
Lemma hash_set_nonce t f : initial_hash (tx_set_nonce t f) = initial_hash t.
Proof. apply initial_hash_auth. apply origin_with. destruct (auth_origin (tx_auth t)); cbn; auto. Qed.
Lemma hash_set_sponsor t s : initial_hash (tx_with_auth t (fst (auth_set_sponsor (tx_auth t) s))) = initial_hash t.
Proof. apply initial_hash_auth. destruct (tx_auth t); apply identity_refl. Qed.
Lemma hash_sign_origin E t h sk : initial_hash (fst (sign_next_origin E t h sk)) = initial_hash t.
Proof.
  unfold sign_next_origin. pose proof (sign_append_identity E (auth_origin (tx_auth t)) h auth_type_standard sk) as I.
  destruct (sign_and_append _ _ _ _ _) as [o r]. cbn [fst] in *. apply initial_hash_auth, origin_with, I.
Qed.
Lemma hash_sign_sponsor E t h sk : initial_hash (fst (sign_next_sponsor E t h sk)) = initial_hash t.
Proof.
  unfold sign_next_sponsor. destruct (tx_auth t) as [o|o s] eqn:A; [reflexivity|].
  destruct (sign_and_append _ _ _ _ _) as [s' r]. cbn [fst]. apply initial_hash_auth. rewrite A. apply identity_refl.
Qed.
Lemma hash_append_origin t pk : initial_hash (fst (append_next_origin t pk)) = initial_hash t.
Proof.
  unfold append_next_origin. pose proof (modify_identity (auth_origin (tx_auth t)) (MAddPublicKey pk)) as I.
  destruct (modify _ _) as [o r]. cbn [fst] in I.
  destruct (sc_mode _); try reflexivity; cbn [fst]; apply initial_hash_auth, origin_with, I.
Qed.

(** ** What a signature commits to *)

Lemma presign_text h typ fee nonce : presign_hash h typ fee nonce = sha512_256 (message_text h typ fee nonce).
Proof. unfold presign_hash, message_text. rewrite !big_endian_be. reflexivity. Qed.

Lemma message_text_inj h k ty tz f g n m : length h = length k -> f < 2 ^ 64 -> g < 2 ^ 64 -> n < 2 ^ 64 -> m < 2 ^ 64 ->
  message_text h ty f n = message_text k tz g m -> h = k /\ ty = tz /\ f = g /\ n = m.
Proof.
  unfold message_text. intros L Bf Bg Bn Bm H. apply app_inj_len in H; [|exact L]. destruct H as [-> H].
  cbn [app] in H. apply cons_both in H. destruct H as [-> H].
  apply (fixed_prefix 8) in H; auto. destruct H as [-> H]. apply big_endian_inj in H; auto.
Qed.

Lemma message_commits t u w v h k ty tz f g n m : tx_means t w -> tx_means u v -> wf_tx w -> wf_tx v ->
  initial_hash t = Ok h -> initial_hash u = Ok k -> f < 2 ^ 64 -> g < 2 ^ 64 -> n < 2 ^ 64 -> m < 2 ^ 64 ->
  presign_hash h ty f n = presign_hash k tz g m ->
  (same_body t u /\ same_origin (tx_auth t) (tx_auth u) /\ ty = tz /\ f = g /\ n = m)
  \/ collision (ser_tx (clear_tx w)) (ser_tx (clear_tx v))
  \/ collision (message_text h ty f n) (message_text k tz g m).
Proof.
  intros M N W V H K Bf Bg Bn Bm P. rewrite !presign_text in P.
  destruct (bytes_dec (message_text h ty f n) (message_text k tz g m)) as [E|E]; [|right; right; split; auto].
  assert (length h = length k) as L.
  { apply initial_hash_iff in H, K. destruct H as (? & _ & _ & ->), K as (? & _ & _ & ->). rewrite !sha512_256_length. reflexivity. }
  apply message_text_inj in E; auto. destruct E as (-> & -> & -> & ->).
  destruct (initial_hash_commits t u w v k M N W V H K) as [[B O]|C]; [left | right; left; exact C]. auto.
Qed.

(** ** Fee and nonce *)

Lemma fee_means t w f : tx_means t w -> tx_means (tx_set_fee t f) (on_origin (spend_fee f) w).
Proof.
  intros (V & C & A & N & P & Cs & Pl). unfold tx_means, on_origin, tx_set_fee, tx_with_auth.
  cbn [tx_ver tx_chain tx_auth tx_anchor tx_pcmode tx_conds tx_payload w_version w_chain w_auth w_anchor w_pcmode w_conds w_payload].
  splits; auto. rewrite A. destruct (tx_auth t) as [[]|[] ?]; reflexivity.
Qed.
Lemma nonce_means t w f : tx_means t w -> tx_means (tx_set_nonce t f) (on_origin (spend_nonce f) w).
Proof.
  intros (V & C & A & N & P & Cs & Pl). unfold tx_means, on_origin, tx_set_nonce, tx_with_auth.
  cbn [tx_ver tx_chain tx_auth tx_anchor tx_pcmode tx_conds tx_payload w_version w_chain w_auth w_anchor w_pcmode w_conds w_payload].
  splits; auto. rewrite A. destruct (tx_auth t) as [[]|[] ?]; reflexivity.
Qed.
Lemma origin_fits w g : (forall s, fits_spend (g s) <-> fits_spend s) -> (fits_tx (on_origin g w) <-> fits_tx w).
Proof.
  intros G. unfold fits_tx, on_origin. cbn [w_auth w_conds w_payload]. destruct (w_auth w); cbn [fits_auth]; rewrite G; tauto.
Qed.
Lemma set_fee_wire t f w : tx_means t w -> fits_tx w -> enc_tx (tx_set_fee t f) = Ok (ser_tx (on_origin (spend_fee f) w)).
Proof.
  intros M F. apply tx_iff. exists (on_origin (spend_fee f) w). splits; auto using fee_means.
  apply origin_fits; [|exact F]. intros []; cbn; tauto.
Qed.
Lemma set_nonce_wire t f w : tx_means t w -> fits_tx w -> enc_tx (tx_set_nonce t f) = Ok (ser_tx (on_origin (spend_nonce f) w)).
Proof.
  intros M F. apply tx_iff. exists (on_origin (spend_nonce f) w). splits; auto using nonce_means.
  apply origin_fits; [|exact F]. intros []; cbn; tauto.
Qed.
