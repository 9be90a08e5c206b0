(** The transaction encoders of Tx.v write exactly the wire format of SpecTx.v. *)

From Coq Require Import Lia ZifyBool ZifyNat ZifyN.
From Verif Require Import Base BaseFacts Utf8 Utf8Facts SpecText SpecAddr Hash C32 Clarity SpecWire Tx SpecTx
  WireFacts ClarityFacts ClarityThms TxWire.
Local Open Scope N_scope.

(** ** Post-conditions *)

Lemma asset_iff i e : enc_asset i = Ok e <-> exists w, asset_means i w /\ fits_asset w /\ e = ser_asset w.
Proof.
  destruct i as [a c n]. unfold enc_asset. cbn [ai_addr ai_contract ai_asset]. split.
  - intros H. rewrite bind_ok in H. destruct H as (p & P & H). rewrite bind_ok in H. destruct H as (p1 & D & H).
    rewrite bind_ok in H. destruct H as (ce & C & H). rewrite bind_ok in H. destruct H as (ne & N & H). okinv H.
    apply encode_iff in P. destruct P as (w & M & F & ->). destruct w; cbn in M; try contradiction.
    cbn [wser] in D. rewrite drop1 in D. okinv D. apply enc_lps_ok in C, N. destruct C as [C ->], N as [N ->].
    exists {| wa_ver := ver; wa_hash := hash; wa_contract := c; wa_name := n |}.
    unfold asset_means, fits_asset, ser_asset. cbn. splits; auto.
  - intros (w & (M & C & N) & (FC & FN) & ->). cbn in M, C, N.
    rewrite (encode_complete (CPrinStd a) (WStd (wa_ver w) (wa_hash w))); [|exact M | split; exact I].
    cbn [bind wser]. rewrite drop1. cbn [bind].
    rewrite C in FC. rewrite N in FN.
    rewrite (proj2 (enc_lps_ok c _) (conj FC eq_refl)). cbn [bind].
    rewrite (proj2 (enc_lps_ok n _) (conj FN eq_refl)). cbn [bind].
    unfold ser_asset, ser_name. rewrite C, N. reflexivity.
Qed.

Lemma cond_addr_iff a e : enc_cond_addr a = Ok e <->
  exists w, is_principal w /\ means a w /\ wall fits1 w /\ e = ser_who w.
Proof.
  unfold enc_cond_addr. split.
  - intros H. destruct a; cbn [cast type_of] in H; try discriminate H.
    + change (cast TPrinStd (CPrinStd addr)) with (@Ok cl_err cval (CPrinStd addr)) in H. cbn iota beta in H.
      rewrite bind_ok in H. destruct H as (p & P & H). rewrite bind_ok in H. destruct H as (p1 & D & H). okinv H.
      apply encode_iff in P. destruct P as (w & M & F & ->). exists w. destruct w; cbn in M; try contradiction.
      cbn [wser] in D. rewrite drop1 in D. okinv D. splits; auto. exact I.
    + change (cast TPrinStd (CPrinCon addr name)) with (@Err cl_err cval ClBadDowncast) in H.
      change (cast TPrinCon (CPrinCon addr name)) with (@Ok cl_err cval (CPrinCon addr name)) in H. cbn iota beta in H.
      rewrite bind_ok in H. destruct H as (p & P & H). rewrite bind_ok in H. destruct H as (p1 & D & H). okinv H.
      apply encode_iff in P. destruct P as (w & M & F & ->). exists w. destruct w; cbn in M; try contradiction.
      cbn [wser] in D. rewrite drop1 in D. okinv D. splits; auto. exact I.
  - intros (w & P & M & F & ->). destruct a, w; cbn in M, P; try contradiction.
    + change (cast TPrinStd (CPrinStd addr)) with (@Ok cl_err cval (CPrinStd addr)). cbn iota beta.
      rewrite (encode_complete (CPrinStd addr) (WStd ver hash) M F). cbn [bind wser]. rewrite drop1. reflexivity.
    + change (cast TPrinStd (CPrinCon addr name)) with (@Err cl_err cval ClBadDowncast).
      change (cast TPrinCon (CPrinCon addr name)) with (@Ok cl_err cval (CPrinCon addr name)). cbn iota beta.
      rewrite (encode_complete (CPrinCon addr name) (WCon ver hash name0) M F). cbn [bind wser]. rewrite drop1. reflexivity.
Qed.

Lemma code_byte c : cond_code_byte c = cond_code_code c.
Proof. destruct c; reflexivity. Qed.

Lemma cond_iff c e : enc_condition c = Ok e <-> exists w, cond_means c w /\ fits_cond w /\ e = ser_cond w.
Proof.
  destruct c; cbn [enc_condition]; split.
  - intros H. rewrite bind_ok in H. destruct H as (a & A & H). okinv H. apply cond_addr_iff in A.
    destruct A as (w & P & M & F & ->). exists (WcSTX w (cond_code_code code) amount). cbn [cond_means fits_cond ser_cond].
    splits; auto. cbn [app]. rewrite code_byte, big_endian_be. reflexivity.
  - intros (w & M & F & ->). destruct w; cbn [cond_means] in M; try contradiction. destruct M as (P & M & -> & ->).
    cbn [fits_cond] in F.
    rewrite (proj2 (cond_addr_iff addr _) (ex_intro _ who (conj P (conj M (conj F eq_refl))))).
    cbn [bind ser_cond app]. rewrite code_byte, big_endian_be. reflexivity.
  - intros H. rewrite bind_ok in H. destruct H as (a & A & H). rewrite bind_ok in H. destruct H as (b & B & H). okinv H.
    apply cond_addr_iff in A. destruct A as (w & P & M & F & ->).
    apply asset_iff in B. destruct B as (wa & MA & FA & ->).
    exists (WcFT w wa (cond_code_code code) amount). cbn [cond_means fits_cond ser_cond].
    splits; auto. cbn [app]. rewrite code_byte, big_endian_be. reflexivity.
  - intros (w & M & F & ->). destruct w; cbn [cond_means] in M; try contradiction. destruct M as (P & M & A & -> & ->).
    cbn [fits_cond] in F. destruct F as [F FA].
    rewrite (proj2 (cond_addr_iff addr _) (ex_intro _ who (conj P (conj M (conj F eq_refl))))). cbn [bind].
    rewrite (proj2 (asset_iff info _) (ex_intro _ asset (conj A (conj FA eq_refl)))).
    cbn [bind ser_cond app]. rewrite code_byte, big_endian_be. reflexivity.
  - intros H. rewrite bind_ok in H. destruct H as (a & A & H). rewrite bind_ok in H. destruct H as (b & B & H).
    rewrite bind_ok in H. destruct H as (n & N & H). okinv H.
    apply cond_addr_iff in A. destruct A as (w & P & M & F & ->).
    apply asset_iff in B. destruct B as (wa & MA & FA & ->). apply encode_iff in N. destruct N as (wn & MN & FN & ->).
    exists (WcNFT w wa wn (cond_code_code code)). cbn [cond_means fits_cond ser_cond].
    splits; auto.
  - intros (w & M & F & ->). destruct w; cbn [cond_means] in M; try contradiction. destruct M as (P & M & A & MN & ->).
    cbn [fits_cond] in F. destruct F as (F & FA & FN).
    rewrite (proj2 (cond_addr_iff addr _) (ex_intro _ who (conj P (conj M (conj F eq_refl))))). cbn [bind].
    rewrite (proj2 (asset_iff info _) (ex_intro _ asset (conj A (conj FA eq_refl)))). cbn [bind].
    rewrite (encode_complete _ _ MN FN). cbn [bind ser_cond app]. rewrite code_byte. reflexivity.
Qed.

Lemma conds_body_iff l : forall e, enc_conditions_body l = Ok e <->
  exists ws, Forall2 cond_means l ws /\ Forall fits_cond ws /\ e = flat_map ser_cond ws.
Proof.
  induction l as [|c l IH]; intros e; cbn [enc_conditions_body]; split.
  - intros H. okinv H. exists []. auto.
  - intros (ws & M & _ & ->). inv M. reflexivity.
  - intros H. rewrite bind_ok in H. destruct H as (a & A & H). rewrite bind_ok in H. destruct H as (b & B & H). okinv H.
    apply cond_iff in A. destruct A as (w & M & F & ->). apply IH in B. destruct B as (ws & Ms & Fs & ->).
    exists (w :: ws). auto.
  - intros (ws & M & F & ->). inversion M as [|x w l' ws' M1 M2]; subst. inversion F as [|y m F1 F2]; subst.
    rewrite (proj2 (cond_iff c _) (ex_intro _ w (conj M1 (conj F1 eq_refl)))). cbn [bind].
    rewrite (proj2 (IH _) (ex_intro _ ws' (conj M2 (conj F2 eq_refl)))). reflexivity.
Qed.

Lemma Forall2_count {A B} (R : A -> B -> Prop) l m : Forall2 R l m -> count l = count m.
Proof. intros H. unfold count. f_equal. eapply Forall2_length; eassumption. Qed.

Lemma conds_iff l e : enc_conditions l = Ok e <->
  exists ws, Forall2 cond_means l ws /\ count ws < 2 ^ 32 /\ Forall fits_cond ws
             /\ e = big_endian 4 (count ws) ++ flat_map ser_cond ws.
Proof.
  unfold enc_conditions. change @lenN with @count. split.
  - intros H. rewrite bind_ok in H. destruct H as (a & A & H). rewrite bind_ok in H. destruct H as (b & B & H). okinv H.
    apply enc_len32_ok in A. destruct A as [A ->]. apply conds_body_iff in B. destruct B as (ws & M & F & ->).
    exists ws. rewrite <- (Forall2_count _ _ _ M). auto.
  - intros (ws & M & C & F & ->). rewrite <- (Forall2_count _ _ _ M) in *.
    rewrite (proj2 (enc_len32_ok _ _) (conj C eq_refl)). cbn [bind].
    rewrite (proj2 (conds_body_iff l _) (ex_intro _ ws (conj M (conj F eq_refl)))). reflexivity.
Qed.

(** ** Payloads *)

Lemma memo_field_iff memo m : memo_field memo m <-> count memo <= 34 /\ m = memo ++ repeat x00 (34 - length memo).
Proof.
  unfold memo_field, count. split.
  - intros (L & k & ->). rewrite app_length, repeat_length in L. split; [lia|].
    replace (34 - length memo)%nat with k by lia. reflexivity.
  - intros (L & ->). rewrite app_length, repeat_length. split; [lia | eauto].
Qed.

Lemma args_iff args e : encode (CFnArgs args) = Ok e <->
  exists ws, Forall2 means args ws /\ count ws < 2 ^ 32 /\ Forall (wall fits1) ws
             /\ e = big_endian 4 (count ws) ++ flat_map wser ws.
Proof.
  rewrite encode_iff. split.
  - intros (w & M & F & ->). destruct w; cbn in M; try contradiction. rewrite every2_Forall2 in M.
    destruct F as [F Fs]. cbn in F. rewrite every_Forall in Fs. exists l. splits; auto.
  - intros (ws & M & C & F & ->). exists (WArgs ws). splits; auto.
    + cbn. rewrite every2_Forall2. exact M.
    + split; [exact C|]. rewrite every_Forall. exact F.
Qed.

Lemma transfer_iff r amount memo e : enc_transfer r amount memo = Ok e <->
  exists w, payload_means (PTransfer r amount memo) w /\ fits_payload w /\ e = ser_payload w.
Proof.
  unfold enc_transfer. change @lenN with @count. split.
  - destruct (N.ltb_spec 34 (count memo)) as [L|L]; [discriminate|]. intros H. rewrite bind_ok in H.
    destruct H as (a & A & H). okinv H. apply encode_iff in A. destruct A as (w & M & F & ->).
    exists (WpTransfer w amount (memo ++ repeat x00 (34 - length memo))). cbn [payload_means fits_payload ser_payload].
    splits; auto; [apply memo_field_iff; auto|]. rewrite big_endian_be. reflexivity.
  - intros (w & M & F & ->). destruct w; cbn [payload_means] in M; try contradiction. destruct M as (M & -> & D).
    apply memo_field_iff in D. destruct D as [D ->]. cbn [fits_payload] in F.
    destruct (N.ltb_spec 34 (count memo)) as [L|L]; [lia|].
    rewrite (encode_complete _ _ M F). cbn [bind ser_payload app]. rewrite big_endian_be. reflexivity.
Qed.

Lemma call_iff ad contract fname args e : enc_call ad contract fname args = Ok e <->
  exists w, payload_means (PCall ad contract fname args) w /\ fits_payload w /\ e = ser_payload w.
Proof.
  unfold enc_call. split.
  - intros H. rewrite bind_ok in H. destruct H as (a & A & H). rewrite bind_ok in H. destruct H as (b & B & H).
    rewrite bind_ok in H. destruct H as (c & C & H). okinv H.
    apply enc_lps_ok in A, B. destruct A as [A ->], B as [B ->]. apply args_iff in C. destruct C as (ws & M & C & F & ->).
    exists (WpCall (addr_version ad) (addr_hash ad) contract fname ws). cbn [payload_means fits_payload ser_payload].
    splits; auto.
  - intros (w & M & F & ->). destruct w; cbn [payload_means] in M; try contradiction. destruct M as (-> & -> & -> & -> & M).
    cbn [fits_payload] in F. destruct F as (A & B & C & F).
    rewrite (proj2 (enc_lps_ok contract _) (conj A eq_refl)). cbn [bind].
    rewrite (proj2 (enc_lps_ok fname _) (conj B eq_refl)). cbn [bind].
    rewrite (proj2 (args_iff args _) (ex_intro _ args0 (conj M (conj C (conj F eq_refl))))). cbn [bind ser_payload app].
    unfold ser_name. rewrite <- ?app_assoc. reflexivity.
Qed.

Lemma payload_iff p e : enc_payload p = Ok e <-> exists w, payload_means p w /\ fits_payload w /\ e = ser_payload w.
Proof. destruct p; [apply transfer_iff | apply call_iff]. Qed.

(** ** Authorizations *)

Lemma mode_code_byte m : mode_byte m = mode_code m.
Proof. destruct m; reflexivity. Qed.

Lemma fields_ser l : concat (map enc_field l) = flat_map ser_field (map field_wire l).
Proof. rewrite flat_map_concat_map, map_map. f_equal. apply map_ext. intros []; reflexivity. Qed.

Lemma count_map {A B} (f : A -> B) l : count (map f l) = count l.
Proof. unfold count. rewrite map_length. reflexivity. Qed.

Lemma scond_iff c e : enc_scond c = Ok e <-> fits_spend (spend_wire c) /\ e = ser_spend (spend_wire c).
Proof.
  destruct c; cbn [enc_scond spend_wire fits_spend ser_spend].
  - unfold enc_std. rewrite mode_code_byte, !big_endian_be. cbn [app]. split.
    + intros H. okinv H. auto.
    + intros [_ ->]. reflexivity.
  - unfold enc_multi. rewrite mode_code_byte, !big_endian_be, fields_ser, count_map. change @lenN with @count.
    rewrite bind_ok. split.
    + intros (n & N & H). okinv H. apply enc_len32_ok in N. destruct N as [N ->]. rewrite big_endian_be. auto.
    + intros [N ->]. exists (be_bytes 4 (count (ms_fields m))).
      split; [apply enc_len32_ok; rewrite big_endian_be; auto | reflexivity].
Qed.

Lemma auth_iff a e : enc_auth a = Ok e <-> fits_auth (auth_wire a) /\ e = ser_auth (auth_wire a).
Proof.
  destruct a; cbn [enc_auth auth_wire fits_auth ser_auth]; rewrite bind_ok; split.
  - intros (x & X & H). okinv H. apply scond_iff in X. destruct X as [X ->]. auto.
  - intros [F ->]. eexists. split; [apply scond_iff; auto | reflexivity].
  - intros (x & X & H). rewrite bind_ok in H. destruct H as (y & Y & H). okinv H.
    apply scond_iff in X, Y. destruct X as [X ->], Y as [Y ->]. auto.
  - intros [[F F'] ->]. eexists. split; [apply scond_iff; auto|]. rewrite bind_ok. eexists.
    split; [apply scond_iff; auto | reflexivity].
Qed.

(** ** Transactions *)

Lemma tx_iff t e : enc_tx t = Ok e <-> exists w, tx_means t w /\ fits_tx w /\ e = ser_tx w.
Proof.
  unfold enc_tx, tx_means, fits_tx. split.
  - intros H. rewrite bind_ok in H. destruct H as (a & A & H). rewrite bind_ok in H. destruct H as (c & C & H).
    rewrite bind_ok in H. destruct H as (p & P & H). okinv H.
    apply auth_iff in A. destruct A as [A ->]. apply conds_iff in C. destruct C as (ws & M & K & F & ->).
    apply payload_iff in P. destruct P as (wp & MP & FP & ->).
    exists {| w_version := version_code (tx_ver t); w_chain := chain_code (tx_chain t); w_auth := auth_wire (tx_auth t);
              w_anchor := anchor_code (tx_anchor t); w_pcmode := pcmode_code (tx_pcmode t); w_conds := ws; w_payload := wp |}.
    cbn. splits; auto. unfold ser_tx. cbn [w_version w_chain w_auth w_anchor w_pcmode w_conds w_payload].
    rewrite (big_endian_be 4 (chain_code _)), <- ?app_assoc.
    destruct (tx_ver t), (tx_chain t), (tx_anchor t), (tx_pcmode t); reflexivity.
  - intros (w & (V & Ch & Au & An & Pm & M & MP) & (FA & K & F & FP) & ->).
    rewrite Au in FA.
    rewrite (proj2 (auth_iff (tx_auth t) _) (conj FA eq_refl)). cbn [bind].
    rewrite (proj2 (conds_iff (tx_conds t) _) (ex_intro _ _ (conj M (conj K (conj F eq_refl))))). cbn [bind].
    rewrite (proj2 (payload_iff (tx_payload t) _) (ex_intro _ _ (conj MP (conj FP eq_refl)))). cbn [bind].
    unfold ser_tx. rewrite V, Ch, Au, An, Pm, (big_endian_be 4 (chain_code _)), <- ?app_assoc.
    destruct (tx_ver t), (tx_chain t), (tx_anchor t), (tx_pcmode t); reflexivity.
Qed.
