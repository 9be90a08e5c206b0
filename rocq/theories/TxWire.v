(** The transaction wire format of SpecTx.v is uniquely readable. *)

From Coq Require Import Lia ZifyBool ZifyNat ZifyN.
From Verif Require Import Base BaseFacts SpecText SpecAddr Hash C32 Clarity SpecWire Tx SpecTx WireFacts ClarityFacts.
Local Open Scope N_scope.

Lemma solid_delim w : solid w -> delim w.
Proof.
  intros (F & R & S & H). unfold delim.
  pose proof (wall_and _ _ _ F (wall_and _ _ _ R (wall_and _ _ _ S H))) as W.
  revert W. apply wall_mono. clear. intros w (F & R & S & H).
  destruct w; cbn in *; auto; try tauto; try lia.
  destruct F as [F F']. split; [exact F|]. rewrite every_Forall in *. rewrite Forall_forall in *.
  intros kv K. specialize (F' kv K). cbn in F'. lia.
Qed.

Lemma proper_solid w : proper w -> solid w.
Proof. intros (F & R & S & H & _). exact (conj F (conj R (conj S H))). Qed.

Lemma name_prefix a b t1 t2 : count a < 256 -> count b < 256 -> ser_name a ++ t1 = ser_name b ++ t2 -> a = b /\ t1 = t2.
Proof.
  intros A B H. unfold ser_name in H. rewrite <- ?app_assoc in H. apply (len_prefix_inj 1) in H; assumption.
Qed.

Lemma fixed_prefix k a b (t1 t2 : bytes) : a < 256 ^ N.of_nat k -> b < 256 ^ N.of_nat k ->
  big_endian k a ++ t1 = big_endian k b ++ t2 -> a = b /\ t1 = t2.
Proof.
  intros A B H. apply app_inj_len in H; [|rewrite !big_endian_length; reflexivity].
  destruct H as [H ->]. apply big_endian_inj in H; auto.
Qed.

Lemma who_prefix a b t1 t2 : is_principal a -> is_principal b -> delim a -> delim b ->
  ser_who a ++ t1 = ser_who b ++ t2 -> a = b /\ t1 = t2.
Proof.
  intros A B Da Db H. destruct a, b; cbn in A, B; try contradiction; cbn [ser_who app] in H; try discriminate H;
    apply cons_tl in H; apply cons_both in H; destruct H as [-> H]; destruct Da as [Da _], Db as [Db _]; cbn in Da, Db.
  - apply app_inj_len in H; [|congruence]. destruct H as [-> ->]. auto.
  - destruct Da as [La Na], Db as [Lb Nb]. rewrite <- ?app_assoc in H. apply app_inj_len in H; [|congruence].
    destruct H as [-> H]. apply name_prefix in H; [|assumption..]. destruct H as [-> ->]. auto.
Qed.

Lemma asset_prefix a b t1 t2 : wf_asset a -> wf_asset b -> ser_asset a ++ t1 = ser_asset b ++ t2 -> a = b /\ t1 = t2.
Proof.
  destruct a as [v h c n], b as [v' h' c' n']. unfold wf_asset, ser_asset. cbn [wa_ver wa_hash wa_contract wa_name].
  intros (L & C & N) (L' & C' & N') H. cbn [app] in H. apply cons_both in H. destruct H as [-> H].
  rewrite <- ?app_assoc in H. apply app_inj_len in H; [|congruence]. destruct H as [-> H].
  apply name_prefix in H; [|lia..]. destruct H as [-> H]. apply name_prefix in H; [|lia..]. destruct H as [-> ->]. auto.
Qed.

Lemma cond_prefix a b t1 t2 : wf_cond a -> wf_cond b -> ser_cond a ++ t1 = ser_cond b ++ t2 -> a = b /\ t1 = t2.
Proof.
  intros A B H. destruct a, b; cbn [ser_cond app] in H; try discriminate H; apply cons_tl in H; cbn [wf_cond] in A, B;
    rewrite <- ?app_assoc in H.
  - destruct A as (P & S & M), B as (P' & S' & M').
    apply who_prefix in H; auto using solid_delim. destruct H as [-> H]. cbn [app] in H.
    apply cons_both in H. destruct H as [-> H]. apply (fixed_prefix 8) in H; auto. destruct H as [-> ->]. auto.
  - destruct A as (P & S & W & M), B as (P' & S' & W' & M').
    apply who_prefix in H; auto using solid_delim. destruct H as [-> H]. rewrite <- ?app_assoc in H.
    apply asset_prefix in H; auto. destruct H as [-> H]. cbn [app] in H.
    apply cons_both in H. destruct H as [-> H]. apply (fixed_prefix 8) in H; auto. destruct H as [-> ->]. auto.
  - destruct A as (P & S & W & M), B as (P' & S' & W' & M').
    apply who_prefix in H; auto using solid_delim. destruct H as [-> H]. rewrite <- ?app_assoc in H.
    apply asset_prefix in H; auto. destruct H as [-> H]. rewrite <- ?app_assoc in H.
    apply wser_prefix in H; auto using solid_delim. destruct H as [-> H]. cbn [app] in H.
    apply cons_both in H. destruct H as [-> ->]. auto.
Qed.

(** Lists of self-delimiting items of known number. *)
Lemma items_prefix {A} (ser : A -> bytes) (wf : A -> Prop) :
  (forall a b t1 t2, wf a -> wf b -> ser a ++ t1 = ser b ++ t2 -> a = b /\ t1 = t2) ->
  forall l m t1 t2, Forall wf l -> Forall wf m -> length l = length m ->
  flat_map ser l ++ t1 = flat_map ser m ++ t2 -> l = m /\ t1 = t2.
Proof.
  intros P. induction l as [|x l IH]; intros [|y m] t1 t2 Wl Wm L H; cbn in L; try discriminate; [auto|].
  cbn [flat_map] in H. rewrite <- ?app_assoc in H. inv Wl. inv Wm. apply P in H; auto. destruct H as [-> H].
  apply IH in H; auto. destruct H as [-> ->]. auto.
Qed.

Lemma counted_prefix {A} (ser : A -> bytes) (wf : A -> Prop) :
  (forall a b t1 t2, wf a -> wf b -> ser a ++ t1 = ser b ++ t2 -> a = b /\ t1 = t2) ->
  forall l m t1 t2, Forall wf l -> Forall wf m -> count l < 2 ^ 32 -> count m < 2 ^ 32 ->
  big_endian 4 (count l) ++ flat_map ser l ++ t1 = big_endian 4 (count m) ++ flat_map ser m ++ t2 -> l = m /\ t1 = t2.
Proof.
  intros P l m t1 t2 Wl Wm Cl Cm H. apply (fixed_prefix 4) in H; auto. destruct H as [C H].
  apply (items_prefix ser wf P) in H; auto. unfold count in C. lia.
Qed.

Lemma payload_prefix a b t1 t2 : wf_payload a -> wf_payload b -> ser_payload a ++ t1 = ser_payload b ++ t2 -> a = b /\ t1 = t2.
Proof.
  intros A B H. destruct a, b; cbn [ser_payload app] in H; try discriminate H; apply cons_tl in H; cbn [wf_payload] in A, B.
  - destruct A as (S & M & L), B as (S' & M' & L'). rewrite <- ?app_assoc in H.
    apply wser_prefix in H; auto using solid_delim. destruct H as [-> H].
    apply (fixed_prefix 8) in H; auto. destruct H as [-> H]. apply app_inj_len in H; [|congruence].
    destruct H as [-> ->]. auto.
  - destruct A as (L & C & N & K & S), B as (L' & C' & N' & K' & S'). apply cons_both in H. destruct H as [-> H].
    rewrite <- ?app_assoc in H. apply app_inj_len in H; [|congruence]. destruct H as [-> H].
    apply name_prefix in H; [|lia..]. destruct H as [-> H]. apply name_prefix in H; [|lia..]. destruct H as [-> H].
    apply (counted_prefix wser solid) in H; auto.
    + destruct H as [-> ->]. auto.
    + intros x y s1 s2 Sx Sy. apply wser_prefix; apply solid_delim; assumption.
Qed.

Lemma field_prefix a b t1 t2 : wf_field a -> wf_field b -> ser_field a ++ t1 = ser_field b ++ t2 -> a = b /\ t1 = t2.
Proof.
  intros A B H. destruct a, b; cbn [ser_field app] in H; try discriminate H; apply cons_tl in H; cbn [wf_field] in A, B;
    (apply app_inj_len in H; [|congruence]); destruct H as [-> ->]; auto.
Qed.

Lemma spend_prefix a b t1 t2 : wf_spend a -> wf_spend b -> ser_spend a ++ t1 = ser_spend b ++ t2 -> a = b /\ t1 = t2.
Proof.
  intros A B H. destruct a, b; cbn [ser_spend app] in H; cbn [wf_spend] in A, B;
    apply cons_both in H; destruct H as [-> H]; rewrite <- ?app_assoc in H.
  - destruct A as (I & L & N & F & S), B as (_ & L' & N' & F' & S').
    apply app_inj_len in H; [|congruence]. destruct H as [-> H].
    apply (fixed_prefix 8) in H; auto. destruct H as [-> H]. apply (fixed_prefix 8) in H; auto. destruct H as [-> H].
    cbn [app] in H. apply cons_tl in H. apply app_inj_len in H; [|congruence]. destruct H as [-> ->]. auto.
  - exfalso. destruct A as ([<- | [<- | []]] & _), B as ([E | [E | []]] & _); discriminate E.
  - exfalso. destruct A as ([<- | [<- | []]] & _), B as ([E | [E | []]] & _); discriminate E.
  - destruct A as (I & L & N & F & C & W & R), B as (_ & L' & N' & F' & C' & W' & R').
    apply app_inj_len in H; [|congruence]. destruct H as [-> H].
    apply (fixed_prefix 8) in H; auto. destruct H as [-> H]. apply (fixed_prefix 8) in H; auto. destruct H as [-> H].
    rewrite <- ?app_assoc in H. apply (counted_prefix ser_field wf_field field_prefix) in H; auto. destruct H as [-> H].
    apply (fixed_prefix 2) in H; auto. destruct H as [-> ->]. auto.
Qed.

Lemma auth_prefix a b t1 t2 : wf_auth a -> wf_auth b -> ser_auth a ++ t1 = ser_auth b ++ t2 -> a = b /\ t1 = t2.
Proof.
  intros A B H. destruct a, b; cbn [ser_auth app] in H; try discriminate H; apply cons_tl in H; cbn [wf_auth] in A, B.
  - apply spend_prefix in H; auto. destruct H as [-> ->]. auto.
  - destruct A as [A A'], B as [B B']. rewrite <- ?app_assoc in H. apply spend_prefix in H; auto. destruct H as [-> H].
    apply spend_prefix in H; auto. destruct H as [-> ->]. auto.
Qed.

Lemma tx_prefix a b t1 t2 : wf_tx a -> wf_tx b -> ser_tx a ++ t1 = ser_tx b ++ t2 -> a = b /\ t1 = t2.
Proof.
  destruct a as [v c au an pm cs p], b as [v' c' au' an' pm' cs' p']. unfold wf_tx, ser_tx.
  cbn [w_version w_chain w_auth w_anchor w_pcmode w_conds w_payload].
  intros (C & A & K & F & P) (C' & A' & K' & F' & P') H. cbn [app] in H. apply cons_both in H. destruct H as [-> H].
  rewrite <- ?app_assoc in H. apply (fixed_prefix 4) in H; auto. destruct H as [-> H].
  apply auth_prefix in H; auto. destruct H as [-> H]. cbn [app] in H.
  apply cons_both in H. destruct H as [-> H]. apply cons_both in H. destruct H as [-> H].
  rewrite <- ?app_assoc in H. apply (counted_prefix ser_cond wf_cond cond_prefix) in H; auto. destruct H as [-> H].
  apply payload_prefix in H; auto. destruct H as [-> ->]. auto.
Qed.
