(** Decoding of transaction payloads. *)

From Coq Require Import Lia ZifyBool ZifyNat ZifyN.
From Verif Require Import Base BaseFacts Utf8 Utf8Facts Utf8Thms SpecText SpecAddr Hash C32 Clarity SpecWire Tx SpecTx
  WireFacts ClarityFacts ClarityTotal ClarityShort ClarityThms TxWire TxFacts.
Local Open Scope N_scope.

Lemma ascii_is s : ascii s -> utf8 s.
Proof. intros H. apply utf8_valid_iff, utf8_valid_ascii, is_ascii_spec, H. Qed.

(** What is decoded and can be encoded again is what nodes accept. *)
Lemma decodable_proper w : decodable w -> wall fits1 w -> proper w.
Proof.
  unfold proper. intros D F. split; [exact F|]. revert D F.
  induction w using wval_induction; cbn [decodable wall]; intros D [F W]; cbn in D, F, W |- *;
    repeat match goal with H : _ /\ _ |- _ => destruct H end; splits; auto; try tauto.
  all: try (destruct (IHw D W) as (? & ? & ? & ? & ?); assumption).
  all: rewrite ?every_Forall in *; rewrite ?Forall_forall in *; intros x Hx.
  all: repeat match goal with Hx : In ?x ?l, H : forall y, In y ?l -> _ |- _ => specialize (H x Hx) end; cbn in *;
    repeat match goal with H : _ /\ _ |- _ => destruct H end; auto; try tauto.
Qed.

Lemma proper_fits w : proper w -> wall fits1 w.
Proof. intros P. apply P. Qed.

(** ** Token transfers *)

Lemma sub_at {E} (p a r : bytes) i n : length p = i -> length a = n -> @sub_slice E i n (p ++ a ++ r) = Ok a.
Proof. intros <- <-. apply sub_slice_ok. exists p, r. auto. Qed.

Lemma dec_transfer_exact bs p : dec_transfer bs = Ok p <->
  exists to amount memo t, bs = ser_payload (WpTransfer to amount memo) ++ t
    /\ proper_payload (WpTransfer to amount memo) /\ payload_exact p (WpTransfer to amount memo).
Proof.
  unfold dec_transfer. split.
  - intros H. rewrite bind_ok in H. destruct H as (b & B & H). rewrite index_ok in B.
    destruct bs as [|b' r]; cbn in B; [discriminate|]. injection B as B; subst b'.
    destruct (byte_eqb_spec b x00) as [E0|]; cbn [negb] in H; [subst b|discriminate]. rewrite drop1 in H. cbn [bind] in H.
    rewrite bind_ok in H. destruct H as (a & A & H). rewrite bind_ok in H. destruct H as (e & E & H).
    rewrite bind_ok in H. destruct H as (am & S & H). rewrite bind_ok in H. destruct H as (mb & M & H).
    rewrite bind_ok in H. destruct H as (memo & U & H). okinv H.
    apply decode_iff in A. destruct A as (w & t & -> & D & C).
    destruct (encode_of_means _ _ _ (canonical_means _ _ C) E) as [F ->].
    apply from_utf8_ok in U. destruct U as [-> U].
    apply sub_slice_ok in S. destruct S as (p1 & r1 & S & L1 & L2).
    assert (x00 :: wser w ++ t = (x00 :: wser w) ++ t) as X by reflexivity. rewrite X in S.
    apply app_inj_len in S; [|cbn [length]; lia]. destruct S as [<- ->].
    apply sub_slice_ok in M. destruct M as (p2 & r2 & M & L3 & L4).
    assert (x00 :: wser w ++ am ++ r1 = (x00 :: wser w ++ am) ++ r1) as Y by (cbn [app]; rewrite <- app_assoc; reflexivity).
    rewrite Y in M. apply app_inj_len in M; [|cbn [length]; rewrite app_length; lia]. destruct M as [<- ->].
    exists w, (be_val am), mb, r2. splits.
    + cbn [ser_payload app]. rewrite big_endian_be, <- L2, be_bytes_be_val, <- !app_assoc. reflexivity.
    + pose proof (be_val_bound am) as B. rewrite L2 in B.
      exact (conj (decodable_proper _ D F) (conj B (conj L4 U))).
    + exact (conj C (conj eq_refl eq_refl)).
  - intros (w & amount & memo & t & -> & (P & A & L & U) & X). destruct p; cbn [payload_exact] in X; [|contradiction].
    destruct X as (C & -> & ->). cbn [ser_payload app index nth_error]. cbn [bind]. rewrite byte_eqb_refl. cbn [negb].
    rewrite drop1. cbn [bind]. rewrite <- !app_assoc.
    rewrite (decode_at w recipient _ (proper_decodable _ P) C). cbn [bind].
    rewrite (encode_complete recipient w (canonical_means _ _ C) (proper_fits _ P)). cbn [bind].
    change (x00 :: wser w ++ big_endian 8 amount0 ++ memo0 ++ t)
      with ((x00 :: wser w) ++ big_endian 8 amount0 ++ memo0 ++ t).
    rewrite (sub_at _ (big_endian 8 amount0)) by reflexivity. cbn [bind].
    rewrite (app_assoc (x00 :: wser w)).
    rewrite (sub_at _ memo0); [|rewrite app_length, big_endian_length; reflexivity | exact L]. cbn [bind].
    rewrite (proj2 (from_utf8_ok memo0 memo0) (conj eq_refl U)). cbn [bind].
    rewrite big_endian_be, be_val_be_bytes_small by exact A. reflexivity.
Qed.

(** ** Contract calls *)

Lemma dec_lps_exact bs c : dec_lps bs = Ok c <->
  exists s t, c = CLps s /\ bs = ser_name s ++ t /\ count s < 256 /\ utf8 s.
Proof.
  unfold dec_lps, ser_name. split.
  - intros H. rewrite bind_ok in H. destruct H as (b & B & H). rewrite index_ok in B.
    destruct bs as [|b' r]; cbn in B; [discriminate|]. injection B as B; subst b'. rewrite drop1 in H. cbn [bind] in H.
    rewrite bind_ok in H. destruct H as (s & S & H). rewrite bind_ok in H. destruct H as (s' & U & H). okinv H.
    apply from_utf8_ok in U. destruct U as [-> U]. apply take_slice_ok in S. destruct S as (t & -> & L).
    exists s, t. change (count s) with (lenN s). rewrite L, big_endian_1, n2b_b2n. splits; auto. apply b2n_lt.
  - intros (s & t & -> & -> & L & U). rewrite big_endian_1. cbn [app index nth_error bind]. rewrite drop1. cbn [bind].
    rewrite b2n_n2b_small by exact L. change (count s) with (lenN s). rewrite take_slice_app. cbn [bind].
    rewrite (proj2 (from_utf8_ok s s) (conj eq_refl U)). reflexivity.
Qed.

Lemma dec_fnargs_exact bs c : dec_fnargs decode_clarity_type bs = Ok c <->
  exists cs ws t, c = CFnArgs cs /\ bs = big_endian 4 (count ws) ++ flat_map wser ws ++ t
    /\ Forall2 canonically_means cs ws /\ Forall proper ws /\ count ws < 2 ^ 32.
Proof.
  split.
  - unfold dec_fnargs. intros H. rewrite bind_ok in H. destruct H as (l & L & H). rewrite bind_ok in H.
    destruct H as (r & R & H). rewrite bind_ok in H. destruct H as (vs & V & H). okinv H.
    apply sub_slice_ok in L. destruct L as ([|] & r' & -> & L0 & L); [|discriminate L0]. cbn [app] in R.
    apply drop_slice_ok in R. destruct R as (l' & R & L'). apply app_inj_len in R; [|congruence]. destruct R as [<- ->].
    apply dec_items_sound in V; [|intros; apply decode_iff; assumption].
    destruct V as (ws & t & -> & C & M & D). exists vs, ws, t. splits; auto.
    + cbn [app]. rewrite C, big_endian_be, <- L, be_bytes_be_val. reflexivity.
    + eapply Forall_impl; [|exact D]. intros w [Dw Fw]. apply decodable_proper; assumption.
    + rewrite C. pose proof (be_val_bound l) as B. rewrite L in B. exact B.
  - intros (cs & ws & t & -> & -> & M & P & C). destruct (fnargs_roundtrip cs ws t M P C) as (e & _ & -> & D).
    cbn [decode_as] in D. rewrite <- app_assoc in D. exact D.
Qed.

Lemma dec_call_exact bs p : dec_call bs = Ok p <->
  exists v h c n ws t, bs = ser_payload (WpCall v h c n ws) ++ t
    /\ proper_payload (WpCall v h c n ws) /\ payload_exact p (WpCall v h c n ws).
Proof.
  unfold dec_call. split.
  - intros H. rewrite bind_ok in H. destruct H as (b & B & H). rewrite index_ok in B.
    destruct bs as [|b' r0]; cbn in B; [discriminate|]. injection B as B; subst b'.
    destruct (byte_eqb_spec b x02) as [E0|]; cbn [negb] in H; [subst b|discriminate].
    rewrite bind_ok in H. destruct H as (v & V & H). rewrite index_ok in V.
    destruct r0 as [|v' r0]; cbn in V; [discriminate|]. injection V as V; subst v'.
    rewrite bind_ok in H. destruct H as (h & Hh & H). rewrite bind_ok in H. destruct H as (h' & Hn & H).
    rewrite bind_ok in H. destruct H as (r & R & H). rewrite bind_ok in H. destruct H as (cv & Cv & H).
    rewrite bind_ok in H. destruct H as (ce & Ce & H). rewrite bind_ok in H. destruct H as (r1 & R1 & H).
    rewrite bind_ok in H. destruct H as (nv & Nv & H). rewrite bind_ok in H. destruct H as (ne & Ne & H).
    rewrite bind_ok in H. destruct H as (r2 & R2 & H). rewrite bind_ok in H. destruct H as (av & Av & H).
    apply sub_slice_ok in Hh. destruct Hh as (p0 & rest & Hh & L0 & Lh).
    destruct p0 as [|y1 [|y2 [|]]]; try discriminate L0. cbn [app] in Hh. apply cons_both in Hh. destruct Hh as [<- Hh].
    apply cons_both in Hh. destruct Hh as [<- ->].
    unfold hash160_new in Hn. rewrite Lh in Hn. cbn [Nat.eqb] in Hn. okinv Hn.
    apply drop_slice_ok in R. destruct R as (p1 & R & L1).
    change (x02 :: v :: h' ++ rest) with ((x02 :: v :: h') ++ rest) in R.
    apply app_inj_len in R; [|cbn [length]; lia]. destruct R as [<- ->].
    apply dec_lps_exact in Cv. destruct Cv as (c & tc & -> & -> & Lc & Uc).
    cbn [encode] in Ce. apply enc_lps_ok in Ce. destruct Ce as [Lc' ->].
    change (big_endian 1 (count c) ++ c) with (ser_name c) in R1. rewrite drop_slice_app in R1. okinv R1.
    apply dec_lps_exact in Nv. destruct Nv as (n & tn & -> & -> & Ln & Un).
    cbn [encode] in Ne. apply enc_lps_ok in Ne. destruct Ne as [Ln' ->].
    change (big_endian 1 (count n) ++ n) with (ser_name n) in R2. rewrite drop_slice_app in R2. okinv R2.
    apply dec_fnargs_exact in Av. destruct Av as (cs & ws & t & -> & -> & M & P & C). okinv H.
    exists v, h', c, n, ws, t. splits.
    + cbn [ser_payload app]. rewrite <- ?app_assoc. reflexivity.
    + cbn [proper_payload]. splits; auto.
    + cbn [payload_exact]. splits; auto.
  - intros (v & h & c & n & ws & t & -> & (L & Lc & Uc & Ln & Un & K & P) & X).
    destruct p as [|ad c' n' args]; cbn [payload_exact] in X; [contradiction|]. destruct X as (-> & -> & -> & -> & M).
    cbn [ser_payload app index nth_error]. cbn [bind]. rewrite byte_eqb_refl. cbn [negb]. rewrite <- ?app_assoc.
    change (x02 :: addr_version ad :: addr_hash ad ++ ser_name c' ++ ser_name n' ++ big_endian 4 (count ws) ++ flat_map wser ws ++ t)
      with ([x02; addr_version ad] ++ addr_hash ad ++ ser_name c' ++ ser_name n' ++ big_endian 4 (count ws) ++ flat_map wser ws ++ t).
    rewrite (sub_at _ (addr_hash ad)) by (exact L || reflexivity). cbn [bind].
    unfold hash160_new. rewrite L. cbn [Nat.eqb bind].
    rewrite app_assoc.
    rewrite (proj2 (drop_slice_ok 22 _ (ser_name c' ++ ser_name n' ++ big_endian 4 (count ws) ++ flat_map wser ws ++ t)))
      by (eexists; split; [reflexivity | cbn [app length]; lia]).
    cbn [bind].
    rewrite (proj2 (dec_lps_exact _ (CLps c'))) by (eexists _, _; splits; [reflexivity | reflexivity | lia | exact Uc]).
    cbn [bind encode]. rewrite (proj2 (enc_lps_ok c' _) (conj Lc eq_refl)). cbn [bind].
    change (big_endian 1 (count c') ++ c') with (ser_name c'). rewrite drop_slice_app. cbn [bind].
    rewrite (proj2 (dec_lps_exact _ (CLps n'))) by (eexists _, _; splits; [reflexivity | reflexivity | lia | exact Un]).
    cbn [bind encode]. rewrite (proj2 (enc_lps_ok n' _) (conj Ln eq_refl)). cbn [bind].
    change (big_endian 1 (count n') ++ n') with (ser_name n'). rewrite drop_slice_app. cbn [bind].
    rewrite (proj2 (dec_fnargs_exact _ (CFnArgs args))) by (eexists _, _, _; splits; [reflexivity | reflexivity | exact M | exact P | exact K]).
    cbn [bind]. destruct ad; reflexivity.
Qed.

(** ** Boxed payloads *)

Lemma dec_payload_dispatch b r :
  (b = x00 -> dec_payload (b :: r) = dec_transfer (b :: r)) /\ (b = x02 -> dec_payload (b :: r) = dec_call (b :: r))
  /\ (b <> x00 -> b <> x02 -> dec_payload (b :: r) = Err (ClUnexpectedType b)).
Proof.
  unfold dec_payload. cbn [index nth_error bind]. splits; intros; subst; try reflexivity.
  destruct b; try reflexivity; contradiction.
Qed.

Lemma dec_payload_exact bs p : dec_payload bs = Ok p <->
  exists w t, bs = ser_payload w ++ t /\ proper_payload w /\ payload_exact p w.
Proof.
  split.
  - intros H. destruct bs as [|b r]; [discriminate H|]. destruct (dec_payload_dispatch b r) as (T & C & O).
    destruct (byte_eqb_spec b x00) as [E|E].
    { rewrite (T E) in H. apply dec_transfer_exact in H. destruct H as (to & a & m & t & H). eauto. }
    destruct (byte_eqb_spec b x02) as [E'|E'].
    { rewrite (C E') in H. apply dec_call_exact in H. destruct H as (v & h & c & n & ws & t & H). eauto. }
    rewrite (O E E') in H. discriminate H.
  - intros (w & t & -> & P & X). destruct w.
    + assert (exists r, ser_payload (WpTransfer to amount memo) ++ t = x00 :: r) as [r E] by (eexists; reflexivity).
      rewrite E, (proj1 (dec_payload_dispatch x00 r) eq_refl), <- E. apply dec_transfer_exact. eexists _, _, _, _; eauto.
    + assert (exists r, ser_payload (WpCall ver hash contract fname args) ++ t = x02 :: r) as [r E] by (eexists; reflexivity).
      rewrite E, (proj1 (proj2 (dec_payload_dispatch x02 r)) eq_refl), <- E. apply dec_call_exact. eexists _, _, _, _, _, _; eauto.
Qed.
