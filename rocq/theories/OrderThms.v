(** Lemmas behind the comparison theorems. *)

From Coq Require Import Lia ZifyBool ZifyNat ZifyN ZArith.
From Verif Require Import Base BaseFacts Hash C32 Tx Wallet F64 Rpc SpecText SpecF64 SpecClient ClarityFacts ClientThms F64Thms F64ReadThms F64Error Hex HexFacts Clarity Order SpecOrder.
Local Open Scope N_scope.

(** ** Orders *)
Lemma ranks_N : ranks N.compare.
Proof.
  split.
  - intros a b. apply N.compare_eq_iff.
  - intros a b. apply N.compare_antisym.
  - intros a b d. rewrite !N.compare_lt_iff. apply N.lt_trans.
Qed.
Lemma ranks_map {A B} (f : A -> B) c : (forall x y, f x = f y -> x = y) -> ranks c -> ranks (fun a b => c (f a) (f b)).
Proof.
  intros I [S W T]. split.
  - intros a b. rewrite S. split; [apply I | congruence].
  - intros a b. apply W.
  - intros a b d. apply T.
Qed.
Lemma ranks_ext {A} (c d : A -> A -> comparison) : (forall a b, c a b = d a b) -> ranks c -> ranks d.
Proof. intros E [S W T]. split; intros; rewrite <- !E in *; eauto. Qed.
Definition pair_cmp {A B} (c : A -> A -> comparison) (d : B -> B -> comparison) (x y : A * B) : comparison :=
  then_cmp (c (fst x) (fst y)) (d (snd x) (snd y)).
Lemma ranks_pair {A B} (c : A -> A -> comparison) (d : B -> B -> comparison) : ranks c -> ranks d -> ranks (pair_cmp c d).
Proof.
  intros [S W T] [S' W' T']. unfold pair_cmp, then_cmp. split.
  - intros [a x] [b y]. cbn. destruct (c a b) eqn:E.
    + rewrite S'. apply S in E. subst. split; congruence.
    + split; [discriminate|]. intros [= -> ->]. rewrite (proj2 (S b b) eq_refl) in E. discriminate.
    + split; [discriminate|]. intros [= -> ->]. rewrite (proj2 (S b b) eq_refl) in E. discriminate.
  - intros [a x] [b y]. cbn. rewrite (W a b), (W' x y). destruct (c a b); reflexivity.
  - intros [a x] [b y] [e z]. cbn. destruct (c a b) eqn:E.
    + apply S in E. subst b. destruct (c a e); try discriminate; auto. apply T'.
    + intros _. destruct (c b e) eqn:F.
      * apply S in F. subst e. rewrite E. auto.
      * rewrite (T _ _ _ E F). auto.
      * discriminate.
    + discriminate.
Qed.
Lemma ranks_list {A} (c : A -> A -> comparison) : ranks c -> ranks (list_cmp c).
Proof.
  intros [S W T]. split.
  - induction a as [|x a IH]; intros [|y b]; cbn; try (split; congruence). destruct (c x y) eqn:E.
    + rewrite IH. apply S in E. subst. split; congruence.
    + split; [discriminate|]. intros [= -> ->]. rewrite (proj2 (S y y) eq_refl) in E. discriminate.
    + split; [discriminate|]. intros [= -> ->]. rewrite (proj2 (S y y) eq_refl) in E. discriminate.
  - induction a as [|x a IH]; intros [|y b]; cbn; try reflexivity. rewrite (W x y), IH. destruct (c x y); reflexivity.
  - induction a as [|x a IH]; intros [|y b] [|z e]; cbn; try discriminate; auto. destruct (c x y) eqn:E.
    + apply S in E. subst y. destruct (c x z); try discriminate; auto. apply IH.
    + intros _. destruct (c y z) eqn:F.
      * apply S in F. subst z. rewrite E. auto.
      * rewrite (T _ _ _ E F). auto.
      * discriminate.
    + discriminate.
Qed.

Lemma ranks_byte : ranks byte_cmp.
Proof. apply (ranks_map b2n N.compare b2n_inj ranks_N). Qed.
Lemma ranks_bytes : ranks bytes_cmp.
Proof. apply ranks_list, ranks_byte. Qed.
Lemma ranks_bool : ranks bool_cmp.
Proof. split; intros; repeat match goal with b : bool |- _ => destruct b end; cbn in *; try split; try congruence; auto. Qed.
(** ** Codes *)
Lemma ranks_mode : ranks mode_cmp.
Proof. apply (ranks_map mode_byte byte_cmp); [|apply ranks_byte]. intros [] []; cbn; congruence. Qed.
Lemma ranks_version : ranks version_cmp.
Proof. apply (ranks_map version_byte byte_cmp); [|apply ranks_byte]. intros [] [] E; try reflexivity; vm_compute in E; discriminate. Qed.
Lemma ranks_tx_version : ranks tx_version_cmp.
Proof. apply (ranks_map tx_version_byte byte_cmp); [|apply ranks_byte]. intros [] []; cbn; congruence. Qed.
Lemma ranks_chain : ranks chain_cmp.
Proof. apply (ranks_map chain_id_N N.compare); [|apply ranks_N]. intros [] [] E; try reflexivity; vm_compute in E; discriminate. Qed.
Lemma ranks_anchor : ranks anchor_cmp.
Proof. apply (ranks_map anchor_byte byte_cmp); [|apply ranks_byte]. intros [] []; cbn; congruence. Qed.
Lemma ranks_code : ranks code_cmp.
Proof. apply (ranks_map cond_code_byte byte_cmp); [|apply ranks_byte]. intros [] []; cbn; congruence. Qed.
Lemma ranks_pcmode : ranks pcmode_cmp.
Proof. apply (ranks_map pc_mode_byte byte_cmp); [|apply ranks_byte]. intros [] []; cbn; congruence. Qed.

(** ** Conditions *)
Lemma ranks_std : ranks std_cmp.
Proof.
  apply (ranks_map (fun s => (std_mode s, (std_fee s, (std_nonce s, (std_signer s, std_sig s)))))
    (pair_cmp mode_cmp (pair_cmp N.compare (pair_cmp N.compare (pair_cmp hash_cmp hash_cmp))))).
  - intros [] []. cbn. congruence.
  - repeat apply ranks_pair; try apply ranks_N; try apply ranks_bytes. apply ranks_mode.
Qed.
Lemma ranks_field : ranks field_cmp.
Proof.
  pose proof ranks_bytes as [S W T]. split.
  - intros [] []; cbn; try (split; congruence); unfold hash_cmp; rewrite S; split; congruence.
  - intros [] []; cbn; try reflexivity; apply W.
  - intros [] [] []; cbn; try congruence; apply T.
Qed.
Lemma ranks_multi : ranks multi_cmp.
Proof.
  apply (ranks_map (fun s => (ms_mode s, (ms_fee s, (ms_nonce s, (ms_signer s, (ms_fields s, ms_required s))))))
    (pair_cmp mode_cmp (pair_cmp N.compare (pair_cmp N.compare (pair_cmp hash_cmp (pair_cmp (list_cmp field_cmp) byte_cmp)))))).
  - intros [] []. cbn. congruence.
  - repeat apply ranks_pair; try apply ranks_N; try apply ranks_bytes; [apply ranks_mode | apply ranks_list, ranks_field | apply ranks_byte].
Qed.

(** ** Responses *)
Lemma ranks_info : ranks info_cmp.
Proof.
  apply (ranks_map (fun s => (ni_peer_version s, (ni_pox_consensus s, (ni_burn_height s, (ni_stable_pox s, (ni_stable_burn_height s,
      (ni_server_version s, (ni_network s, (ni_parent_network s, (ni_tip_height s, (ni_tip s, (ni_tip_consensus s, ni_genesis s))))))))))))
    (pair_cmp N.compare (pair_cmp bytes_cmp (pair_cmp N.compare (pair_cmp bytes_cmp (pair_cmp N.compare (pair_cmp bytes_cmp
    (pair_cmp N.compare (pair_cmp N.compare (pair_cmp N.compare (pair_cmp bytes_cmp (pair_cmp bytes_cmp bytes_cmp)))))))))))).
  - intros [] [] E. cbn in E. injection E. intros. subst. reflexivity.
  - repeat apply ranks_pair; try apply ranks_N; apply ranks_bytes.
Qed.
Lemma ranks_address_info : ranks address_info_cmp.
Proof.
  apply (ranks_map (fun s => (ad_balance s, (ad_locked s, (ad_unlock s, (ad_nonce s, (ad_balance_proof s, ad_nonce_proof s))))))
    (pair_cmp bytes_cmp (pair_cmp bytes_cmp (pair_cmp N.compare (pair_cmp N.compare (pair_cmp bytes_cmp bytes_cmp)))))).
  - intros [] []. cbn. congruence.
  - repeat apply ranks_pair; try apply ranks_N; apply ranks_bytes.
Qed.
Lemma ranks_broadcast_err : ranks broadcast_err_cmp.
Proof.
  apply (ranks_map (fun s => (be_error s, (be_reason s, be_txid s))) (pair_cmp bytes_cmp (pair_cmp bytes_cmp bytes_cmp))).
  - intros [] []. cbn. congruence.
  - repeat apply ranks_pair; apply ranks_bytes.
Qed.
Lemma ranks_broadcast : ranks broadcast_cmp.
Proof.
  pose proof ranks_bytes as [S W T]. pose proof ranks_broadcast_err as [S' W' T']. split.
  - intros [] []; cbn; try (split; congruence); [rewrite S | rewrite S']; split; congruence.
  - intros [] []; cbn; try reflexivity; [apply W | apply W'].
  - intros [] [] []; cbn; try congruence; [apply T | apply T'].
Qed.
Lemma ranks_flagged : ranks (pair_cmp bool_cmp bytes_cmp).
Proof. apply ranks_pair; [apply ranks_bool | apply ranks_bytes]. Qed.
Lemma ranks_read_only : ranks read_only_cmp.
Proof.
  pose proof ranks_flagged as [S W T]. split.
  - intros [o s|o s] [p t|p t]; cbn; try (split; congruence); specialize (S (o, s) (p, t)); unfold pair_cmp in S; cbn in S; rewrite S; split; congruence.
  - intros [o s|o s] [p t|p t]; cbn; try reflexivity; apply (W (o, s) (p, t)).
  - intros [o s|o s] [p t|p t] [q u|q u]; cbn; try congruence; apply (T (o, s) (p, t) (q, u)).
Qed.

(** ** Dictionaries and numbers *)
Lemma list_cmp_lt {A} (c : A -> A -> comparison) (R : A -> A -> Prop) : ranks c -> (forall x y, c x y = Lt <-> R x y) -> forall a b,
  list_cmp c a b = Lt <-> (exists d r, b = a ++ d :: r) \/ exists p x y u v, a = p ++ x :: u /\ b = p ++ y :: v /\ R x y.
Proof.
  intros [S W T] L. induction a as [|x a IH]; intros [|y b]; cbn.
  - split; [discriminate|]. intros [(d & r & E)|(p & x & y & u & v & E & _)]; [discriminate|destruct p; discriminate].
  - split; [|reflexivity]. intros _. left. eexists _, _. reflexivity.
  - split; [discriminate|]. intros [(d & r & E)|(p & x' & y & u & v & _ & E & _)]; [discriminate|destruct p; discriminate].
  - destruct (c x y) eqn:E.
    + apply S in E. subst y. rewrite IH. split.
      * intros [(d & r & ->)|(p & x' & y & u & v & -> & -> & K)]; [left; eexists _, _; reflexivity|]. right. exists (x :: p), x', y, u, v. auto.
      * intros [(d & r & E)|(p & x' & y & u & v & E & F & K)]; [left; injection E as ->; eauto|].
        destruct p as [|z p]; cbn in E, F; injection E as -> ->.
        -- injection F as -> ->. apply L in K. rewrite (proj2 (S y y) eq_refl) in K. discriminate.
        -- injection F as ->. right. eexists _, _, _, _, _. split; [reflexivity|]. split; [reflexivity|exact K].
    + split; [|reflexivity]. intros _. right. exists [], x, y, a, b. split; [reflexivity|]. split; [reflexivity|]. apply L, E.
    + split; [discriminate|]. intros [(d & r & F)|(p & x' & y' & u & v & F & G & K)].
      * injection F as -> ->. rewrite (proj2 (S x x) eq_refl) in E. discriminate.
      * destruct p as [|z p]; cbn in F, G; injection F as -> ->; injection G as -> ->.
        -- apply L in K. congruence.
        -- rewrite (proj2 (S z z) eq_refl) in E. discriminate.
Qed.
Lemma bytes_cmp_lt a b : bytes_cmp a b = Lt <-> precedes a b.
Proof. apply (list_cmp_lt byte_cmp); [apply ranks_byte|]. intros x y. apply N.compare_lt_iff. Qed.
Lemma field_cmp_lt a b : field_cmp a b = Lt <-> field_precedes a b.
Proof. destruct a, b; cbn; try apply bytes_cmp_lt; split; intros; auto; try discriminate; contradiction. Qed.
Lemma fields_cmp_lt a b : list_cmp field_cmp a b = Lt <-> fields_precede a b.
Proof. apply (list_cmp_lt field_cmp); [apply ranks_field|apply field_cmp_lt]. Qed.
Lemma then_lt {A} (c : A -> A -> comparison) x y d : ranks c -> then_cmp (c x y) d = Lt <-> c x y = Lt \/ x = y /\ d = Lt.
Proof.
  intros [S W T]. unfold then_cmp. destruct (c x y) eqn:E.
  - apply S in E. subst. intuition congruence.
  - intuition.
  - split; [discriminate|]. intros [F|[-> _]]; [discriminate|]. rewrite (proj2 (S y y) eq_refl) in E. discriminate.
Qed.
Lemma mode_cmp_lt a b : mode_cmp a b = Lt <-> mode_rank a < mode_rank b.
Proof. destruct a, b; vm_compute; intuition congruence. Qed.
Lemma std_cmp_lt a b : std_cmp a b = Lt <-> std_precedes a b.
Proof.
  unfold std_cmp, std_precedes. rewrite (then_lt mode_cmp _ _ _ ranks_mode), mode_cmp_lt.
  rewrite !(then_lt N.compare _ _ _ ranks_N), !N.compare_lt_iff, (then_lt hash_cmp _ _ _ ranks_bytes). unfold hash_cmp. rewrite !bytes_cmp_lt. reflexivity.
Qed.
Lemma multi_cmp_lt a b : multi_cmp a b = Lt <-> multi_precedes a b.
Proof.
  unfold multi_cmp, multi_precedes. rewrite (then_lt mode_cmp _ _ _ ranks_mode), mode_cmp_lt.
  rewrite !(then_lt N.compare _ _ _ ranks_N), !N.compare_lt_iff, (then_lt hash_cmp _ _ _ ranks_bytes), (then_lt (list_cmp field_cmp) _ _ _ (ranks_list _ ranks_field)).
  unfold hash_cmp, byte_cmp. rewrite !bytes_cmp_lt, fields_cmp_lt, N.compare_lt_iff. reflexivity.
Qed.
Lemma ranks_modification : ranks modification_cmp.
Proof.
  pose proof ranks_bytes as [S W T]. split.
  - intros [] []; cbn; try (split; congruence); unfold hash_cmp; rewrite S; split; congruence.
  - intros [] []; cbn; try reflexivity; apply W.
  - intros [] [] []; cbn; try congruence; apply T.
Qed.
Lemma modification_cmp_lt a b : modification_cmp a b = Lt <-> mod_precedes a b.
Proof. destruct a, b; cbn; try apply bytes_cmp_lt; split; intros; auto; try discriminate; contradiction. Qed.
Lemma ranks_b58_version : ranks b58_version_cmp.
Proof. apply (ranks_map b58_version_N); [|apply ranks_N]. intros [] []; cbn; congruence. Qed.
Lemma number_first {A} (f : A -> N) a b d l : (d = Lt <-> decides l) -> (then_cmp (f a ?= f b) d = Lt <-> decides (by_number f a b :: l)).
Proof. intros D. cbn. rewrite (then_lt N.compare _ _ _ ranks_N), N.compare_lt_iff, D. reflexivity. Qed.
Lemma text_first {A} (f : A -> bytes) a b d l : (d = Lt <-> decides l) -> (then_cmp (bytes_cmp (f a) (f b)) d = Lt <-> decides (by_text f a b :: l)).
Proof. intros D. cbn. rewrite (then_lt bytes_cmp _ _ _ ranks_bytes), bytes_cmp_lt, D. reflexivity. Qed.
Lemma text_last {A} (f : A -> bytes) a b : bytes_cmp (f a) (f b) = Lt <-> decides [by_text f a b].
Proof. cbn. rewrite bytes_cmp_lt. intuition. Qed.
Lemma info_cmp_lt a b : info_cmp a b = Lt <-> info_precedes a b.
Proof. unfold info_cmp, info_precedes. repeat first [apply number_first | apply text_first]. apply text_last. Qed.
Lemma address_info_cmp_lt a b : address_info_cmp a b = Lt <-> address_info_precedes a b.
Proof. unfold address_info_cmp, address_info_precedes. repeat first [apply number_first | apply text_first]. apply text_last. Qed.
Lemma broadcast_cmp_lt a b : broadcast_cmp a b = Lt <-> broadcast_precedes a b.
Proof.
  destruct a, b; cbn [broadcast_cmp broadcast_precedes]; [apply bytes_cmp_lt| | |]; try (split; intros; auto; try discriminate; contradiction).
  unfold broadcast_err_cmp. repeat apply text_first. apply text_last.
Qed.
Lemma flag_first o s p t : then_cmp (bool_cmp o p) (bytes_cmp s t) = Lt <-> decides [by_flag fst (o, s) (p, t); by_text snd (o, s) (p, t)].
Proof.
  rewrite (then_lt bool_cmp _ _ _ ranks_bool), bytes_cmp_lt. unfold decides, by_flag, by_text. cbn [fst snd].
  assert (B : bool_cmp o p = Lt <-> o = false /\ p = true) by (destruct o, p; cbn; intuition congruence). rewrite B. intuition.
Qed.
Lemma read_only_cmp_lt a b : read_only_cmp a b = Lt <-> read_only_precedes a b.
Proof. destruct a, b; cbn [read_only_cmp read_only_precedes]; try apply flag_first; split; intros; auto; try discriminate; contradiction. Qed.
Lemma digits_val b : as_digits b = be_val b.
Proof. unfold as_digits, value, be_val. generalize 0. induction b as [|x b IH]; intros n; cbn; [reflexivity|]. apply IH. Qed.
Lemma bytes_cmp_digits a : forall b, length a = length b -> bytes_cmp a b = (as_digits a ?= as_digits b).
Proof.
  intros b. rewrite !digits_val. revert b. induction a as [|x a IH]; intros [|y b] L; try discriminate; [reflexivity|].
  injection L as L. unfold bytes_cmp. cbn [list_cmp]. fold (bytes_cmp a b). rewrite !be_val_cons, <- L.
  pose proof (be_val_bound a) as Ba. pose proof (be_val_bound b) as Bb. rewrite <- L in Bb. rewrite (IH b L). unfold byte_cmp. clear IH L.
  revert Ba Bb. generalize (256 ^ N.of_nat (length a)) (be_val a) (be_val b) (b2n x) (b2n y). clear. intros p m n u v Bm Bn.
  destruct (N.compare_spec u v) as [->|K|K].
  - destruct (N.compare_spec m n) as [->|K|K]; symmetry; [apply N.compare_eq_iff|apply N.compare_lt_iff|apply N.compare_gt_iff]; lia.
  - symmetry. apply N.compare_lt_iff. nia.
  - symmetry. apply N.compare_gt_iff. nia.
Qed.
Lemma hex_char_val h : h < 16 -> b2n (hex_char h) = if h <? 10 then 48 + h else 87 + h.
Proof. intros L. unfold hex_char. destruct (N.ltb_spec h 10); apply b2n_n2b_small; lia. Qed.
Lemma hex_char_cmp h k : h < 16 -> k < 16 -> byte_cmp (hex_char h) (hex_char k) = (h ?= k).
Proof.
  intros L M. unfold byte_cmp. rewrite !hex_char_val by assumption.
  destruct (N.compare_spec h k) as [->|K|K]; [apply N.compare_refl|apply N.compare_lt_iff|apply N.compare_gt_iff];
    destruct (N.ltb_spec h 10), (N.ltb_spec k 10); lia.
Qed.
Lemma hex_cmp a : forall b, bytes_cmp (bytes_to_hex a) (bytes_to_hex b) = bytes_cmp a b.
Proof.
  induction a as [|x a IH]; intros [|y b]; try reflexivity. cbn [bytes_to_hex]. unfold bytes_cmp. cbn [list_cmp].
  fold (bytes_cmp (bytes_to_hex a) (bytes_to_hex b)) (bytes_cmp a b). rewrite IH.
  pose proof (b2n_lt x) as X. pose proof (b2n_lt y) as Y.
  rewrite !hex_char_cmp by (try apply N.mod_lt; try apply N.div_lt_upper_bound; lia). unfold byte_cmp.
  pose proof (N.div_mod' (b2n x) 16) as Dx. pose proof (N.div_mod' (b2n y) 16) as Dy.
  pose proof (N.mod_lt (b2n x) 16 ltac:(discriminate)) as Mx. pose proof (N.mod_lt (b2n y) 16 ltac:(discriminate)) as My.
  revert Dx Dy Mx My. generalize (b2n x / 16) (b2n y / 16) (b2n x mod 16) (b2n y mod 16). generalize (b2n x) (b2n y). clear. intros u v q r m n -> -> Mx My.
  destruct (N.compare_spec q r) as [->|K|K].
  - destruct (N.compare_spec m n) as [->|K|K].
    + rewrite N.compare_refl. reflexivity.
    + rewrite (proj2 (N.compare_lt_iff _ _)) by lia. reflexivity.
    + rewrite (proj2 (N.compare_gt_iff _ _)) by lia. reflexivity.
  - rewrite (proj2 (N.compare_lt_iff _ _)) by lia. reflexivity.
  - rewrite (proj2 (N.compare_gt_iff _ _)) by lia. reflexivity.
Qed.

(** ** Rates *)
Lemma f64_cmp_number a b : is_f64 a -> is_f64 b ->
  f64_cmp a b = match rate_number a, rate_number b with Some x, Some y => Some (x ?= y)%Z | _, _ => None end.
Proof.
  intros A B. destruct a as [s v|s|], b as [t w|t|]; cbn [f64_cmp rate_number]; try (destruct s; reflexivity); try reflexivity.
  - f_equal. clear. destruct s, t.
    + change (w ?= v = (- Z.of_N v ?= - Z.of_N w)%Z). rewrite Z.compare_opp. symmetry. apply N2Z.inj_compare.
    + destruct (N.eqb_spec v 0) as [->|], (N.eqb_spec w 0) as [->|]; cbn [andb]; try reflexivity; symmetry; apply Z.compare_lt_iff; lia.
    + destruct (N.eqb_spec v 0) as [->|], (N.eqb_spec w 0) as [->|]; cbn [andb]; try reflexivity; symmetry; apply Z.compare_gt_iff; lia.
    + symmetry. apply N2Z.inj_compare.
  - destruct A as [_ A]. f_equal. destruct s, t; symmetry; first [apply Z.compare_lt_iff | apply Z.compare_gt_iff]; lia.
  - destruct B as [_ B]. f_equal. destruct s, t; symmetry; first [apply Z.compare_lt_iff | apply Z.compare_gt_iff]; lia.
  - f_equal. pose proof one_pos as O. assert (P : 0 < infinite) by (rewrite infinite_is; apply N.mul_pos_pos; [reflexivity|exact O]).
    destruct s, t; cbn [bool_cmp]; symmetry; first [apply Z.compare_refl | apply Z.compare_lt_iff; lia | apply Z.compare_gt_iff; lia].
Qed.
Lemma f64_eq_cmp a b : f64_eq a b = true <-> f64_cmp a b = Some Eq.
Proof.
  destruct a as [s v|s|], b as [t w|t|]; cbn [f64_cmp f64_eq]; try (split; discriminate).
  - destruct (N.eqb_spec v 0) as [->|], (N.eqb_spec w 0) as [->|]; cbn [andb].
    + destruct s, t; split; reflexivity.
    + destruct w as [|w]; [congruence|]. destruct s, t; split; discriminate.
    + destruct v as [|v]; [congruence|]. destruct s, t; split; discriminate.
    + destruct s, t; cbn [Bool.eqb andb]; rewrite ?N.eqb_eq; (split; [try discriminate; intros ->; rewrite ?N.compare_refl; reflexivity|]);
        intros E; try discriminate; injection E as E; apply N.compare_eq_iff in E; congruence.
  - destruct t; split; discriminate.
  - destruct s; split; discriminate.
  - destruct s, t; split; try discriminate; reflexivity.
Qed.
Lemma f64_cmp_some a b : is_number a -> is_number b -> f64_cmp a b <> None.
Proof. unfold is_number. destruct a, b; cbn; congruence. Qed.
Lemma f64_cmp_refl a : is_number a -> f64_cmp a a = Some Eq.
Proof. unfold is_number. destruct a as [[] v|[]|]; cbn; intros N; rewrite ?N.compare_refl; try reflexivity. congruence. Qed.
Lemma estimate_eq_iff a b : is_f64 (fe_rate a) -> is_f64 (fe_rate b) -> estimate_eq a b = true <-> same_estimate a b.
Proof.
  intros A B. unfold estimate_eq, same_estimate. rewrite andb_true_iff, N.eqb_eq, f64_eq_cmp, (f64_cmp_number _ _ A B).
  destruct (rate_number (fe_rate a)) as [x|], (rate_number (fe_rate b)) as [y|]; split.
  - intros [E [= F]]. apply Z.compare_eq_iff in F. subst. eauto.
  - intros [E (z & [= ->] & [= ->])]. rewrite Z.compare_refl. auto.
  - intros [_ F]. discriminate.
  - intros [_ (z & _ & F)]. discriminate.
  - intros [_ F]. discriminate.
  - intros [_ (z & F & _)]. discriminate.
  - intros [_ F]. discriminate.
  - intros [_ (z & F & _)]. discriminate.
Qed.
Lemma fees_eq_iff a b : all_rates is_f64 a -> all_rates is_f64 b -> fees_eq a b = true <-> same_fees a b.
Proof.
  destruct a as [l|s], b as [m|t]; cbn; intros A B; try (split; [discriminate|contradiction]); [|apply bytes_eqb_eq].
  revert m B. induction A as [|x l X A IH]; intros m B; destruct B as [|y m Y B]; cbn.
  - split; constructor.
  - split; [discriminate|]. intros F. inversion F.
  - split; [discriminate|]. intros F. inversion F.
  - rewrite andb_true_iff, (estimate_eq_iff _ _ X Y), (IH m B). split; [intros []; constructor; auto | intros F; inversion F; auto].
Qed.
Lemma estimate_eq_cmp a b : estimate_eq a b = true <-> estimate_cmp a b = Some Eq.
Proof.
  unfold estimate_eq, estimate_cmp. rewrite andb_true_iff, f64_eq_cmp, N.eqb_eq. destruct (N.compare_spec (fe_fee a) (fe_fee b)) as [E|E|E].
  - intuition.
  - split; [intros [F _]; lia | discriminate].
  - split; [intros [F _]; lia | discriminate].
Qed.
Lemma estimates_eq_cmp l : forall m, estimates_eq l m = true <-> estimates_cmp l m = Some Eq.
Proof.
  induction l as [|x l IH]; intros [|y m]; cbn; try (split; congruence). rewrite andb_true_iff, estimate_eq_cmp, IH.
  destruct (estimate_cmp x y) as [[]|]; intuition congruence.
Qed.
Lemma fees_eq_cmp a b : fees_eq a b = true <-> fees_cmp a b = Some Eq.
Proof.
  destruct a as [l|s], b as [m|t]; cbn; try (split; discriminate).
  - apply estimates_eq_cmp.
  - rewrite bytes_eqb_eq. split; [intros ->; f_equal; now apply (ranks_same _ ranks_bytes) | intros [= E]; now apply (ranks_same _ ranks_bytes)].
Qed.
Lemma fees_cmp_some a b : all_rates is_number a -> all_rates is_number b -> fees_cmp a b <> None.
Proof.
  destruct a as [l|s], b as [m|t]; cbn; intros A B; try discriminate.
  revert m B. induction A as [|x l X A IH]; intros m B; destruct B as [|y m Y B]; cbn; try discriminate.
  unfold estimate_cmp. destruct (fe_fee x ?= fe_fee y); try discriminate. pose proof (f64_cmp_some _ _ X Y) as S.
  destruct (f64_cmp (fe_rate x) (fe_rate y)) as [[]|]; try discriminate; auto.
Qed.
Lemma fees_refl a : fees_eq a a = true <-> all_rates is_number a.
Proof.
  destruct a as [l|s]; cbn; [|split; auto; intros _; apply bytes_eqb_refl]. induction l as [|x l IH]; cbn; [split; auto|].
  rewrite andb_true_iff, IH. unfold estimate_eq. rewrite N.eqb_refl. cbn [andb]. rewrite f64_eq_cmp. split.
  - intros [E F]. constructor; auto. unfold is_number. intros N. rewrite N in E. discriminate.
  - intros F. inversion_clear F. split; auto. now apply f64_cmp_refl.
Qed.
Lemma estimate_cmp_lt a b : is_f64 (fe_rate a) -> is_f64 (fe_rate b) -> estimate_cmp a b = Some Lt <-> estimate_precedes a b.
Proof.
  intros A B. unfold estimate_cmp, estimate_precedes. destruct (fe_fee a ?= fe_fee b) eqn:E.
  - apply N.compare_eq_iff in E. rewrite (f64_cmp_number _ _ A B). rewrite E. split.
    + destruct (rate_number (fe_rate a)) as [x|], (rate_number (fe_rate b)) as [y|]; try discriminate. intros [= L].
      right. split; [reflexivity|]. exists x, y. split; [reflexivity|]. split; [reflexivity|]. now apply Z.compare_lt_iff.
    + intros [L|(_ & x & y & X & Y & L)]; [exfalso; exact (N.lt_irrefl _ L)|]. rewrite X, Y. f_equal. now apply Z.compare_lt_iff.
  - split; [|reflexivity]. intros _. left. now apply N.compare_lt_iff.
  - split; [discriminate|]. apply N.compare_gt_iff in E. intros [L|[L _]]; exfalso; clear - E L; lia.
Qed.
Lemma estimates_cmp_lt l : forall m, Forall (fun e => is_f64 (fe_rate e)) l -> Forall (fun e => is_f64 (fe_rate e)) m ->
  estimates_cmp l m = Some Lt <-> fees_precede (EsOk l) (EsOk m).
Proof.
  induction l as [|x l IH]; intros m A B; cbn [fees_precede].
  - destruct m as [|y m]; cbn [estimates_cmp].
    + split; [discriminate|]. intros (p & q & r & s & L & M & F & G). destruct p; [|discriminate L]. destruct r; [|discriminate L].
      destruct q; [|discriminate M]. destruct s; [contradiction|discriminate M].
    + split; [|reflexivity]. intros _. exists [], [], [], (y :: m). repeat split. constructor.
  - destruct m as [|y m]; cbn [estimates_cmp].
    + split; [discriminate|]. intros (p & q & r & s & L & M & F & G). destruct q; [|discriminate M]. destruct s; [|discriminate M].
      inversion F; subst. cbn in L. subst r. contradiction.
    + apply Forall_cons_iff in A. destruct A as [X A]. apply Forall_cons_iff in B. destruct B as [Y B]. specialize (IH m A B).
      pose proof (estimate_cmp_lt x y X Y) as LT. pose proof (estimate_eq_iff x y X Y) as EQ. rewrite estimate_eq_cmp in EQ.
      split.
      * intros C. destruct (estimate_cmp x y) as [[| |]|] eqn:E; try discriminate.
        -- apply IH in C. destruct C as (p & q & r & s & L & M & F & G). exists (x :: p), (y :: q), r, s. subst. repeat split; [|exact G].
           constructor; [now apply EQ|exact F].
        -- exists [], [], (x :: l), (y :: m). repeat split; [constructor|now apply LT].
      * intros (p & q & r & s & L & M & F & G). destruct F as [|x' y' p q F1 F].
        -- cbn in L, M. subst r s. apply LT in G. now rewrite G.
        -- cbn in L, M. injection L as <- L. injection M as <- M. apply EQ in F1. rewrite F1. apply IH. exists p, q, r, s. auto.
Qed.
Lemma fees_cmp_lt a b : all_rates is_f64 a -> all_rates is_f64 b -> fees_cmp a b = Some Lt <-> fees_precede a b.
Proof.
  destruct a as [l|s], b as [m|t]; cbn [all_rates fees_cmp]; intros A B.
  - now apply estimates_cmp_lt.
  - cbn. split; auto.
  - cbn. split; [discriminate|contradiction].
  - cbn [fees_precede]. rewrite <- bytes_cmp_lt. split; congruence.
Qed.
Lemma f64_cmp_swap a b : f64_cmp b a = option_map CompOpp (f64_cmp a b).
Proof.
  destruct a as [s v|s|], b as [t w|t|]; try reflexivity; cbn.
  - destruct s, t; cbn; try (f_equal; apply N.compare_antisym); rewrite (andb_comm (w =? 0)); destruct ((v =? 0) && (w =? 0)); reflexivity.
  - now destruct t.
  - now destruct s.
  - now destruct s, t.
Qed.
Lemma estimate_cmp_swap a b : estimate_cmp b a = option_map CompOpp (estimate_cmp a b).
Proof. unfold estimate_cmp. rewrite (N.compare_antisym (fe_fee a)). destruct (fe_fee a ?= fe_fee b); cbn; [apply f64_cmp_swap|reflexivity|reflexivity]. Qed.
Lemma estimates_cmp_swap l : forall m, estimates_cmp m l = option_map CompOpp (estimates_cmp l m).
Proof.
  induction l as [|x l IH]; intros [|y m]; try reflexivity. cbn. rewrite (estimate_cmp_swap x y).
  destruct (estimate_cmp x y) as [[| |]|]; cbn; [apply IH|reflexivity..].
Qed.
Lemma fees_cmp_swap a b : fees_cmp b a = option_map CompOpp (fees_cmp a b).
Proof. destruct a, b; cbn; try reflexivity; [apply estimates_cmp_swap|]. f_equal. apply (ranks_swap _ ranks_bytes). Qed.
Lemma fees_cmp_gt a b : all_rates is_f64 a -> all_rates is_f64 b -> fees_cmp a b = Some Gt <-> fees_precede b a.
Proof. intros A B. rewrite <- (fees_cmp_lt b a B A), (fees_cmp_swap a b). destruct (fees_cmp a b) as [[| |]|]; cbn; split; congruence. Qed.
Lemma as_f64_number j r : as_f64 j = Some r -> is_number r.
Proof.
  unfold is_number. intros E ->. destruct j; try discriminate E. apply as_f64_iff in E. destruct E as (neg & i & f & e & ki & ri & kf & rf & v & _ & _ & _ & _ & E). discriminate.
Qed.
Lemma estimate_numbers http url t r : estimate_fee http url t = Ok r -> all_rates is_number r.
Proof.
  unfold estimate_fee. intros E. apply bind_ok in E. destruct E as (rq & _ & E). destruct (http rq) as [p|c p|]; [|apply bind_ok in E; destruct E as (s & _ & E); okinv E; exact I | discriminate].
  apply bind_ok in E. destruct E as (f & F & E). okinv E. cbn. unfold into_json, io in F. destruct (rs_json p) as [j|]; cbn in F; [|discriminate].
  destruct (parse_fee_ok j) as [f'|] eqn:P; cbn in F; [|discriminate]. okinv F. unfold parse_fee_ok in P.
  destruct (struct_of _ j) as [[|[] []]|]; try discriminate. revert f P. induction l as [|x l IH]; intros f P; cbn in P.
  - injection P as <-. constructor.
  - destruct (parse_estimate x) as [e|] eqn:X; [|discriminate]. destruct (parse_estimates l) as [q|]; [|discriminate]. injection P as <-.
    constructor; [|now apply IH]. unfold parse_estimate in X. destruct (struct_of _ x) as [[|a [|b []]]|]; try discriminate.
    destruct (as_uint 64 a); [|discriminate]. destruct (as_f64 b) as [r|] eqn:B; [|discriminate]. injection X as <-. exact (as_f64_number _ _ B).
Qed.

(** ** Encodings *)
Lemma enc_std_inj a b : sized_std a -> sized_std b -> enc_std a = enc_std b -> a = b.
Proof.
  intros (F & N & S & G) (F' & N' & S' & G') E. unfold enc_std in E. apply app_inj_len in E; [|reflexivity]. destruct E as [M E]. injection M as M.
  apply app_inj_len in E; [|congruence]. destruct E as [ES E]. apply app_inj_len in E; [|now rewrite !be_bytes_length]. destruct E as [EN E].
  apply app_inj_len in E; [|now rewrite !be_bytes_length]. destruct E as [EF E]. apply app_inj_len in E; [|reflexivity]. destruct E as [_ EG].
  apply be_bytes_inj in EN; [|exact N|exact N']. apply be_bytes_inj in EF; [|exact F|exact F'].
  destruct a as [m f n s g], b as [m' f' n' s' g']. cbn in *. subst. destruct m, m'; try discriminate M; reflexivity.
Qed.
Lemma enc_fields_inj l : forall m x y, length l = length m -> Forall sized_field l -> Forall sized_field m ->
  concat (map enc_field l) ++ x = concat (map enc_field m) ++ y -> l = m /\ x = y.
Proof.
  induction l as [|f l IH]; intros [|g m] x y L A B E; try discriminate; [auto|]. injection L as L. inversion_clear A as [|? ? Af A']. inversion_clear B as [|? ? Bg B'].
  cbn [map concat] in E. rewrite <- !app_assoc in E. destruct f as [p|s], g as [q|t]; cbn [enc_field app] in E; injection E as E; try discriminate; cbn in Af, Bg.
  - apply app_inj_len in E; [|congruence]. destruct E as [-> E]. destruct (IH _ _ _ L A' B' E) as [-> ->]. auto.
  - apply app_inj_len in E; [|congruence]. destruct E as [-> E]. destruct (IH _ _ _ L A' B' E) as [-> ->]. auto.
Qed.
Lemma enc_multi_inj a b e : sized_multi a -> sized_multi b -> enc_multi a = Ok e -> enc_multi b = Ok e -> a = b.
Proof.
  intros (F & N & S & G) (F' & N' & S' & G') A B. unfold enc_multi, enc_len32 in A, B.
  destruct (N.ltb_spec (lenN (ms_fields a)) (2 ^ 32)) as [La|]; [|discriminate]. destruct (N.ltb_spec (lenN (ms_fields b)) (2 ^ 32)) as [Lb|]; [|discriminate].
  cbn [bind] in A, B. rewrite <- B in A. clear B. apply ok_inj in A. rename A into E. apply app_inj_len in E; [|reflexivity]. destruct E as [M E]. injection M as M.
  apply app_inj_len in E; [|congruence]. destruct E as [ES E]. apply app_inj_len in E; [|now rewrite !be_bytes_length]. destruct E as [EN E].
  apply app_inj_len in E; [|now rewrite !be_bytes_length]. destruct E as [EF E]. apply app_inj_len in E; [|now rewrite !be_bytes_length]. destruct E as [EL E].
  apply be_bytes_inj in EN; [|exact N|exact N']. apply be_bytes_inj in EF; [|exact F|exact F']. apply be_bytes_inj in EL; [|exact La|exact Lb].
  unfold lenN in EL. apply Nat2N.inj in EL. destruct (enc_fields_inj _ _ _ _ EL G G' E) as [EG ER].
  apply be_bytes_inj in ER; [|eapply N.lt_trans; [apply b2n_lt|reflexivity]|eapply N.lt_trans; [apply b2n_lt|reflexivity]]. apply b2n_inj in ER.
  destruct a as [m f n s g r], b as [m' f' n' s' g' r']. cbn in *. subst. destruct m, m'; try discriminate M; reflexivity.
Qed.

(** ** Wallets *)
Lemma account_eq_iff {H} key_eq (a b : account H) : tells key_eq -> account_eq key_eq a b = true <-> a = b.
Proof.
  intros T. unfold account_eq. rewrite andb_true_iff, (T _ _), N.eqb_eq. destruct a as [x i], b as [y j]. cbn. split; [intros [-> ->]; reflexivity | intros [= -> ->]; auto].
Qed.
Lemma insert_keys {A} k (v : A) m j : In j (map fst (map_insert k v m)) <-> j = k \/ In j (map fst m).
Proof.
  induction m as [|[i x] m IH]; cbn; [intuition|]. destruct (N.eqb_spec k i) as [->|]; cbn; [intuition|]. rewrite IH. intuition.
Qed.
Lemma insert_nodup {A} k (v : A) m : NoDup (map fst m) -> NoDup (map fst (map_insert k v m)).
Proof.
  induction m as [|[i x] m IH]; cbn; intros D; [constructor; [intros []|constructor]|]. inversion_clear D as [|? ? I D'].
  destruct (N.eqb_spec k i) as [->|K]; cbn; constructor; auto. rewrite insert_keys. intros [->|J]; auto.
Qed.
Lemma step_nodup {H} (w : wallet H) o : NoDup (map fst (w_accounts w)) -> NoDup (map fst (w_accounts (wstep w o))).
Proof.
  intros D. destruct o as [i|i a]; cbn; [|now apply insert_nodup]. unfold get_account. destruct (map_get i (w_accounts w)); [exact D|].
  unfold account_derive. destruct (derive_child H (w_ext w) i); cbn; [exact D | now apply insert_nodup].
Qed.
Lemma run_nodup {H} (l : list (wop H)) : forall w, NoDup (map fst (w_accounts w)) -> NoDup (map fst (w_accounts (wrun w l))).
Proof. induction l as [|o l IH]; intros w D; [exact D|]. apply (IH (wstep w o)). now apply step_nodup. Qed.
Lemma map_get_in {A} k (v : A) m : map_get k m = Some v -> In (k, v) m.
Proof. induction m as [|[i x] m IH]; cbn; [discriminate|]. destruct (N.eqb_spec k i) as [->|]; [intros [= ->]; auto | auto]. Qed.
Lemma in_map_get {A} k (v : A) m : NoDup (map fst m) -> In (k, v) m -> map_get k m = Some v.
Proof.
  induction m as [|[i x] m IH]; cbn; intros D; [intros []|]. inversion_clear D as [|? ? I D']. intros [[= -> ->]|J]; [now rewrite N.eqb_refl|].
  destruct (N.eqb_spec k i) as [->|]; [|auto]. exfalso. apply I. apply (in_map fst) in J. exact J.
Qed.
Lemma key_get {A} k (m : list (N * A)) : In k (map fst m) <-> map_get k m <> None.
Proof.
  induction m as [|[i x] m IH]; cbn; [intuition|]. destruct (N.eqb_spec k i) as [->|K]; [intuition discriminate|]. rewrite <- IH. intuition congruence.
Qed.
Lemma accounts_eq_iff {H} key_eq (m n : list (N * account H)) : tells key_eq -> NoDup (map fst m) -> NoDup (map fst n) ->
  accounts_eq key_eq m n = true <-> forall i, map_get i m = map_get i n.
Proof.
  intros T M N. unfold accounts_eq. rewrite andb_true_iff, Nat.eqb_eq, forallb_forall. split.
  - intros [L F]. assert (U : forall i a, map_get i m = Some a -> map_get i n = Some a).
    { intros i a G. specialize (F _ (map_get_in _ _ _ G)). cbn [fst snd] in F. destruct (map_get i n) as [b|]; [|discriminate].
      apply (account_eq_iff key_eq a b T) in F. congruence. }
    assert (V : incl (map fst n) (map fst m)).
    { apply NoDup_length_incl; [exact M | rewrite !map_length; lia|]. intros i I. rewrite key_get in *. destruct (map_get i m) as [a|] eqn:G; [|congruence].
      rewrite (U i a G). discriminate. }
    intros i. destruct (map_get i m) as [a|] eqn:G; [symmetry; now apply U|]. destruct (map_get i n) as [b|] eqn:K; [|reflexivity].
    exfalso. assert (I : In i (map fst n)) by (apply key_get; congruence). apply V, key_get in I. congruence.
  - intros U. split.
    + assert (A : (length (map fst m) <= length (map fst n))%nat) by (apply NoDup_incl_length; [exact M|]; intros i; rewrite !key_get, U; auto).
      assert (B : (length (map fst n) <= length (map fst m))%nat) by (apply NoDup_incl_length; [exact N|]; intros i; rewrite !key_get, U; auto).
      rewrite !map_length in A, B. lia.
    + intros [i a] I. cbn [fst snd]. rewrite <- U, (in_map_get _ _ _ M I). now apply account_eq_iff.
Qed.
Lemma held_iff {H} root (l : list (wop H)) i a : map_get i (w_accounts (wrun {| w_ext := root; w_accounts := [] |} l)) = Some a <-> holds root l i a.
Proof.
  revert i a. induction l as [|o l IH] using rev_ind; intros i a.
  - cbn. unfold holds. cbn. split; [discriminate|]. intros [E|(_ & E & _)]; [discriminate|inversion E].
  - pose proof (wallet_root {| w_ext := root; w_accounts := [] |} l) as R. cbn [w_ext] in R. rewrite wrun_app. unfold holds in *. rewrite stored_app, Exists_app.
    set (w := wrun _ l) in *. destruct o as [j|j b]; cbn [wstep].
    + assert (K : Exists (looks_at i) [Look j : wop H] <-> i = j).
      { split; [intros X; inversion_clear X as [? ? X'|? ? X']; [symmetry; exact X' | inversion X'] | intros ->; constructor; reflexivity]. }
      rewrite K. unfold get_account. destruct (map_get j (w_accounts w)) as [c|] eqn:G.
      * cbn [fst]. rewrite IH. split; [tauto|]. intros [E|(E & [X| ->] & D)]; auto. apply IH in G. destruct G as [G|(_ & G & _)]; [congruence|]. right. auto.
      * unfold account_derive. rewrite R. destruct (derive_child H root j) as [e|x] eqn:D; cbn [fst].
        -- rewrite IH. split; [tauto|]. intros [E|(E & [X| ->] & x & D' & A)]; auto; [|congruence]. right. split; [exact E|]. split; [exact X|]. exists x. auto.
        -- cbn [set_account w_accounts]. rewrite map_get_insert. destruct (N.eqb_spec i j) as [->|Nij].
           ++ assert (S : stored l j = None).
              { destruct (stored l j) as [c|] eqn:S; [|reflexivity]. assert (G' : map_get j (w_accounts w) = Some c) by (apply IH; auto). congruence. }
              rewrite S. split; [intros [= <-]; right; eauto 8|]. intros [|(_ & _ & y & Y & ->)]; congruence.
           ++ rewrite IH. split; [tauto|]. intros [E|(E & [X|X] & D')]; [now left | right; auto | congruence].
    + assert (K : ~ Exists (looks_at i) [Store j b]) by (intros X; inversion_clear X as [? ? X'|? ? X']; [exact X' | inversion X']).
      cbn [set_account w_accounts]. rewrite map_get_insert. destruct (N.eqb_spec i j) as [->|Nij].
      * split; [auto|]. intros [|(E & _)]; congruence.
      * rewrite IH. tauto.
Qed.
Lemma opened {H} phrase (w : wallet H) : from_secret_key phrase = Ok w -> w = {| w_ext := w_ext w; w_accounts := [] |} /\ from_mnemonic H phrase = inr (w_ext w).
Proof. unfold from_secret_key. destruct (from_mnemonic H phrase); [discriminate|]. intros E. okinv E. auto. Qed.
Lemma wallet_eq_iff {H} key_eq phrase phrase' (w w' : wallet H) l l' : tells key_eq -> from_secret_key phrase = Ok w -> from_secret_key phrase' = Ok w' ->
  wallet_eq key_eq (wrun w l) (wrun w' l') = true
  <-> w_ext w = w_ext w' /\ forall i a, holds (w_ext w) l i a <-> holds (w_ext w') l' i a.
Proof.
  intros T F F'. destruct (opened _ _ F) as [W _]. destruct (opened _ _ F') as [W' _]. unfold wallet_eq.
  rewrite andb_true_iff, (T _ _), !wallet_root. rewrite accounts_eq_iff; [|exact T| |].
  - rewrite W, W'. cbn [w_ext]. split; intros [E U]; (split; [exact E|]); intros i.
    + intros a. rewrite <- !held_iff, U. reflexivity.
    + pose proof (fun a => U i a) as V. clear U. match goal with |- ?x = ?y => destruct x as [a|] eqn:X; destruct y as [b|] eqn:Y end; auto.
      * rewrite held_iff in X. apply V in X. apply held_iff in X. congruence.
      * rewrite held_iff in X. apply V in X. apply held_iff in X. congruence.
      * rewrite held_iff in Y. apply V in Y. apply held_iff in Y. congruence.
  - apply run_nodup. rewrite W. constructor.
  - apply run_nodup. rewrite W'. constructor.
Qed.
