(** Lemmas about Base.v. *)

From Coq Require Import Lia ZifyBool ZifyNat ZifyN.
From Verif Require Import Base.
Local Open Scope N_scope.

Ltac Zify.zify_post_hook ::= Z.to_euclidean_division_equations.

(** Inverts a successful chain of [bind]s in the hypotheses. *)
Ltac inv H := inversion H; subst; clear H.
Ltac bind_inv :=
  repeat match goal with
  | H : bind ?r _ = Ok _ |- _ =>
    let Hr := fresh "Hr" in
    destruct r eqn:Hr; cbn [bind] in H; try discriminate H
  end.

Lemma bind_ok {E A B} (r : res E A) (k : A -> res E B) b :
  bind r k = Ok b <-> exists a, r = Ok a /\ k a = Ok b.
Proof.
  split.
  - destruct r; cbn; intros H; try discriminate. eauto.
  - intros (a & -> & H). exact H.
Qed.

Lemma map_err_ok {E F A} (f : E -> F) (r : res E A) a : map_err f r = Ok a <-> r = Ok a.
Proof. destruct r; cbn; split; intros H; inversion H; reflexivity. Qed.

(** ** Bytes *)

Lemma b2n_lt b : b2n b < 256.
Proof. destruct b; reflexivity. Qed.

Lemma n2b_b2n b : n2b (b2n b) = b.
Proof. destruct b; reflexivity. Qed.

Lemma b2n_n2b n : b2n (n2b n) = n mod 256.
Proof.
  unfold n2b, b2n. assert (n mod 256 < 256) by (apply N.mod_lt; lia).
  destruct (Byte.of_N (n mod 256)) eqn:E.
  - apply Byte.to_of_N in E. exact E.
  - apply Byte.of_N_None_iff in E. lia.
Qed.

Lemma b2n_n2b_small n : n < 256 -> b2n (n2b n) = n.
Proof. intros H. rewrite b2n_n2b. apply N.mod_small. exact H. Qed.

Lemma b2n_inj a b : b2n a = b2n b -> a = b.
Proof. intros H. rewrite <- (n2b_b2n a), <- (n2b_b2n b), H. reflexivity. Qed.

Lemma n2b_inj a b : a < 256 -> b < 256 -> n2b a = n2b b -> a = b.
Proof.
  intros Ha Hb H. apply (f_equal b2n) in H. rewrite !b2n_n2b_small in H by assumption. exact H.
Qed.

Lemma n2b_mod n : n2b (n mod 256) = n2b n.
Proof. apply b2n_inj. rewrite !b2n_n2b. apply N.mod_mod. lia. Qed.

Lemma byte_eqb_eq a b : byte_eqb a b = true <-> a = b.
Proof.
  unfold byte_eqb. split.
  - apply Byte.byte_dec_bl.
  - intros ->. apply Byte.byte_dec_lb. reflexivity.
Qed.

Lemma byte_eqb_refl a : byte_eqb a a = true.
Proof. apply byte_eqb_eq. reflexivity. Qed.

Lemma byte_eqb_neq a b : byte_eqb a b = false <-> a <> b.
Proof. rewrite <- byte_eqb_eq. destruct (byte_eqb a b); intuition congruence. Qed.

Lemma byte_eqb_spec a b : Bool.reflect (a = b) (byte_eqb a b).
Proof. apply Bool.iff_reflect. symmetry. apply byte_eqb_eq. Qed.

Lemma bytes_eqb_eq a b : bytes_eqb a b = true <-> a = b.
Proof.
  revert b. induction a as [|x a IH]; intros [|y b]; cbn; try (split; congruence).
  rewrite andb_true_iff, byte_eqb_eq, IH. split; [intros [-> ->] | intros [= -> ->]]; auto.
Qed.

Lemma bytes_eqb_refl a : bytes_eqb a a = true.
Proof. apply bytes_eqb_eq. reflexivity. Qed.

Lemma bytes_eqb_neq a b : bytes_eqb a b = false <-> a <> b.
Proof. rewrite <- bytes_eqb_eq. destruct (bytes_eqb a b); intuition congruence. Qed.

Lemma bytes_eqb_spec a b : Bool.reflect (a = b) (bytes_eqb a b).
Proof. apply Bool.iff_reflect. symmetry. apply bytes_eqb_eq. Qed.

Definition byte_dec : forall a b : byte, {a = b} + {a <> b} := Byte.byte_eq_dec.
Definition bytes_dec : forall a b : bytes, {a = b} + {a <> b} := list_eq_dec byte_dec.

(** ** Big-endian integers *)

Lemma be_bytes_length k n : length (be_bytes k n) = k.
Proof.
  revert n. induction k as [|k IH]; intros n; cbn; [reflexivity|].
  rewrite app_length, IH. cbn. lia.
Qed.

Lemma be_val_snoc l b : be_val (l ++ [b]) = be_val l * 256 + b2n b.
Proof. unfold be_val. rewrite fold_left_app. reflexivity. Qed.

Lemma be_val_nil : be_val [] = 0.
Proof. reflexivity. Qed.

Lemma pow256_S k : 256 ^ N.of_nat (S k) = 256 * 256 ^ N.of_nat k.
Proof. rewrite Nat2N.inj_succ, N.pow_succ_r'. reflexivity. Qed.

Lemma pow256_pos k : 0 < 256 ^ k.
Proof. apply N.neq_0_lt_0, N.pow_nonzero. lia. Qed.

Lemma be_val_app a b : be_val (a ++ b) = be_val a * 256 ^ N.of_nat (length b) + be_val b.
Proof.
  induction b as [|x b IH] using rev_ind.
  - rewrite app_nil_r. cbn. lia.
  - rewrite app_assoc, !be_val_snoc, IH, app_length. cbn [length].
    rewrite Nat.add_1_r, pow256_S. lia.
Qed.

Lemma be_val_cons b l : be_val (b :: l) = b2n b * 256 ^ N.of_nat (length l) + be_val l.
Proof.
  change (b :: l) with ([b] ++ l). rewrite be_val_app. unfold be_val at 1. cbn [fold_left]. lia.
Qed.

Lemma be_val_bound l : be_val l < 256 ^ N.of_nat (length l).
Proof.
  induction l as [|x l IH] using rev_ind; [cbn; lia|].
  rewrite be_val_snoc, app_length. cbn [length]. rewrite Nat.add_1_r, pow256_S.
  pose proof (b2n_lt x). lia.
Qed.

Lemma be_val_be_bytes k n : be_val (be_bytes k n) = n mod 256 ^ N.of_nat k.
Proof.
  revert n. induction k as [|k IH]; intros n.
  - cbn. rewrite N.mod_1_r. reflexivity.
  - cbn [be_bytes]. rewrite be_val_snoc, IH, pow256_S, b2n_n2b.
    rewrite (N.mod_mul_r n 256 (256 ^ N.of_nat k)); [lia | lia |].
    pose proof (pow256_pos (N.of_nat k)). lia.
Qed.

Lemma be_val_be_bytes_small k n : n < 256 ^ N.of_nat k -> be_val (be_bytes k n) = n.
Proof. intros H. rewrite be_val_be_bytes. apply N.mod_small, H. Qed.

Lemma be_bytes_be_val l : be_bytes (length l) (be_val l) = l.
Proof.
  induction l as [|x l IH] using rev_ind; [reflexivity|].
  rewrite app_length, Nat.add_1_r, be_val_snoc. cbn [be_bytes].
  pose proof (b2n_lt x).
  replace ((be_val l * 256 + b2n x) / 256) with (be_val l) by lia.
  rewrite IH. f_equal. f_equal. apply b2n_inj. rewrite b2n_n2b. lia.
Qed.

Lemma be_val_inj a b : length a = length b -> be_val a = be_val b -> a = b.
Proof. intros L H. rewrite <- (be_bytes_be_val a), <- (be_bytes_be_val b), L, H. reflexivity. Qed.

Lemma be_bytes_inj k a b :
  a < 256 ^ N.of_nat k -> b < 256 ^ N.of_nat k -> be_bytes k a = be_bytes k b -> a = b.
Proof.
  intros Ha Hb H. rewrite <- (be_val_be_bytes_small k a), <- (be_val_be_bytes_small k b), H by assumption.
  reflexivity.
Qed.

Lemma be_val_zeros k l : be_val (repeat x00 k ++ l) = be_val l.
Proof.
  induction k as [|k IH]; [reflexivity|]. cbn [repeat app]. rewrite be_val_cons, IH. cbn. lia.
Qed.

(** ** Two's complement *)

Lemma i128_u128 z : (- 2 ^ 127 <= z < 2 ^ 127)%Z -> i128_of_u128 (u128_of_i128 z) = z.
Proof.
  intros H. unfold i128_of_u128, u128_of_i128.
  assert (0 <= z mod 2 ^ 128 < 2 ^ 128)%Z by (apply Z.mod_pos_bound; lia).
  rewrite Z2N.id by lia.
  destruct (Z.leb_spec 0 z).
  - rewrite Z.mod_small by lia.
    destruct (N.ltb_spec (Z.to_N z) (2 ^ 127)); lia.
  - replace (z mod 2 ^ 128)%Z with (z + 2 ^ 128)%Z.
    + destruct (N.ltb_spec (Z.to_N (z + 2 ^ 128)) (2 ^ 127)); lia.
    + symmetry. rewrite <- (Z.mod_add z 1) by lia. rewrite Z.mod_small; lia.
Qed.

Lemma u128_i128 n : n < 2 ^ 128 -> u128_of_i128 (i128_of_u128 n) = n.
Proof.
  intros H. unfold i128_of_u128, u128_of_i128.
  destruct (N.ltb_spec n (2 ^ 127)).
  - rewrite Z.mod_small by lia. lia.
  - rewrite <- (Z.mod_add _ 1) by lia. rewrite Z.mod_small; lia.
Qed.

Lemma u128_of_i128_bound z : u128_of_i128 z < 2 ^ 128.
Proof.
  unfold u128_of_i128. assert (0 <= z mod 2 ^ 128 < 2 ^ 128)%Z by (apply Z.mod_pos_bound; lia). lia.
Qed.

Lemma i128_of_u128_range n : n < 2 ^ 128 -> (- 2 ^ 127 <= i128_of_u128 n < 2 ^ 127)%Z.
Proof. intros H. unfold i128_of_u128. destruct (N.ltb_spec n (2 ^ 127)); lia. Qed.

(** ** Slices *)

Lemma lenN_nil {A} : lenN (@nil A) = 0.
Proof. reflexivity. Qed.
Lemma lenN_cons {A} (x : A) l : lenN (x :: l) = lenN l + 1.
Proof. unfold lenN. cbn [length]. lia. Qed.
Lemma lenN_app {A} (a b : list A) : lenN (a ++ b) = lenN a + lenN b.
Proof. unfold lenN. rewrite app_length. lia. Qed.

Lemma take_slice_app {E} a b : @take_slice E (lenN a) (a ++ b) = Ok a.
Proof.
  induction a as [|x a IH]; [destruct b; reflexivity|].
  rewrite lenN_cons. cbn [app take_slice].
  destruct (N.eqb_spec (lenN a + 1) 0); [lia|].
  replace (lenN a + 1 - 1) with (lenN a) by lia. rewrite IH. reflexivity.
Qed.

Lemma take_slice_spec {E} n bs :
  @take_slice E n bs = if n <=? lenN bs then Ok (firstn (N.to_nat n) bs) else Panic PIndex.
Proof.
  revert n. induction bs as [|x bs IH]; intros n; cbn [take_slice].
  - change (lenN (@nil byte)) with 0.
    destruct (N.eqb_spec n 0); destruct (N.leb_spec n 0); try lia; subst; reflexivity.
  - rewrite lenN_cons. destruct (N.eqb_spec n 0).
    + subst. destruct (N.leb_spec 0 (lenN bs + 1)); [reflexivity | lia].
    + rewrite IH. destruct (N.leb_spec (n - 1) (lenN bs)); destruct (N.leb_spec n (lenN bs + 1)); try lia.
      * cbn [bind]. replace (N.to_nat n) with (S (N.to_nat (n - 1))) by lia. reflexivity.
      * reflexivity.
Qed.

Lemma take_slice_ok {E} n bs a :
  @take_slice E n bs = Ok a <-> exists r, bs = a ++ r /\ lenN a = n.
Proof.
  split.
  - rewrite take_slice_spec. destruct (N.leb_spec n (lenN bs)); intros [= <-].
    exists (skipn (N.to_nat n) bs). rewrite firstn_skipn. split; [reflexivity|].
    unfold lenN in *. rewrite firstn_length. lia.
  - intros (r & -> & <-). apply take_slice_app.
Qed.

Lemma drop_slice_app {E} a b : @drop_slice E (length a) (a ++ b) = Ok b.
Proof.
  unfold drop_slice. rewrite app_length.
  destruct (Nat.leb_spec (length a) (length a + length b)); [|lia].
  rewrite skipn_app, skipn_all, Nat.sub_diag. reflexivity.
Qed.

Lemma drop_slice_ok {E} n bs r :
  @drop_slice E n bs = Ok r <-> exists a, bs = a ++ r /\ length a = n.
Proof.
  split.
  - unfold drop_slice. destruct (Nat.leb_spec n (length bs)); intros [= <-].
    exists (firstn n bs). rewrite firstn_skipn, firstn_length. split; [reflexivity | lia].
  - intros (a & -> & <-). apply drop_slice_app.
Qed.

Lemma sub_slice_ok {E} i n bs a :
  @sub_slice E i n bs = Ok a <-> exists p r, bs = p ++ a ++ r /\ length p = i /\ length a = n.
Proof.
  unfold sub_slice. split.
  - destruct (Nat.leb_spec (i + n) (length bs)); intros [= <-].
    exists (firstn i bs), (skipn n (skipn i bs)).
    repeat split.
    + rewrite (firstn_skipn n), (firstn_skipn i). reflexivity.
    + rewrite firstn_length. lia.
    + rewrite firstn_length, skipn_length. lia.
  - intros (p & r & -> & <- & <-). rewrite !app_length.
    destruct (Nat.leb_spec (length p + length a) (length p + (length a + length r))); [|lia].
    rewrite skipn_app, skipn_all, Nat.sub_diag. cbn [skipn app].
    rewrite firstn_app, firstn_all, Nat.sub_diag. cbn [firstn]. rewrite app_nil_r. reflexivity.
Qed.

Lemma index_ok {E} i bs b : @index E i bs = Ok b <-> nth_error bs i = Some b.
Proof. unfold index. destruct (nth_error bs i); split; intros [= ->]; reflexivity. Qed.

Lemma index_lt {E} i bs : (i < length bs)%nat -> exists b, @index E i bs = Ok b.
Proof.
  intros H. unfold index. destruct (nth_error bs i) eqn:N; eauto.
  apply nth_error_None in N. lia.
Qed.

Lemma is_ascii_app a b : is_ascii (a ++ b) = is_ascii a && is_ascii b.
Proof. apply forallb_app. Qed.

Lemma is_ascii_rev a : is_ascii (rev a) = is_ascii a.
Proof.
  induction a as [|x a IH]; [reflexivity|]. cbn [rev]. rewrite is_ascii_app, IH.
  unfold is_ascii. cbn [forallb]. rewrite andb_true_r. apply andb_comm.
Qed.

(** Splitting equal concatenations with a known prefix length. *)
Lemma app_inj_len {A} (a b c d : list A) : length a = length c -> a ++ b = c ++ d -> a = c /\ b = d.
Proof.
  revert c. induction a as [|x a IH]; intros [|y c] L H; cbn in *; try lia; auto.
  injection H as -> H. destruct (IH c ltac:(lia) H) as [-> ->]. auto.
Qed.

Lemma firstn_app_exact {A} (a b : list A) : firstn (length a) (a ++ b) = a.
Proof. rewrite firstn_app, firstn_all, Nat.sub_diag. cbn. apply app_nil_r. Qed.
Lemma skipn_app_exact {A} (a b : list A) : skipn (length a) (a ++ b) = b.
Proof. rewrite skipn_app, skipn_all, Nat.sub_diag. reflexivity. Qed.

(** Exhaustive checks over the 256 bytes. *)
Definition all_byte (f : byte -> bool) : bool :=
  forallb (fun n => f (n2b (N.of_nat n))) (seq 0 256).

Lemma all_byte_spec f : all_byte f = true -> forall b, f b = true.
Proof.
  unfold all_byte. rewrite forallb_forall. intros H b.
  specialize (H (N.to_nat (b2n b))). rewrite N2Nat.id, n2b_b2n in H. apply H.
  apply in_seq. pose proof (b2n_lt b). lia.
Qed.

Lemma existsb_byte_in c l : existsb (byte_eqb c) l = true <-> In c l.
Proof.
  rewrite existsb_exists. split.
  - intros (x & Hx & E). apply byte_eqb_eq in E. congruence.
  - intros H. exists c. split; [exact H | apply byte_eqb_refl].
Qed.
