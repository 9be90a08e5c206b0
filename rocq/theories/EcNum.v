(** Number theory: Fermat's little theorem and Pocklington's criterion. *)

From Coq Require Import ZArith List Lia Znumtheory Permutation.
Import ListNotations.
Local Open Scope Z_scope.

(** ** Congruence *)

Definition cong (n a b : Z) : Prop := (n | a - b).

Lemma cong_refl n a : cong n a a.
Proof. exists 0. lia. Qed.
Lemma cong_sym n a b : cong n a b -> cong n b a.
Proof. intros [k E]. exists (- k). lia. Qed.
Lemma cong_trans n a b c : cong n a b -> cong n b c -> cong n a c.
Proof. intros [k E] [j F]. exists (k + j). lia. Qed.
Lemma cong_add n a b c d : cong n a b -> cong n c d -> cong n (a + c) (b + d).
Proof. intros [k E] [j F]. exists (k + j). lia. Qed.
Lemma cong_sub n a b c d : cong n a b -> cong n c d -> cong n (a - c) (b - d).
Proof. intros [k E] [j F]. exists (k - j). lia. Qed.
Lemma cong_mul n a b c d : cong n a b -> cong n c d -> cong n (a * c) (b * d).
Proof.
  intros [k E] [j F]. exists (k * c + b * j).
  replace (a * c - b * d) with ((a - b) * c + b * (c - d)) by ring. rewrite E, F. ring.
Qed.
Lemma cong_pow n a b e : 0 <= e -> cong n a b -> cong n (a ^ e) (b ^ e).
Proof.
  intros He H. revert e He. apply natlike_ind.
  - rewrite !Z.pow_0_r. apply cong_refl.
  - intros e He IH. rewrite !Z.pow_succ_r by lia. now apply cong_mul.
Qed.
Lemma cong_mod n a : n <> 0 -> cong n (a mod n) a.
Proof. intros H. exists (- (a / n)). pose proof (Z.div_mod a n H). lia. Qed.
Lemma cong_iff n a b : 0 < n -> cong n a b <-> a mod n = b mod n.
Proof.
  intros H. split.
  - intros [k E]. replace a with (b + k * n) by lia. now rewrite Z.mod_add by lia.
  - intros E. exists (a / n - b / n).
    pose proof (Z.div_mod a n ltac:(lia)). pose proof (Z.div_mod b n ltac:(lia)). lia.
Qed.
Lemma cong_divides n m a b : (m | n) -> cong n a b -> cong m a b.
Proof. intros H E. eapply Z.divide_trans; eassumption. Qed.

(** A factor prime to the modulus cancels. *)
Lemma cong_cancel p a x y : rel_prime a p -> cong p (a * x) (a * y) -> cong p x y.
Proof.
  intros Hr H. unfold cong in *. replace (a * x - a * y) with (a * (x - y)) in H by ring.
  apply Gauss with a; [exact H|]. now apply rel_prime_sym.
Qed.

(** ** Fermat *)

Definition zprod (l : list Z) : Z := fold_right Z.mul 1 l.
Lemma zprod_cons x l : zprod (x :: l) = x * zprod l.
Proof. reflexivity. Qed.
Lemma prod_perm l l' : Permutation l l' -> zprod l = zprod l'.
Proof. induction 1; cbn; try lia; try congruence. unfold zprod in IHPermutation. now rewrite IHPermutation. Qed.

Definition residues (p : Z) : list Z := map Z.of_nat (seq 1 (Z.to_nat (p - 1))).
Lemma residues_in p x : 0 < p -> In x (residues p) <-> 1 <= x < p.
Proof.
  intros Hp. unfold residues. rewrite in_map_iff. split.
  - intros (i & E & H). apply in_seq in H. lia.
  - intros H. exists (Z.to_nat x). split; [lia|]. apply in_seq. lia.
Qed.
Lemma residues_nodup p : NoDup (residues p).
Proof. apply FinFun.Injective_map_NoDup; [|apply seq_NoDup]. intros a b. lia. Qed.

Lemma prime_not_divide p a : prime p -> ~ (p | a) -> rel_prime a p.
Proof. intros Hp H. apply rel_prime_sym. now apply prime_rel_prime. Qed.

Lemma prod_scaled p a l : 0 < p -> cong p (zprod (map (fun x => (a * x) mod p) l)) (a ^ Z.of_nat (length l) * zprod l).
Proof.
  intros Hp. induction l as [|x l IH].
  - cbn. apply cong_refl.
  - cbn [map length]. rewrite !zprod_cons. rewrite Nat2Z.inj_succ, Z.pow_succ_r by lia.
    replace (a * a ^ Z.of_nat (length l) * (x * zprod l)) with ((a * x) * (a ^ Z.of_nat (length l) * zprod l)) by ring.
    apply cong_mul; [apply cong_mod; lia|exact IH].
Qed.

Lemma prod_rel p l : prime p -> (forall x, In x l -> 1 <= x < p) -> rel_prime (zprod l) p.
Proof.
  intros Hp. induction l as [|x l IH]; intros H.
  - apply rel_prime_1.
  - cbn. apply rel_prime_sym, rel_prime_mult; apply rel_prime_sym.
    + apply prime_not_divide; [exact Hp|]. intros D. apply Z.divide_pos_le in D; [|specialize (H x (or_introl eq_refl)); lia].
      specialize (H x (or_introl eq_refl)). lia.
    + apply IH. intros y Hy. apply H. now right.
Qed.

Theorem fermat p a : prime p -> ~ (p | a) -> cong p (a ^ (p - 1)) 1.
Proof.
  intros Hp Ha. pose proof (prime_ge_2 p Hp) as H2.
  pose proof (prime_not_divide p a Hp Ha) as Hrel.
  set (l := residues p). set (m := map (fun x => (a * x) mod p) l).
  assert (Hin : forall x, In x l <-> 1 <= x < p) by (intros; apply residues_in; lia).
  assert (Hm : Permutation m l).
  { apply NoDup_Permutation_bis.
    - assert (G : forall k, NoDup k -> (forall x, In x k -> 1 <= x < p) -> NoDup (map (fun x => (a * x) mod p) k)).
      { induction k as [|x k IH]; intros Hk Hi; [constructor|]. cbn. inversion Hk; subst. constructor.
        - rewrite in_map_iff. intros (y & E & Hy).
          assert (C : cong p y x).
          { apply cong_cancel with a; [exact Hrel|]. apply cong_iff; [lia|exact E]. }
          apply cong_iff in C; [|lia].
          pose proof (Hi y (or_intror Hy)). pose proof (Hi x (or_introl eq_refl)).
          rewrite !Z.mod_small in C by lia.
          subst y. contradiction.
        - apply IH; [assumption|]. intros y Hy. apply Hi. now right. }
      apply G; [apply residues_nodup|]. intros x. apply Hin.
    - unfold m. now rewrite map_length.
    - intros y. unfold m. rewrite in_map_iff. intros (x & E & Hx). apply Hin in Hx. apply Hin.
      pose proof (Z.mod_pos_bound (a * x) p ltac:(lia)).
      assert (y <> 0); [|lia]. intros Z0. subst y.
      apply Z.mod_divide in Z0; [|lia]. apply prime_mult in Z0; [|exact Hp].
      destruct Z0 as [D|D]; [contradiction|]. apply Z.divide_pos_le in D; lia. }
  pose proof (prod_scaled p a l ltac:(lia)) as HS. fold m in HS. rewrite (prod_perm _ _ Hm) in HS.
  assert (Hlen : Z.of_nat (length l) = p - 1) by (unfold l, residues; rewrite map_length, seq_length; lia).
  rewrite Hlen in HS. apply cong_sym. apply cong_cancel with (zprod l).
  - apply prod_rel; [exact Hp|]. intros x. apply Hin.
  - rewrite Z.mul_1_r. now rewrite (Z.mul_comm (zprod l)).
Qed.

(** ** Prime divisors *)

Lemma prime_divisor n : 1 < n -> exists p, prime p /\ (p | n).
Proof.
  intros H. assert (G : forall k, 0 <= k -> forall n, 1 < n < k -> exists p, prime p /\ (p | n)).
  { apply (natlike_ind (fun k => forall n, 1 < n < k -> exists p, prime p /\ (p | n))); [lia|].
    intros k Hk IH m Hm. destruct (prime_dec m) as [P|P]; [exists m; split; [exact P|apply Z.divide_refl]|].
    destruct (not_prime_divide m ltac:(lia) P) as (d & Hd & D).
    destruct (IH d ltac:(lia)) as (p & Hp & Dp). exists p. split; [exact Hp|]. now apply Z.divide_trans with d. }
  exact (G (n + 1) ltac:(lia) n ltac:(lia)).
Qed.

Lemma small_prime_divisor n : 1 < n -> ~ prime n -> exists p, prime p /\ (p | n) /\ p * p <= n.
Proof.
  intros H P. destruct (not_prime_divide n H P) as (d & Hd & [e E]).
  assert (1 < e) by nia.
  assert (Hm : exists m, 1 < m /\ (m | n) /\ m * m <= n).
  { destruct (Z_le_gt_dec d e); [exists d|exists e]; repeat split; try nia.
    - exists e. lia.
    - exists d. lia. }
  destruct Hm as (m & M1 & Dm & M2). destruct (prime_divisor m M1) as (p & Hp & Dp).
  exists p. split; [exact Hp|]. split; [now apply Z.divide_trans with m|].
  apply Z.divide_pos_le in Dp; [|lia]. pose proof (prime_ge_2 p Hp). nia.
Qed.

(** ** Pocklington *)

(** [q] divides [n - 1] and [a] witnesses that [q] divides [p - 1] for every prime divisor [p] of [n]. *)
Definition witness (n q : Z) : Prop :=
  exists a m b, n - 1 = q * m /\ 0 <= m /\ cong n (a ^ (n - 1)) 1 /\ cong n (a ^ m) b /\ rel_prime (b - 1) n.

Lemma pow_1_cong p e : 0 <= e -> forall x, cong p x 1 -> cong p (x ^ e) 1.
Proof. intros He x H. rewrite <- (Z.pow_1_l e) by exact He. now apply cong_pow. Qed.

Lemma exponents u v m q : 1 <= m -> 1 <= q -> u * m + v * q = 1 -> exists s t, 0 <= s /\ 0 <= t /\ s * q = 1 + t * m.
Proof.
  intros Hm Hq E. assert (A : 0 <= Z.abs u + Z.abs v) by lia.
  assert (Hv : - (Z.abs u + Z.abs v) <= v) by lia. assert (Hu : u <= Z.abs u + Z.abs v) by lia.
  revert A Hv Hu. generalize (Z.abs u + Z.abs v). intros k A Hv Hu.
  pose proof (Z.mul_le_mono_nonneg_l 1 m k A Hm). pose proof (Z.mul_le_mono_nonneg_l 1 q k A Hq).
  exists (v + k * m), (k * q - u). split; [lia|]. split; [lia|].
  replace ((v + k * m) * q) with (u * m + v * q + k * q * m - u * m) by ring. rewrite E. ring.
Qed.

Lemma witness_divides n q p : prime q -> witness n q -> 1 < n -> prime p -> (p | n) -> (q | p - 1).
Proof.
  intros Hq (a & m & b & Em & Hm & H1 & Hb & Hr) Hn Hp Hpn.
  pose proof (prime_ge_2 p Hp) as P2. pose proof (prime_ge_2 q Hq) as Q2.
  destruct (Zdivide_dec q (p - 1)) as [D|D]; [exact D|exfalso].
  pose proof (prime_not_divide q (p - 1) Hq D) as Hrel.
  apply rel_prime_bezout in Hrel. destruct Hrel as [u v Euv].
  (* u (p-1) + v q = 1 *)
  assert (H1p : cong p (a ^ (n - 1)) 1) by (eapply cong_divides; eassumption).
  assert (Ha : ~ (p | a)).
  { intros Da. assert (D1 : (p | a ^ (n - 1))).
    { replace (n - 1) with (Z.succ (n - 2)) by lia. rewrite Z.pow_succ_r by lia. now apply Z.divide_mul_l. }
    unfold cong in H1p. assert (D2 : (p | 1)).
    { replace 1 with (a ^ (n - 1) - (a ^ (n - 1) - 1)) by ring. now apply Z.divide_sub_r. }
    apply Z.divide_pos_le in D2; lia. }
  pose proof (fermat p a Hp Ha) as HF.
  (* c = a^m has c^q = 1 and c^(p-1) = 1 *)
  set (c := a ^ m).
  assert (Cq : cong p (c ^ q) 1) by (unfold c; rewrite <- Z.pow_mul_r by lia; replace (m * q) with (n - 1) by lia; exact H1p).
  assert (Cp : cong p (c ^ (p - 1)) 1).
  { unfold c. rewrite <- Z.pow_mul_r by lia. rewrite Z.mul_comm. rewrite Z.pow_mul_r by lia. now apply pow_1_cong. }
  (* choose non-negative exponents *)
  assert (EX : exists s t, 0 <= s /\ 0 <= t /\ s * q = 1 + t * (p - 1)).
  { apply (exponents u v); [clear - P2; lia|clear - Q2; lia|exact Euv]. }
  destruct EX as (s & t & Hs & Ht & Est).
  assert (C1 : cong p c 1).
  { assert (X1 : cong p (c ^ (q * s)) 1) by (rewrite Z.pow_mul_r by lia; now apply pow_1_cong).
    assert (X2 : cong p (c ^ ((p - 1) * t)) 1) by (rewrite Z.pow_mul_r by lia; now apply pow_1_cong).
    assert (Eqs : q * s = 1 + (p - 1) * t) by (rewrite (Z.mul_comm q), (Z.mul_comm (p - 1)); exact Est).
    assert (Hpt : 0 <= (p - 1) * t) by (apply Z.mul_nonneg_nonneg; [clear - P2; lia|exact Ht]).
    rewrite Eqs in X1. rewrite Z.pow_add_r in X1 by (exact Hpt || (clear; lia)). rewrite Z.pow_1_r in X1.
    apply cong_trans with (c * c ^ ((p - 1) * t)); [|exact X1].
    apply cong_sym. apply cong_trans with (c * 1); [|rewrite Z.mul_1_r; apply cong_refl].
    apply cong_mul; [apply cong_refl|exact X2]. }
  assert (Db : (p | b - 1)).
  { apply cong_trans with c; [|exact C1]. apply cong_sym. exact (cong_divides n p _ _ Hpn Hb). }
  destruct Hr as [_ _ Hg]. specialize (Hg p Db Hpn). apply Z.divide_pos_le in Hg; lia.
Qed.


Lemma product_divides m qs : NoDup qs -> Forall prime qs -> Forall (fun q => (q | m)) qs -> (zprod qs | m).
Proof.
  induction qs as [|q qs IH]; intros Hn Hp Hd.
  - exists m. cbn. lia.
  - inversion Hn; inversion Hp; inversion Hd; subst. rewrite zprod_cons.
    destruct (IH ltac:(assumption) ltac:(assumption) ltac:(assumption)) as [k E].
    assert (Dq : (q | k * zprod qs)) by (rewrite <- E; assumption).
    assert (Hrel : rel_prime q (zprod qs)).
    { apply prime_rel_prime; [assumption|]. intros D. clear - D H1 H5 H6.
      induction qs as [|r qs IH]; cbn in D.
      - apply Z.divide_pos_le in D; [|lia]. pose proof (prime_ge_2 q H5). lia.
      - inversion H6; subst. apply prime_mult in D; [|assumption]. destruct D as [D|D].
        + apply prime_div_prime in D; [|assumption..]. subst. apply H1. now left.
        + apply IH; [|assumption|exact D]. intros I. apply H1. now right. }
    rewrite Z.mul_comm in Dq. apply Gauss in Dq; [|exact Hrel]. destruct Dq as [j Ej]. exists j. rewrite E, Ej. ring.
Qed.

Theorem pocklington n qs :
  1 < n -> NoDup qs -> Forall prime qs -> Forall (witness n) qs -> n < zprod qs * zprod qs -> prime n.
Proof.
  intros Hn Hnd Hp Hw Hb. destruct (prime_dec n) as [P|P]; [exact P|exfalso].
  destruct (small_prime_divisor n Hn P) as (p & Pp & Dp & Hle).
  assert (D : (zprod qs | p - 1)).
  { apply product_divides; [exact Hnd|exact Hp|]. apply Forall_forall. intros q Hq.
    apply witness_divides with n; try assumption.
    - now apply (proj1 (Forall_forall _ _) Hp).
    - now apply (proj1 (Forall_forall _ _) Hw). }
  pose proof (prime_ge_2 p Pp). apply Z.divide_pos_le in D; [|lia].
  assert (0 < zprod qs).
  { clear - Hp. induction qs as [|q qs IH]; cbn; [lia|]. inversion Hp; subst. pose proof (prime_ge_2 q H1).
    specialize (IH H2). unfold zprod in IH. nia. }
  nia.
Qed.
