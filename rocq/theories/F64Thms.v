(** Proofs about floating-point numbers: rounding is to nearest, and reading a number text is as [serde_json] computes it. *)

From Coq Require Import Strings.String Lia.
From Verif Require Import Base BaseFacts SpecShow F64 Rpc SpecJson SpecF64.
Local Open Scope N_scope.

(** ** Rounding *)

(** [n / d] lies in the gap from [q] to [q + 1] times [2^s]. *)
Definition gap (n d s q r : N) : Prop := 0 < d /\ n = d * 2 ^ s * q + r /\ r < d * 2 ^ s /\ q < 2 ^ 53 /\ (s = 0 \/ 2 ^ 52 <= q).
Lemma pow_pos2 s : 0 < 2 ^ s.
Proof. apply N.neq_0_lt_0, N.pow_nonzero. discriminate. Qed.
Lemma gap_of n d : 0 < d -> let s := N.log2 (n / d) - 52 in gap n d s (n / (d * 2 ^ s)) (n mod (d * 2 ^ s)).
Proof.
  intros D s. assert (P : 2 ^ s <> 0) by (apply N.pow_nonzero; discriminate). assert (D0 : d <> 0) by (clear - D; lia).
  assert (M : d * 2 ^ s <> 0) by (apply N.neq_mul_0; split; assumption). split; [exact D|]. split; [apply N.div_mod, M|].
  split; [apply N.mod_lt, M|]. rewrite <- N.div_div by assumption. split.
  - apply N.div_lt_upper_bound; [exact P|]. rewrite <- N.pow_add_r. destruct (N.eq_dec (n / d) 0) as [->|Z]; [apply pow_pos2|].
    destruct (N.log2_spec (n / d)) as [_ H]; [now apply N.neq_0_lt_0|]. eapply N.lt_le_trans; [exact H|]. apply N.pow_le_mono_r; [discriminate|].
    subst s. clear. generalize (N.log2 (n / d)). intros. lia.
  - destruct (N.eq_dec s 0) as [->|Z]; [now left|]. right. apply N.div_le_lower_bound; [exact P|]. rewrite <- N.pow_add_r.
    assert (L : s + 52 = N.log2 (n / d)) by (subst s; revert Z; clear; generalize (N.log2 (n / d)); intros; lia). rewrite L.
    apply N.log2_spec. destruct (N.eq_dec (n / d) 0) as [H|H]; [|now apply N.neq_0_lt_0]. rewrite H in L. cbn in L. clear - L. lia.
Qed.
(** No double lies inside. *)
Lemma gap_empty n d s q r w : gap n d s q r -> double w -> w <= q * 2 ^ s \/ (q + 1) * 2 ^ s <= w.
Proof.
  intros (_ & _ & _ & _ & Q) (a & b & A & ->). destruct (N.le_gt_cases s b) as [L|L].
  - assert (E : 2 ^ b = 2 ^ (b - s) * 2 ^ s) by (rewrite <- N.pow_add_r; f_equal; clear - L; lia). rewrite E, N.mul_assoc.
    destruct (N.le_gt_cases (a * 2 ^ (b - s)) q) as [H|H]; [left|right]; apply N.mul_le_mono_r; [exact H|clear - H; lia].
  - left. destruct Q as [->|Q]; [clear - L; lia|]. assert (E : 2 ^ s = 2 ^ (s - b) * 2 ^ b) by (rewrite <- N.pow_add_r; f_equal; clear - L; lia).
    rewrite E, N.mul_assoc. apply N.mul_le_mono_r. assert (2 <= 2 ^ (s - b)).
    { change 2 with (2 ^ 1) at 1. apply N.pow_le_mono_r; [discriminate|]. clear - L. lia. }
    change (2 ^ 53) with (2 * 2 ^ 52) in A. clear - A Q H. nia.
Qed.
Lemma gap_double n d s q r : gap n d s q r -> double (q * 2 ^ s) /\ double ((q + 1) * 2 ^ s).
Proof.
  intros (_ & _ & _ & Q & _). split; [now exists q, s|]. destruct (N.eq_dec (q + 1) (2 ^ 53)) as [->|H].
  - exists (2 ^ 52), (s + 1). split; [reflexivity|]. rewrite N.pow_add_r. change (2 ^ 53) with (2 ^ 52 * 2). change (2 ^ 1) with 2. clear. lia.
  - exists (q + 1), s. split; [|reflexivity]. clear - Q H. lia.
Qed.

Definition rounded (s q : N) (up : bool) : N := (if up then q + 1 else q) * 2 ^ s.
Definition goes_up (d s q r : N) : bool := (d * 2 ^ s <? 2 * r) || ((2 * r =? d * 2 ^ s) && N.odd q).
Lemma round_units_gap n d : 0 < d -> exists s q r, gap n d s q r /\ round_units n d = rounded s q (goes_up d s q r).
Proof. intros D. do 3 eexists. split; [apply gap_of, D|reflexivity]. Qed.

Definition off_units (n d v : N) : Z := Z.abs (Z.of_N n - Z.of_N (v * d)).
Definition closest_units (n d v : N) : Prop :=
  double v /\ forall w, double w -> (off_units n d v <= off_units n d w)%Z /\ (off_units n d v = off_units n d w -> w = v \/ even_double v).
Lemma closest_is n d v : closest n d v <-> closest_units (n * one) d v.
Proof. reflexivity. Qed.

Lemma rounded_closest n d s q r : gap n d s q r -> closest_units n d (rounded s q (goes_up d s q r)).
Proof.
  intros G. pose proof (gap_double _ _ _ _ _ G) as [D0 D1]. pose proof (gap_empty n d s q r) as E.
  pose proof G as (D & N & R & Q & S).
  assert (P := pow_pos2 s). set (p := 2 ^ s) in *.
  assert (O0 : off_units n d (q * p) = Z.of_N r) by (unfold off_units; subst n; clear - R; nia).
  assert (O1 : off_units n d ((q + 1) * p) = Z.of_N (d * p - r)) by (unfold off_units; subst n; clear - R; nia).
  assert (B0 : forall w, w <= q * p -> (Z.of_N r <= off_units n d w)%Z /\ (Z.of_N r = off_units n d w -> w = q * p)).
  { intros w W. assert (X : off_units n d w = Z.of_N (r + d * (q * p - w))) by (unfold off_units; subst n; clear - R W; nia).
    rewrite X. clear - D W. split; [apply N2Z.inj_le, N.le_add_r|]. intros H. apply N2Z.inj in H.
    assert (Y : d * (q * p - w) = 0) by (revert H; generalize (d * (q * p - w)); clear; intros; lia). apply N.mul_eq_0 in Y. lia. }
  assert (B1 : forall w, (q + 1) * p <= w -> (Z.of_N (d * p - r) <= off_units n d w)%Z /\ (Z.of_N (d * p - r) = off_units n d w -> w = (q + 1) * p)).
  { intros w W. assert (X : off_units n d w = Z.of_N (d * p - r + d * (w - (q + 1) * p))) by (unfold off_units; subst n; clear - R W D; nia).
    rewrite X. clear - D W. split; [apply N2Z.inj_le, N.le_add_r|]. intros H. apply N2Z.inj in H.
    assert (Y : d * (w - (q + 1) * p) = 0) by (revert H; generalize (d * (w - (q + 1) * p)); clear; intros; lia). apply N.mul_eq_0 in Y. lia. }
  assert (Ev0 : N.odd q = false -> even_double (q * p)).
  { intros O. exists q, s. split; [apply N.even_spec; rewrite <- N.negb_odd, O; reflexivity|]. split; [clear - Q; lia|]. split; [exact S|reflexivity]. }
  assert (Ev1 : N.odd q = true -> even_double ((q + 1) * p)).
  { intros O. exists (q + 1), s. split; [apply N.even_spec; rewrite N.add_1_r, N.even_succ; exact O|]. split; [clear - Q; lia|].
    split; [clear - S; lia|reflexivity]. }
  unfold rounded, goes_up. fold p. destruct (N.lt_trichotomy (2 * r) (d * p)) as [T|[T|T]].
  - replace (d * p <? 2 * r) with false by (symmetry; apply N.ltb_ge; clear - T; lia).
    replace (2 * r =? d * p) with false by (symmetry; apply N.eqb_neq; clear - T; lia). cbn [orb andb]. split; [exact D0|]. intros w W.
    rewrite O0. destruct (E w G W) as [H|H].
    + destruct (B0 w H) as [L F]. split; [exact L|]. intros X. left. now apply F.
    + destruct (B1 w H) as [L F]. clear - L T R. split; [lia|]. intros X. lia.
  - replace (d * p <? 2 * r) with false by (symmetry; apply N.ltb_ge; clear - T; lia).
    replace (2 * r =? d * p) with true by (symmetry; apply N.eqb_eq; exact T). cbn [orb andb]. destruct (N.odd q) eqn:O.
    + split; [exact D1|]. intros w W. rewrite O1. split; [|intros _; right; now apply Ev1]. destruct (E w G W) as [H|H].
      * destruct (B0 w H) as [L _]. clear - L T R. lia.
      * now apply B1.
    + split; [exact D0|]. intros w W. rewrite O0. split; [|intros _; right; now apply Ev0]. destruct (E w G W) as [H|H].
      * now apply B0.
      * destruct (B1 w H) as [L _]. clear - L T R. lia.
  - replace (d * p <? 2 * r) with true by (symmetry; apply N.ltb_lt; clear - T; lia). cbn [orb]. split; [exact D1|]. intros w W.
    rewrite O1. destruct (E w G W) as [H|H].
    + destruct (B0 w H) as [L F]. clear - L T R. split; [lia|]. intros X. lia.
    + destruct (B1 w H) as [L F]. split; [exact L|]. intros X. left. now apply F.
Qed.

Lemma odd_not_even s q : N.odd q = true -> (s = 0 \/ 2 ^ 52 <= q) -> ~ even_double (q * 2 ^ s).
Proof.
  intros O S (a & b & Ea & A & B & E). apply N.even_spec in Ea. destruct (N.lt_trichotomy b s) as [L|[L|L]].
  - assert (X : 2 ^ s = 2 ^ (s - b) * 2 ^ b) by (rewrite <- N.pow_add_r; f_equal; clear - L; lia). rewrite X, N.mul_assoc in E.
    apply N.mul_cancel_r in E; [|pose proof (pow_pos2 b); clear - H; lia]. assert (Y : 2 <= 2 ^ (s - b)).
    { change 2 with (2 ^ 1) at 1. apply N.pow_le_mono_r; [discriminate|]. clear - L. lia. }
    destruct S as [->|S]; [clear - L; lia|]. assert (q <> 2 ^ 52) by (intros ->; discriminate O).
    change (2 ^ 53) with (2 * 2 ^ 52) in A. clear - E Y S A H. nia.
  - subst b. apply N.mul_cancel_r in E; [|pose proof (pow_pos2 s); clear - H; lia]. subst a. rewrite <- N.negb_even, Ea in O. discriminate O.
  - assert (X : 2 ^ b = 2 ^ (b - s) * 2 ^ s) by (rewrite <- N.pow_add_r; f_equal; clear - L; lia). rewrite X, N.mul_assoc in E.
    apply N.mul_cancel_r in E; [|pose proof (pow_pos2 s); clear - H; lia]. subst q. rewrite N.odd_mul in O. apply andb_prop in O. destruct O as [_ O].
    replace (b - s) with (N.succ (b - s - 1)) in O by (clear - L; lia). rewrite N.pow_succ_r', N.odd_mul in O. discriminate O.
Qed.

(** There is just one closest double, and [round_units] finds it. *)
Lemma closest_round n d v : 0 < d -> closest_units n d v <-> v = round_units n d.
Proof.
  intros D. destruct (round_units_gap n d D) as (s & q & r & G & ->). pose proof (rounded_closest n d s q r G) as C.
  split; [|now intros ->]. intros V. set (u := rounded s q (goes_up d s q r)) in *. destruct (N.eq_dec v u) as [H|H]; [exact H|exfalso].
  destruct V as [Dv Cv], C as [Du Cu]. destruct (Cv u Du) as [L1 _]. destruct (Cu v Dv) as [L2 T2].
  assert (Eq : off_units n d u = off_units n d v) by (clear - L1 L2; lia). destruct (Cv u Du) as [_ T1].
  destruct (T1 (eq_sym Eq)) as [X|Ev]; [now apply H|]. clear T1 T2 L1 L2 Cv Cu.
  pose proof (gap_empty n d s q r v G Dv) as Gv. destruct G as (_ & N & R & Q & S). assert (P := pow_pos2 s).
  assert (Gu : u = q * 2 ^ s /\ v = (q + 1) * 2 ^ s /\ N.odd q = false \/ u = (q + 1) * 2 ^ s /\ v = q * 2 ^ s /\ N.odd q = true).
  { subst u. unfold rounded, goes_up in *. set (p := 2 ^ s) in *. unfold off_units in Eq. subst n.
    destruct (N.lt_trichotomy (2 * r) (d * p)) as [T|[T|T]].
    - replace (d * p <? 2 * r) with false in * by (symmetry; apply N.ltb_ge; clear - T; lia).
      replace (2 * r =? d * p) with false in * by (symmetry; apply N.eqb_neq; clear - T; lia). cbn [orb andb] in *. exfalso. apply H.
      clear - Eq T R Gv D P. destruct Gv; nia.
    - replace (d * p <? 2 * r) with false in * by (symmetry; apply N.ltb_ge; clear - T; lia).
      replace (2 * r =? d * p) with true in * by (symmetry; apply N.eqb_eq; exact T). cbn [orb andb] in *. destruct (N.odd q).
      + right. split; [reflexivity|]. split; [|reflexivity]. clear - Eq T R Gv D P H. destruct Gv; nia.
      + left. split; [reflexivity|]. split; [|reflexivity]. clear - Eq T R Gv D P H. destruct Gv; nia.
    - replace (d * p <? 2 * r) with true in * by (symmetry; apply N.ltb_lt; clear - T; lia). cbn [orb] in *. exfalso. apply H.
      clear - Eq T R Gv D P. destruct Gv; nia. }
  destruct Gu as [(_ & -> & O)|(_ & -> & O)].
  - apply (odd_not_even s (q + 1)); [rewrite N.add_1_r, N.odd_succ, <- N.negb_odd, O; reflexivity|clear - S; lia|exact Ev].
  - exact (odd_not_even s q O S Ev).
Qed.
Lemma closest_iff n d v : 0 < d -> closest n d v <-> v = round n d.
Proof. intros D. rewrite closest_is, closest_round by exact D. reflexivity. Qed.

(** ** Where a part ends *)
Definition halts (P : byte -> Prop) (r : bytes) : Prop := match r with [] => True | c :: _ => ~ P c end.

Lemma span P a b r q : Forall P a -> Forall P b -> halts P r -> halts P q -> a ++ r = b ++ q -> a = b /\ r = q.
Proof.
  revert b. induction a as [|x a IH]; intros [|y b] A B R Q E; cbn [app] in E.
  - auto.
  - subst r. inversion B; subst. now cbn in R.
  - subst q. inversion A; subst. now cbn in Q.
  - injection E as <- E. inversion A; inversion B; subst. destruct (IH b) as [-> ->]; auto.
Qed.

(** ** Number texts *)
Lemma beq c d : byte_eqb c d = true <-> c = d.
Proof. unfold byte_eqb. split; [apply Byte.byte_dec_bl|apply Byte.byte_dec_lb]. Qed.
Lemma beq_refl c : byte_eqb c c = true.
Proof. now apply beq. Qed.
Lemma beq_false c d : byte_eqb c d = false <-> c <> d.
Proof. rewrite <- beq. destruct (byte_eqb c d); intuition congruence. Qed.

Definition numeric (c : byte) : Prop := digit c \/ In c [x2d; x2b; x2e; x65; x45].
Lemma is_dec_digit c : is_dec c = true <-> digit c.
Proof. unfold is_dec, digit, b2n. lia. Qed.
Lemma digits_spec b : Forall digit (fst (digits b)) /\ halts digit (snd (digits b)) /\ b = fst (digits b) ++ snd (digits b).
Proof.
  induction b as [|c r (F & H & E)]; cbn [digits]; [repeat split; constructor|]. destruct (is_dec c) eqn:D; cbn [fst snd].
  - split; [constructor; [now apply is_dec_digit|exact F]|]. split; [exact H|]. cbn [app]. now rewrite <- E.
  - split; [constructor|]. split; [|reflexivity]. cbn. rewrite <- is_dec_digit. congruence.
Qed.
Lemma digits_of d r : Forall digit d -> halts digit r -> digits (d ++ r) = (d, r).
Proof.
  intros F H. destruct (digits_spec (d ++ r)) as (F' & H' & E). symmetry in E. destruct (span digit _ _ _ _ F' F H' H E) as [E1 E2].
  rewrite (surjective_pairing (digits (d ++ r))). now rewrite E1, E2.
Qed.
Lemma halts_digit r : halts numeric r -> halts digit r.
Proof. destruct r as [|c r]; [auto|]. cbn. intros H D. apply H. now left. Qed.
Lemma dec_value_spec i : dec_value i = decimal_value i.
Proof. reflexivity. Qed.

Lemma fraction_sound b f r : fraction b = Some (f, r) -> frac_text f /\ b = f ++ r /\ (f <> [] -> halts digit r) /\ (f = [] -> halts (eq x2e) r).
Proof.
  unfold fraction. destruct b as [|c q]; [intros H; injection H as <- <-; split; [now left|]; split; [reflexivity|]; split; intros _; exact I|].
  destruct (byte_eqb c x2e) eqn:C.
  - apply beq in C. subst c. pose proof (digits_spec q) as (F & Hs & E). destruct (digits q) as [d p]. cbn [fst snd] in *.
    destruct d as [|x d]; [discriminate|]. intros H. injection H as <- <-. split; [right; exists (x :: d); split; [split; [discriminate|exact F]|reflexivity]|].
    split; [now rewrite E|]. split; [auto|discriminate].
  - intros H. injection H as <- <-. split; [now left|]. split; [reflexivity|]. split; [intros Q; now destruct Q|]. intros _. cbn. intros <-. now rewrite beq_refl in C.
Qed.
Lemma exponent_sound b e r : exponent b = Some (e, r) -> exp_text e /\ b = e ++ r.
Proof.
  unfold exponent. destruct b as [|c q]; [intros H; injection H as <- <-; split; [now left|reflexivity]|].
  destruct (byte_eqb c x65 || byte_eqb c x45) eqn:C.
  - apply Bool.orb_true_iff in C. rewrite !beq in C.
    set (sq := match q with x :: q0 => if byte_eqb x x2b || byte_eqb x x2d then ([x], q0) else ([], q) | [] => ([], []) end).
    assert (S : exists s p, sq = (s, p) /\ (s = [] \/ s = [x2b] \/ s = [x2d]) /\ q = s ++ p).
    { subst sq. destruct q as [|x p]; [exists [], []; auto|]. destruct (byte_eqb x x2b || byte_eqb x x2d) eqn:X; [|exists [], (x :: p); auto].
      apply Bool.orb_true_iff in X. rewrite !beq in X. exists [x], p. destruct X as [-> | ->]; auto. }
    destruct S as (s & p & -> & S & ->). pose proof (digits_spec p) as (F & Hs & E). destruct (digits p) as [d o]. cbn [fst snd] in *.
    destruct d as [|x d]; [discriminate|]. intros H. injection H as <- <-. split; [|now rewrite E; cbn [app]; rewrite <- !app_assoc].
    right. exists c, s, (x :: d). split; [exact C|]. split; [exact S|]. split; [split; [discriminate|exact F]|reflexivity].
  - intros H. injection H as <- <-. split; [now left|reflexivity].
Qed.
Lemma fraction_complete f e r : frac_text f -> exp_text e -> halts numeric r -> fraction (f ++ e ++ r) = Some (f, e ++ r).
Proof.
  intros F X H. assert (N : halts (fun c => digit c \/ c = x2e) (e ++ r)).
  { destruct X as [->|(c & s & d & C & _ & _ & ->)].
    - destruct r as [|c r]; [exact I|]. cbn in *. intros [D|D]; apply H; [now left|]. right. cbn. auto.
    - cbn. intros [D| ->]; [|destruct C; discriminate]. unfold digit in D. destruct C as [-> | ->]; cbn in D; lia. }
  destruct F as [->|(d & [Ne D] & ->)]; cbn [app].
  - unfold fraction. destruct (e ++ r) as [|c q]; [reflexivity|]. cbn in N. destruct (byte_eqb c x2e) eqn:C; [|reflexivity]. apply beq in C. tauto.
  - unfold fraction. rewrite beq_refl, digits_of; [|exact D|]. 2:{ destruct (e ++ r); [exact I|]. cbn in *. tauto. }
    now destruct d; [destruct Ne|].
Qed.
Lemma exponent_complete e r : exp_text e -> halts numeric r -> exponent (e ++ r) = Some (e, r).
Proof.
  intros X H. destruct X as [->|(c & s & d & C & S & [Ne D] & ->)]; cbn [app].
  - unfold exponent. destruct r as [|c q]; [reflexivity|]. cbn in H.
    destruct (byte_eqb c x65 || byte_eqb c x45) eqn:C; [|reflexivity]. apply Bool.orb_true_iff in C. rewrite !beq in C. exfalso. apply H. right. cbn.
    destruct C as [-> | ->]; auto 10.
  - unfold exponent. replace (byte_eqb c x65 || byte_eqb c x45) with true by (symmetry; apply Bool.orb_true_iff; rewrite !beq; exact C).
    rewrite <- app_assoc.
    assert (E : match s ++ d ++ r with x :: q0 => if byte_eqb x x2b || byte_eqb x x2d then ([x], q0) else ([], s ++ d ++ r) | [] => ([], []) end = (s, d ++ r)).
    { destruct S as [->|[->| ->]]; cbn [app]; [|reflexivity..]. destruct d as [|x d]; [now destruct Ne|]. cbn [app].
      inversion D as [|? ? Dx _]; subst. replace (byte_eqb x x2b || byte_eqb x x2d) with false; [reflexivity|]. symmetry. apply Bool.orb_false_iff.
      rewrite !beq_false. unfold digit in Dx. split; intros ->; cbn in Dx; lia. }
    rewrite E, digits_of; [|exact D|now apply halts_digit]. now destruct d; [destruct Ne|].
Qed.

Lemma is_nil_spec b : is_nil b = true <-> b = [].
Proof. destruct b; cbn; intuition congruence. Qed.

Lemma int_head i : int_text i -> exists c q, i = c :: q /\ digit c.
Proof.
  intros [->|[[N D] H]]; [exists x30, []; split; [reflexivity|unfold digit; cbn; lia]|]. destruct i as [|c q]; [now destruct N|].
  inversion D; subst. eauto.
Qed.


(** ** Digits taken *)
Lemma dv_snoc a c : decimal_value (a ++ [c]) = 10 * decimal_value a + (Byte.to_N c - 48).
Proof. unfold decimal_value. rewrite fold_left_app. reflexivity. Qed.
Lemma dv_app_le a k : decimal_value a <= decimal_value (a ++ k).
Proof.
  revert a. induction k as [|c k IH]; intros a; [now rewrite app_nil_r; apply N.le_refl|].
  replace (a ++ c :: k) with ((a ++ [c]) ++ k) by (now rewrite <- app_assoc). eapply N.le_trans; [|apply IH]. rewrite dv_snoc. clear. lia.
Qed.
Lemma take_kept ds : forall a k r, kept a ds k r -> take_digits (decimal_value a) ds = (decimal_value (a ++ k), r).
Proof.
  induction ds as [|c q IH]; intros a k r (E & M & F).
  - symmetry in E. apply app_eq_nil in E. destruct E as [-> ->]. now rewrite app_nil_r.
  - cbn [take_digits]. unfold b2n. rewrite <- dv_snoc. destruct k as [|c' k]; cbn [app] in E.
    + subst r. destruct M as [M|(c' & q' & M & L)]; [discriminate|]. injection M as <- <-. cbn [app] in L.
      rewrite (proj2 (N.ltb_ge _ _) L). now rewrite app_nil_r.
    + injection E as <- ->. destruct F as [F|F]; [discriminate|]. replace (a ++ c :: k) with ((a ++ [c]) ++ k) in * by (now rewrite <- app_assoc).
      rewrite (proj2 (N.ltb_lt _ _) (N.le_lt_trans _ _ _ (dv_app_le (a ++ [c]) k) F)). apply IH. split; [reflexivity|]. split; [|now right].
      destruct M as [M|(c' & q' & -> & L)]; [now left|right]. exists c', q'. split; [reflexivity|]. revert L. rewrite <- !app_assoc. auto.
Qed.
Lemma kept_take ds : forall a, exists k r, kept a ds k r.
Proof.
  induction ds as [|c q IH]; intros a; [exists [], []; split; [reflexivity|]; split; now left|].
  destruct (N.lt_ge_cases (decimal_value (a ++ [c])) (2 ^ 64)) as [L|L].
  - destruct (IH (a ++ [c])) as (k & r & E & M & F). exists (c :: k), r. split; [now rewrite E|]. split.
    + destruct M as [M|(c' & q' & M & G)]; [now left|right]. exists c', q'. split; [exact M|]. revert G. now rewrite <- app_assoc.
    + right. destruct F as [->|F]; [exact L|]. revert F. now rewrite <- app_assoc.
  - exists [], (c :: q). split; [reflexivity|]. split; [|now left]. right. exists c, q. auto.
Qed.
Lemma kept_small a ds k r : decimal_value a < 2 ^ 64 -> kept a ds k r -> decimal_value (a ++ k) < 2 ^ 64.
Proof. intros A (_ & _ & [->|F]); [now rewrite app_nil_r|exact F]. Qed.

(** ** Scaling *)
Lemma one_pos : 0 < one.
Proof. apply pow_pos2. Qed.
Lemma round_closest n d : 0 < d -> closest n d (round n d).
Proof. intros D. now apply closest_iff. Qed.
Lemma double_pow b : double (2 ^ b).
Proof. exists 1, b. split; [reflexivity|]. clear. lia. Qed.
Lemma double_0 : double 0.
Proof. exists 0, 0. split; reflexivity. Qed.
Lemma round_le n d w : 0 < d -> double w -> n * one <= w * d -> round n d <= w.
Proof.
  intros D W L. destruct (round_closest n d D) as [_ C]. destruct (C w W) as [O _]. apply N.le_ngt. intros G.
  assert (X : w * d < round n d * d) by (apply N.mul_lt_mono_pos_r; assumption). unfold off in O. clear - O X L.
  set (x := n * one) in *. set (y := w * d) in *. set (z := round n d * d) in *. lia.
Qed.
Lemma round_ge n d w : 0 < d -> double w -> w * d <= n * one -> w <= round n d.
Proof.
  intros D W L. destruct (round_closest n d D) as [_ C]. destruct (C w W) as [O _]. apply N.le_ngt. intros G.
  assert (X : round n d * d < w * d) by (apply N.mul_lt_mono_pos_r; assumption). unfold off in O. clear - O X L.
  set (x := n * one) in *. set (y := w * d) in *. set (z := round n d * d) in *. lia.
Qed.
Lemma round_none n d : 0 < d -> 2 * (n * one) < d -> round n d = 0.
Proof.
  intros D L. destruct (round_closest n d D) as [_ C]. destruct (C 0 double_0) as [O _]. unfold off in O.
  destruct (N.eq_dec (round n d) 0) as [H|H]; [exact H|exfalso]. assert (X : 1 * d <= round n d * d) by (apply N.mul_le_mono_r; clear - H; lia).
  rewrite N.mul_0_l in O. clear - O X L. set (x := n * one) in *. set (z := round n d * d) in *. lia.
Qed.
Lemma round_0 d : 0 < d -> round 0 d = 0.
Proof. intros D. apply round_none; [exact D|]. rewrite N.mul_0_l. exact D. Qed.
Lemma pow10_pos k : 0 < 10 ^ k.
Proof. apply N.neq_0_lt_0, N.pow_nonzero. discriminate. Qed.
Lemma round_pos n : 0 < n -> 0 < round n 1.
Proof.
  intros P. apply N.lt_le_trans with one; [apply one_pos|]. apply round_ge; [reflexivity|apply double_pow|].
  rewrite N.mul_1_r. pose proof one_pos. clear - P H. nia.
Qed.
Lemma pow10_f64 k : 0 < pow10 k.
Proof. apply round_pos, pow10_pos. Qed.
Lemma of_int_0 s : f64_of_int s = 0 <-> s = 0.
Proof.
  split; [|intros ->; now apply round_0]. intros E. destruct (N.eq_dec s 0) as [H|H]; [exact H|exfalso]. pose proof (round_pos s). unfold f64_of_int in E.
  rewrite E in H0. clear - H H0. lia.
Qed.
Lemma limit_is : f64_limit = infinite.
Proof. unfold f64_limit, infinite, one. rewrite <- N.pow_add_r. reflexivity. Qed.
Lemma infinite_pos : 0 < infinite.
Proof. apply N.mul_pos_pos; [apply pow_pos2|apply one_pos]. Qed.
Lemma one_is : f64_one = one.
Proof. reflexivity. Qed.

Lemma huge_ge : 2 ^ 1023 * one <= pow10 308.
Proof.
  unfold pow10. apply round_ge; [reflexivity|unfold one; rewrite <- N.pow_add_r; apply double_pow|]. rewrite N.mul_1_r. apply N.mul_le_mono_r.
  vm_compute. discriminate.
Qed.
Lemma two_steps s : s < 2 ^ 64 -> f64_div (f64_div (f64_of_int s) (pow10 308)) (pow10 308) = 0.
Proof.
  intros S. unfold f64_div. assert (H := huge_ge). assert (P := one_pos). assert (Hp : 0 < pow10 308) by apply pow10_f64.
  generalize dependent (pow10 308). intros huge H Hp.
  assert (F : f64_of_int s <= 2 ^ 64 * one).
  { apply round_le; [reflexivity|unfold one; rewrite <- N.pow_add_r; apply double_pow|]. rewrite N.mul_1_r. apply N.mul_le_mono_r. clear - S. lia. }
  assert (G : round (f64_of_int s) huge <= 2 ^ 115).
  { apply round_le; [exact Hp|apply double_pow|]. apply N.le_trans with (2 ^ 64 * one * one); [apply N.mul_le_mono_r, F|].
    apply N.le_trans with (2 ^ 115 * (2 ^ 1023 * one)); [|apply N.mul_le_mono_l, H]. rewrite !N.mul_assoc. apply N.mul_le_mono_r.
    unfold one. rewrite <- !N.pow_add_r. apply N.pow_le_mono_r; [discriminate|]. clear. lia. }
  apply round_none; [exact Hp|]. apply N.lt_le_trans with (2 ^ 1023 * one); [|exact H]. rewrite N.mul_assoc. apply N.mul_lt_mono_pos_r; [exact P|].
  apply N.le_lt_trans with (2 ^ 116); [change (2 ^ 116) with (2 * 2 ^ 115); clear - G; lia|]. apply N.pow_lt_mono_r; [reflexivity|]. reflexivity.
Qed.

Lemma closest_int s : closest s 1 (f64_of_int s).
Proof. now apply round_closest. Qed.
Lemma closest_pow10 k : closest (10 ^ k) 1 (pow10 k).
Proof. now apply round_closest. Qed.
Lemma closest_mul a b : closest (a * b) (one * one) (f64_mul a b).
Proof. apply round_closest, N.mul_pos_pos; apply one_pos. Qed.
Lemma closest_div a b : 0 < b -> closest a b (f64_div a b).
Proof. apply round_closest. Qed.
Lemma div_0 b : 0 < b -> f64_div 0 b = 0.
Proof. apply round_0. Qed.
Lemma mul_0 b : f64_mul 0 b = 0.
Proof. unfold f64_mul. rewrite N.mul_0_l. apply round_0, N.mul_pos_pos; apply one_pos. Qed.
Lemma int_is s f : closest s 1 f -> f = f64_of_int s.
Proof. now apply closest_iff. Qed.
Lemma pow10_is k p : closest (10 ^ k) 1 p -> p = pow10 k.
Proof. now apply closest_iff. Qed.
Lemma mul_is a b v : closest (a * b) (one * one) v -> v = f64_mul a b.
Proof. apply closest_iff, N.mul_pos_pos; apply one_pos. Qed.
Lemma div_is a b v : 0 < b -> closest a b v -> v = f64_div a b.
Proof. apply closest_iff. Qed.

Global Opaque round f64_of_int f64_mul f64_div pow10 f64_one f64_limit one infinite.

Lemma scaled_iff s e v : s < 2 ^ 64 -> from_parts 2 (f64_of_int s) e = Some v <-> scaled s e v.
Proof.
  intros S. pose proof (two_steps s S) as T. pose proof (closest_pow10 308) as C3. pose proof (pow10_f64 308) as P3. split.
  - cbn [from_parts]. generalize dependent (pow10 308). intros h T C3 P3. destruct (Z.abs e <=? 308)%Z eqn:A.
    + destruct (0 <=? e)%Z eqn:B.
      * destruct (_ <? f64_limit) eqn:L; [|discriminate]. intros H. injection H as <-.
        eapply scaled_up; [|apply closest_int|apply closest_pow10|apply closest_mul|].
        -- clear - A B. lia.
        -- rewrite <- limit_is. now apply N.ltb_lt.
      * intros H. injection H as <-. eapply scaled_down; [|apply closest_int|apply closest_pow10|apply closest_div, pow10_f64].
        clear - A B. lia.
    + destruct (f64_of_int s =? 0) eqn:Z.
      * intros H. injection H as <-. apply scaled_zero. left. now apply of_int_0, N.eqb_eq.
      * destruct (0 <=? e)%Z eqn:B; [discriminate|]. destruct (Z.abs (e + 308) <=? 308)%Z eqn:A'.
        -- replace (0 <=? e + 308)%Z with false by (symmetry; apply Z.leb_gt; clear - A B; lia). intros H. injection H as <-.
           replace (- (e + 308))%Z with (- e - 308)%Z by (clear; lia).
           eapply scaled_twice; [|apply closest_int|exact C3|apply closest_div, P3|apply closest_pow10|apply closest_div, pow10_f64].
           clear - A B A'. lia.
        -- assert (Big : (e < -616)%Z) by (clear - A B A'; lia). intros H. assert (V : v = 0); [|subst v; apply scaled_zero; now right].
           destruct (f64_div (f64_of_int s) h =? 0); [congruence|].
           replace (0 <=? e + 308)%Z with false in H by (symmetry; apply Z.leb_gt; clear - Big; lia).
           rewrite T in H. cbn [N.eqb] in H.
           destruct (Z.abs (e + 308 + 308) <=? 308)%Z eqn:A2; [|congruence].
           replace (0 <=? e + 308 + 308)%Z with false in H by (symmetry; apply Z.leb_gt; clear - Big; lia).
           rewrite div_0 in H by apply pow10_f64. congruence.
  - intros H. destruct H as [f p v E F P V L|f p v E F P V|f p g q v E F P G Q V|H].
    + apply int_is in F. apply pow10_is in P. apply mul_is in V. subst. cbn [from_parts].
      replace (Z.abs e <=? 308)%Z with true by (symmetry; apply Z.leb_le; clear - E; lia).
      replace (0 <=? e)%Z with true by (symmetry; apply Z.leb_le; clear - E; lia). rewrite limit_is. now rewrite (proj2 (N.ltb_lt _ _) L).
    + apply int_is in F. apply pow10_is in P. subst p. apply div_is in V; [|apply pow10_f64]. subst. cbn [from_parts].
      replace (Z.abs e <=? 308)%Z with true by (symmetry; apply Z.leb_le; clear - E; lia).
      replace (0 <=? e)%Z with false by (symmetry; apply Z.leb_gt; clear - E; lia). reflexivity.
    + apply int_is in F. apply pow10_is in P, Q. subst p q. apply div_is in V; [|apply pow10_f64]. apply div_is in G; [|exact P3].
      subst f g v. cbn [from_parts]. generalize dependent (pow10 308). intros h T C3 P3.
      replace (Z.abs e <=? 308)%Z with false by (symmetry; apply Z.leb_gt; clear - E; lia).
      replace (0 <=? e)%Z with false by (symmetry; apply Z.leb_gt; clear - E; lia).
      replace (Z.abs (e + 308) <=? 308)%Z with true by (symmetry; apply Z.leb_le; clear - E; lia).
      replace (0 <=? e + 308)%Z with false by (symmetry; apply Z.leb_gt; clear - E; lia).
      replace (- (e + 308))%Z with (- e - 308)%Z by (clear; lia). destruct (f64_of_int s =? 0) eqn:Z; [|reflexivity].
      apply N.eqb_eq in Z. rewrite Z, (div_0 h P3), div_0 by apply pow10_f64. reflexivity.
    + cbn [from_parts]. generalize dependent (pow10 308). intros h T C3 P3. destruct (Z.abs e <=? 308)%Z eqn:A.
      * destruct H as [->|H]; [|clear - A H; lia]. rewrite (proj2 (of_int_0 0) eq_refl). destruct (0 <=? e)%Z.
        -- rewrite mul_0, limit_is. replace (0 <? infinite) with true; [reflexivity|]. symmetry. apply N.ltb_lt, infinite_pos.
        -- rewrite div_0 by apply pow10_f64. reflexivity.
      * destruct (f64_of_int s =? 0) eqn:Z; [reflexivity|]. destruct H as [->|Big]; [now rewrite (proj2 (of_int_0 0) eq_refl) in Z|].
        replace (0 <=? e)%Z with false by (symmetry; apply Z.leb_gt; clear - Big; lia).
        replace (Z.abs (e + 308) <=? 308)%Z with false by (symmetry; apply Z.leb_gt; clear - Big; lia).
        destruct (f64_div (f64_of_int s) h =? 0); [reflexivity|].
        replace (0 <=? e + 308)%Z with false by (symmetry; apply Z.leb_gt; clear - Big; lia).
        rewrite T. cbn [N.eqb]. destruct (Z.abs (e + 308 + 308) <=? 308)%Z eqn:A2; [|reflexivity].
        replace (0 <=? e + 308 + 308)%Z with false by (symmetry; apply Z.leb_gt; clear - Big; lia).
        rewrite div_0 by apply pow10_f64. reflexivity.
Qed.

(** ** Reading *)
Lemma dec_value_is d : dec_value d = decimal_value d.
Proof. reflexivity. Qed.
Lemma parts_scaled int frac f e ex v : frac_digits f = frac -> exp_value e = ex -> float_of_parts int f e = Some v <->
  exists ki ri kf rf, kept [] int ki ri /\ kept ki frac kf rf
    /\ scaled (decimal_value (ki ++ kf)) (ex + Z.of_nat (length ri) - Z.of_nat (length kf)) v.
Proof.
  intros <- <-. unfold float_of_parts.
  assert (R : forall ki ri kf rf, kept [] int ki ri -> kept ki (frac_digits f) kf rf ->
    float_of_parts int f e = Some v <-> scaled (decimal_value (ki ++ kf)) (exp_value e + Z.of_nat (length ri) - Z.of_nat (length kf)) v).
  { intros ki ri kf rf K K'. unfold float_of_parts. pose proof (take_kept _ _ _ _ K) as T. cbn [app] in T. change (decimal_value []) with 0 in T. rewrite T.
    rewrite (take_kept _ _ _ _ K'). rewrite scaled_iff.
    2:{ apply (kept_small ki (frac_digits f) kf rf); [|exact K']. exact (kept_small [] int ki ri eq_refl K). }
    destruct K' as (E & _). rewrite E, app_length.
    replace (exp_value e + Z.of_nat (length ri) + Z.of_nat (length rf) - Z.of_nat (length kf + length rf))%Z
      with (exp_value e + Z.of_nat (length ri) - Z.of_nat (length kf))%Z by (clear; lia). reflexivity. }
  fold (float_of_parts int f e). split.
  - intros H. destruct (kept_take int []) as (ki & ri & K). destruct (kept_take (frac_digits f) ki) as (kf & rf & K').
    exists ki, ri, kf, rf. split; [exact K|]. split; [exact K'|]. exact (proj1 (R _ _ _ _ K K') H).
  - intros (ki & ri & kf & rf & K & K' & S). exact (proj2 (R _ _ _ _ K K') S).
Qed.

Definition frac_is (f frac : bytes) : Prop := (frac = [] /\ f = []) \/ (digits1 frac /\ f = x2e :: frac).
Definition exp_is (e : bytes) (ex : Z) : Prop :=
  (ex = 0%Z /\ e = [])
  \/ exists c s d, (c = x65 \/ c = x45) /\ digits1 d /\ e = c :: s ++ d
     /\ ((s = [x2d] /\ ex = (- Z.of_N (decimal_value d))%Z) \/ ((s = [] \/ s = [x2b]) /\ ex = Z.of_N (decimal_value d))).
Lemma frac_is_digits f frac : frac_is f frac -> frac_digits f = frac.
Proof. intros [[-> ->]|[_ ->]]; reflexivity. Qed.
Lemma exp_is_value e ex : exp_is e ex -> exp_value e = ex.
Proof.
  intros [[-> ->]|(c & s & d & _ & [N D] & -> & [[-> ->]|[S ->]])]; [reflexivity|reflexivity|].
  destruct S as [->| ->]; [|reflexivity]. cbn [app]. destruct d as [|x d]; [now destruct N|]. cbn [exp_value]. inversion D as [|? ? X _]; subst.
  unfold digit in X. rewrite (proj2 (beq_false x x2d)), (proj2 (beq_false x x2b)); [|intros ->; cbn in X; clear - X; lia..].
  now rewrite dec_value_is.
Qed.
Lemma frac_is_text f : frac_text f <-> exists frac, frac_is f frac.
Proof.
  split; [intros [->|(d & D & ->)]; [exists []; now left|exists d; now right]|].
  intros (frac & [[_ ->]|[D ->]]); [now left|right; eauto].
Qed.
Lemma exp_is_text e : exp_text e <-> exists ex, exp_is e ex.
Proof.
  split.
  - intros [->|(c & s & d & C & S & D & ->)]; [exists 0%Z; now left|]. destruct S as [->|[->| ->]].
    + eexists. right. exists c, [], d. split; [exact C|]. split; [exact D|]. split; [reflexivity|]. right. split; [now left|reflexivity].
    + eexists. right. exists c, [x2b], d. split; [exact C|]. split; [exact D|]. split; [reflexivity|]. right. split; [now right|reflexivity].
    + eexists. right. exists c, [x2d], d. split; [exact C|]. split; [exact D|]. split; [reflexivity|]. left. split; reflexivity.
  - intros (ex & [[_ ->]|(c & s & d & C & D & -> & S)]); [now left|]. right. exists c, s, d. split; [exact C|]. split; [|split; [exact D|reflexivity]].
    destruct S as [[-> _]|[[->| ->] _]]; auto.
Qed.
Lemma number_of_is t neg int frac ex : number_of t neg int frac ex <->
  exists f e, t = (if neg then [x2d] else []) ++ int ++ f ++ e /\ int_text int /\ frac_is f frac /\ exp_is e ex.
Proof.
  split.
  - intros (m & f & e & -> & -> & I & F & X). exists f, e. auto.
  - intros (f & e & -> & I & F & X). eexists _, f, e. auto.
Qed.

Lemma lead_ok i : is_nil i || (byte_eqb (hd x31 i) x30 && negb (is_nil (tl i))) = false -> Forall digit i -> int_text i.
Proof.
  intros H D. apply orb_false_elim in H. destruct H as [N Z]. destruct i as [|c q]; [discriminate|]. cbn [hd tl] in Z.
  apply andb_false_elim in Z. destruct Z as [Z|Z].
  - right. split; [split; [discriminate|exact D]|]. cbn [hd]. now apply beq_false in Z.
  - apply negb_false_iff, is_nil_spec in Z. subst q. destruct (byte_eqb c x30) eqn:Q; [apply beq in Q; left; now subst c|].
    right. split; [split; [discriminate|exact D]|]. now apply beq_false in Q.
Qed.
Lemma ok_lead i : int_text i -> is_nil i || (byte_eqb (hd x31 i) x30 && negb (is_nil (tl i))) = false.
Proof.
  intros [->|[[N D] H]]; [reflexivity|]. destruct i as [|c q]; [now destruct N|]. cbn [hd tl] in *. cbn [is_nil orb]. now rewrite (proj2 (beq_false c x30) H).
Qed.

Lemma float_iff t r : float_of_text t = Some r <-> double_of t r.
Proof.
  split.
  - unfold float_of_text.
    set (mb := match t with c :: q => if byte_eqb c x2d then (true, q) else (false, t) | [] => (false, []) end).
    assert (Mb : exists neg b, mb = (neg, b) /\ t = (if neg : bool then [x2d] else []) ++ b).
    { subst mb. destruct t as [|c q]; [exists false, []; auto|]. destruct (byte_eqb c x2d) eqn:C; [apply beq in C; subst c; exists true, q; auto|].
      exists false, (c :: q). auto. }
    destruct Mb as (neg & b & -> & ->). pose proof (digits_spec b) as (D & _ & E). destruct (digits b) as [i b1]. cbn [fst snd] in *.
    destruct (is_nil i || _) eqn:Z; [discriminate|]. apply lead_ok in Z; [|exact D].
    destruct (fraction b1) as [[f b2]|] eqn:F; [|discriminate]. destruct (exponent b2) as [[e [|? ?]]|] eqn:X; try discriminate.
    apply fraction_sound in F. destruct F as (F & -> & _ & _). apply exponent_sound in X. destruct X as (X & ->). rewrite app_nil_r in E. subst b.
    destruct (float_of_parts i f e) as [v|] eqn:V; [|discriminate]. intros H. injection H as <-.
    apply frac_is_text in F. destruct F as (frac & F). apply exp_is_text in X. destruct X as (ex & X).
    apply (parts_scaled i frac f e ex v (frac_is_digits f frac F) (exp_is_value e ex X)) in V. destruct V as (ki & ri & kf & rf & K & K' & S).
    exists neg, i, frac, ex, ki, ri, kf, rf, v. split; [apply number_of_is; exists f, e; auto|auto].
  - intros (neg & int & frac & ex & ki & ri & kf & rf & v & N & K & K' & S & ->). apply number_of_is in N. destruct N as (f & e & -> & I & F & X).
    pose proof (proj2 (parts_scaled int frac f e ex v (frac_is_digits f frac F) (exp_is_value e ex X)) (ex_intro _ ki (ex_intro _ ri (ex_intro _ kf (ex_intro _ rf (conj K (conj K' S))))))) as V.
    assert (F' : frac_text f) by (apply frac_is_text; eauto). assert (X' : exp_text e) by (apply exp_is_text; eauto). clear K K' S F X.
    unfold float_of_text.
    assert (Mb : match (if neg then [x2d] else []) ++ int ++ f ++ e with c :: q => if byte_eqb c x2d then (true, q) else (false, (if neg then [x2d] else []) ++ int ++ f ++ e) | [] => (false, []) end
      = (neg, int ++ f ++ e)).
    { destruct (int_head int I) as (c & q & -> & D). destruct neg; cbn [app]; [reflexivity|]. rewrite (proj2 (beq_false c x2d)); [reflexivity|].
      intros ->. unfold digit in D. cbn in D. clear - D. lia. }
    rewrite Mb. rewrite digits_of.
    2:{ destruct I as [->|[[_ D] _]]; [|exact D]. constructor; [unfold digit; cbn; clear; lia|constructor]. }
    2:{ destruct F' as [->|(d & _ & ->)]; cbn [app].
        - destruct X' as [->|(c & s & d & C & _ & _ & ->)]; cbn [app]; [exact Logic.I|]. cbn. unfold digit. destruct C as [-> | ->]; cbn; clear; lia.
        - cbn. unfold digit. cbn. clear. lia. }
    rewrite (ok_lead int I). pose proof (fraction_complete f e [] F' X' Logic.I) as P. rewrite !app_nil_r in P. rewrite P.
    pose proof (exponent_complete e [] X' Logic.I) as Q. rewrite app_nil_r in Q. rewrite Q. now rewrite V.
Qed.

Lemma rate_int_iff z r : r = float_of_int z <-> rate_of (JInt z) r.
Proof.
  cbn [rate_of]. unfold float_of_int. split.
  - intros ->. eexists. split; [apply closest_int|reflexivity].
  - intros (v & V & ->). apply int_is in V. now subst v.
Qed.
