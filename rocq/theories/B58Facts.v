(** Proofs about B58.v. *)

From Coq Require Import Lia ZifyBool ZifyNat ZifyN Strings.String.
From Verif Require Import Base BaseFacts Utf8 Utf8Facts SpecUtf8 Utf8Thms NumFacts SpecText Sha2 Hash HashFacts B58 C32Facts.
Local Open Scope N_scope.

(** ** Alphabet *)

Definition b58a (d : N) : byte := nth (N.to_nat d) bitcoin58 x00.

Lemma b58_char_ok {E} d : d < 58 -> @b58_char E d = Ok (b58a d).
Proof.
  intros H. unfold b58_char, index, b58a. change b58_alphabet with bitcoin58.
  rewrite (nth_error_nth' _ x00) by (change (length bitcoin58) with 58%nat; lia). reflexivity.
Qed.

Definition b58v (c : N) : Z := nth (N.to_nat c) b58_byte_map (-1)%Z.

Definition digits58 : list N := map N.of_nat (seq 0 58).
Lemma forall58 (f : N -> bool) : forallb f digits58 = true -> forall d, d < 58 -> f d = true.
Proof.
  rewrite forallb_forall. intros H d Hd. apply H. unfold digits58. apply in_map_iff.
  exists (N.to_nat d). rewrite N2Nat.id. split; [reflexivity|]. apply in_seq. lia.
Qed.

Lemma b58v_b58a d : d < 58 -> b58v (b2n (b58a d)) = Z.of_N d.
Proof.
  intros H. apply Z.eqb_eq. revert d H.
  apply (forall58 (fun d => Z.eqb (b58v (b2n (b58a d))) (Z.of_N d))). vm_compute. reflexivity.
Qed.

Lemma b58a_inj a b : a < 58 -> b < 58 -> b58a a = b58a b -> a = b.
Proof. intros Ha Hb E. apply N2Z.inj. rewrite <- !b58v_b58a by assumption. congruence. Qed.

Lemma map_b58a_inj a b : Forall (fun d => d < 58) a -> Forall (fun d => d < 58) b ->
  map b58a a = map b58a b -> a = b.
Proof.
  revert b. induction a as [|x a IH]; intros [|y b] Fa Fb H; try discriminate; [reflexivity|].
  inv Fa. inv Fb. injection H as Hx H. apply b58a_inj in Hx; try assumption. subst.
  f_equal. apply IH; assumption.
Qed.

Definition ok58 (c : N) : Prop := exists b, In b bitcoin58 /\ c = b2n b.

Lemma b58v_class b :
  (if existsb (byte_eqb b) bitcoin58 then
     (0 <=? b58v (b2n b))%Z && (b58v (b2n b) <? 58)%Z && byte_eqb (b58a (Z.to_N (b58v (b2n b)))) b
     && (b2n b <? 128)
   else (b58v (b2n b) =? -1)%Z) = true.
Proof. revert b. apply all_byte_spec. vm_compute. reflexivity. Qed.

Lemma b58v_ok c : ok58 c ->
  (0 <= b58v c < 58)%Z /\ b58a (Z.to_N (b58v c)) = n2b c /\ c < 128.
Proof.
  intros (b & H & ->). pose proof (b58v_class b) as C. apply existsb_byte_in in H. rewrite H in C.
  rewrite !andb_true_iff in C. destruct C as (((C1 & C2) & C3) & C4). apply byte_eqb_eq in C3.
  rewrite n2b_b2n. repeat split; auto; lia.
Qed.

Lemma b58v_bad c : c < 256 -> ~ ok58 c -> b58v c = (-1)%Z.
Proof.
  intros Hc H. pose proof (b58v_class (n2b c)) as C. rewrite b2n_n2b_small in C by exact Hc.
  destruct (existsb (byte_eqb (n2b c)) bitcoin58) eqn:X; [|lia].
  exfalso. apply H. exists (n2b c). split; [apply existsb_byte_in; exact X|].
  symmetry. apply b2n_n2b_small, Hc.
Qed.

Lemma ok58_dec c : ok58 c \/ ~ ok58 c.
Proof.
  destruct (existsb (fun b => N.eqb c (b2n b)) bitcoin58) eqn:X.
  - left. apply existsb_exists in X. destruct X as (b & H & E). exists b. split; [exact H|lia].
  - right. intros (b & H & E). assert (existsb (fun b => N.eqb c (b2n b)) bitcoin58 = true).
    { apply existsb_exists. exists b. split; [exact H|lia]. } congruence.
Qed.

(** ** Encoding *)

Lemma b58_divide_spec buff : forall rem temp,
  rem < 58 -> lead0 (map b2n temp) = O ->
  let '(r, q) := b58_divide buff rem temp in
  r < 58 /\ lead0 (map b2n q) = O
  /\ 58 * value 256 (map b2n q) + r
     = (58 * value 256 (map b2n temp) + rem) * 256 ^ lenN buff + value 256 (map b2n buff).
Proof.
  induction buff as [|b buff IH]; intros rem temp Hr Ht; cbn [b58_divide].
  - change (lenN []) with 0. cbn [map]. rewrite value_nil, N.pow_0_r. repeat split; auto; lia.
  - set (cur := N.shiftl rem 8 + b2n b).
    assert (Hc : cur = rem * 256 + b2n b).
    { unfold cur. rewrite N.shiftl_mul_pow2. reflexivity. }
    pose proof (b2n_lt b) as Hb.
    set (temp' := match temp with [] => if cur / 58 =? 0 then [] else [n2b (cur / 58)]
                                | _ => temp ++ [n2b (cur / 58)] end).
    assert (Hd : cur / 58 < 256) by (apply N.div_lt_upper_bound; lia).
    assert (T : lead0 (map b2n temp') = O
                /\ value 256 (map b2n temp') = value 256 (map b2n temp) * 256 + cur / 58).
    { unfold temp'. destruct temp as [|t temp].
      - destruct (N.eqb_spec (cur / 58) 0) as [E|E].
        + rewrite E. split; reflexivity.
        + cbn [map]. rewrite b2n_n2b_small by exact Hd. split.
          * cbn [lead0]. destruct (cur / 58); [congruence|reflexivity].
          * unfold value. cbn [fold_left]. lia.
      - rewrite map_app. cbn [map]. rewrite b2n_n2b_small by exact Hd. split.
        + cbn [map app] in *. cbn [lead0] in *. destruct (b2n t); [discriminate|reflexivity].
        + rewrite value_snoc. reflexivity. }
    destruct T as [T1 T2].
    specialize (IH (cur mod 58) temp' ltac:(apply N.mod_lt; lia) T1).
    destruct (b58_divide buff (cur mod 58) temp') as [r q]. destruct IH as (I1 & I2 & I3).
    repeat split; auto. rewrite I3, T2. cbn [map]. rewrite value_cons, map_length, lenN_cons.
    change (N.of_nat (length buff)) with (lenN buff).
    rewrite N.pow_add_r, N.pow_1_r.
    pose proof (N.div_mod cur 58 ltac:(lia)) as DM.
    replace (58 * (value 256 (map b2n temp) * 256 + cur / 58) + cur mod 58)
      with ((58 * value 256 (map b2n temp) + rem) * 256 + b2n b) by lia.
    lia.
Qed.

Lemma lead0_pos ds : lead0 ds = O -> ds <> [] -> Forall (fun d => d < 256) ds -> 0 < value 256 ds.
Proof.
  intros L N F. destruct ds as [|[|p] r]; [contradiction|discriminate|].
  rewrite value_cons.
  assert (0 < 256 ^ N.of_nat (length r)) by (apply N.neq_0_lt_0, N.pow_nonzero; lia). nia.
Qed.

Lemma lead0_app_nz a b : lead0 a = O -> a <> [] -> lead0 (a ++ b) = O.
Proof. intros L N. destruct a as [|[|p] r]; [contradiction|discriminate|reflexivity]. Qed.

Lemma b58_enc_loop_ok {E} fuel : forall buff acc,
  lead0 (map b2n buff) = O -> value 256 (map b2n buff) < 58 ^ N.of_nat fuel ->
  exists ds, @b58_enc_loop E fuel buff acc = Ok (acc ++ map b58a ds)
             /\ Forall (fun d => d < 58) ds /\ value 58 (rev ds) = value 256 (map b2n buff)
             /\ lead0 (rev ds) = O.
Proof.
  induction fuel as [|fuel IH]; intros buff acc L V.
  - destruct buff as [|b buff].
    + exists []. cbn. rewrite app_nil_r. repeat split; auto.
    + pose proof (lead0_pos (map b2n (b :: buff)) L ltac:(discriminate) (map_b2n_bound _)).
      cbn [N.of_nat] in V. rewrite N.pow_0_r in V. lia.
  - destruct buff as [|b buff].
    + exists []. cbn. rewrite app_nil_r. repeat split; auto.
    + pose proof (b58_divide_spec (b :: buff) 0 [] ltac:(lia) eq_refl) as D.
      pose proof (lead0_pos (map b2n (b :: buff)) L ltac:(discriminate) (map_b2n_bound _)) as Pos.
      change (b58_enc_loop (S fuel) (b :: buff) acc) with
        (let '(rem, temp) := b58_divide (b :: buff) 0 [] in
         let* c := @b58_char E rem in b58_enc_loop fuel temp (acc ++ [c])).
      destruct (b58_divide (b :: buff) 0 []) as [r q]. destruct D as (D1 & D2 & D3).
      change (value 256 (map b2n [])) with 0 in D3.
      replace ((58 * 0 + 0) * 256 ^ lenN (b :: buff)) with 0 in D3 by lia.
      rewrite N.add_0_l in D3.
      rewrite pow_S in V.
      assert (Q : value 256 (map b2n q) < 58 ^ N.of_nat fuel).
      { set (X := 58 ^ N.of_nat fuel) in *. set (Y := value 256 (map b2n (b :: buff))) in *.
        set (W := value 256 (map b2n q)) in *. clearbody X Y W. lia. }
      destruct (IH q (acc ++ [b58a r]) D2 Q) as (ds & E1 & E2 & E3 & E4).
      rewrite b58_char_ok by exact D1. cbn [bind]. rewrite E1.
      exists (r :: ds). cbn [map rev]. rewrite <- app_assoc. repeat split.
      * constructor; assumption.
      * rewrite value_snoc, E3. change (b2n b :: map b2n buff) with (map b2n (b :: buff)). lia.
      * destruct (rev ds) as [|x l] eqn:X.
        -- rewrite value_nil in E3. cbn [app lead0]. destruct r; [lia|reflexivity].
        -- rewrite <- X in *. apply lead0_app_nz; [exact E4|]. rewrite X. discriminate.
Qed.

Lemma count_lead_x00 bs : count_lead x00 bs = lead0 (map b2n bs).
Proof.
  induction bs as [|b bs IH]; [reflexivity|]. cbn [count_lead map].
  destruct (byte_eqb_spec b x00) as [->|E]; [cbn; rewrite IH; reflexivity|].
  cbn [lead0]. destruct (b2n b) eqn:X; [|reflexivity].
  exfalso. apply E. apply b2n_inj. rewrite X. reflexivity.
Qed.

(** The first division drops the leading zeros, so the loop may start on any non-empty buffer. *)
Lemma b58_enc_loop_first {E} fuel buff acc : buff <> [] ->
  value 256 (map b2n buff) < 58 ^ N.of_nat (S fuel) ->
  exists r ds, @b58_enc_loop E (S fuel) buff acc = Ok (acc ++ map b58a (r :: ds))
             /\ Forall (fun d => d < 58) (r :: ds)
             /\ value 58 (rev (r :: ds)) = value 256 (map b2n buff)
             /\ lead0 (rev ds) = O.
Proof.
  intros NE V. destruct buff as [|b buff]; [contradiction|].
  pose proof (b58_divide_spec (b :: buff) 0 [] ltac:(lia) eq_refl) as D.
  change (b58_enc_loop (S fuel) (b :: buff) acc) with
    (let '(rem, temp) := b58_divide (b :: buff) 0 [] in
     let* c := @b58_char E rem in b58_enc_loop fuel temp (acc ++ [c])).
  destruct (b58_divide (b :: buff) 0 []) as [r q]. destruct D as (D1 & D2 & D3).
  change (value 256 (map b2n [])) with 0 in D3.
  replace ((58 * 0 + 0) * 256 ^ lenN (b :: buff)) with 0 in D3 by lia.
  rewrite N.add_0_l in D3. rewrite pow_S in V.
  assert (Q : value 256 (map b2n q) < 58 ^ N.of_nat fuel).
  { set (X := 58 ^ N.of_nat fuel) in *. set (Y := value 256 (map b2n (b :: buff))) in *.
    set (W := value 256 (map b2n q)) in *. clearbody X Y W. lia. }
  destruct (@b58_enc_loop_ok E fuel q (acc ++ [b58a r]) D2 Q) as (ds & E1 & E2 & E3 & E4).
  rewrite b58_char_ok by exact D1. cbn [bind]. rewrite E1.
  exists r, ds. cbn [map rev]. rewrite <- app_assoc. repeat split; auto.
  rewrite value_snoc, E3. change (b2n b :: map b2n buff) with (map b2n (b :: buff)). lia.
Qed.

Lemma fuel58 buff : value 256 (map b2n buff) < 58 ^ N.of_nat (2 * length buff).
Proof.
  eapply N.lt_le_trans; [apply value_bound; [lia|apply map_b2n_bound]|]. rewrite map_length.
  rewrite Nat2N.inj_mul, N.pow_mul_r. apply N.pow_le_mono_l. vm_compute. discriminate.
Qed.

Lemma b58_encode_numeral {E} b : (b = [] \/ value 256 (map b2n b) <> 0) ->
  exists s, @b58_encode E b = Ok s /\ numeral 58 bitcoin58 b s.
Proof.
  intros H. unfold b58_encode. destruct b as [|b0 b'].
  { exists []. split; [reflexivity|]. exists []. repeat split; auto. }
  destruct H as [H|NZ]; [discriminate|]. set (b := b0 :: b') in *.
  assert (NE : b <> []) by discriminate.
  pose proof (fuel58 b) as FU.
  replace (2 * length b)%nat with (S (S (2 * length b'))) in FU |- * by (unfold b; cbn [length]; lia).
  destruct (@b58_enc_loop_first E _ b [] NE FU) as (r & ds & E1 & E2 & E3 & E4).
  rewrite E1. cbn [bind app]. rewrite b58_char_ok by lia. cbn [bind].
  eexists. split; [reflexivity|].
  exists (repeat 0 (lead0 (map b2n b)) ++ rev (r :: ds)). repeat split.
  - apply Forall_app. split; [|apply Forall_rev, E2].
    apply Forall_forall. intros x X. apply repeat_spec in X. subst. lia.
  - rewrite rev_app_distr, rev_repeat, count_lead_x00, map_app. f_equal.
    + induction (lead0 (map b2n b)) as [|k IHk]; [reflexivity|]. cbn [repeat map]. rewrite <- IHk. reflexivity.
    + change (fun d => nth (N.to_nat d) bitcoin58 x00) with b58a. rewrite map_rev. reflexivity.
  - rewrite value_zeros. exact E3.
  - rewrite lead0_app_repeat.
    assert (lead0 (rev (r :: ds)) = O) as ->; [|rewrite Nat.add_0_r; reflexivity].
    cbn [rev] in *. destruct (rev ds) as [|x l] eqn:X.
    + cbn [app lead0]. destruct r; [|reflexivity].
      exfalso. apply NZ. rewrite <- E3. reflexivity.
    + rewrite <- X in *. apply lead0_app_nz; [exact E4|]. rewrite X. discriminate.
Qed.

Lemma value0_repeat b : value 256 (map b2n b) = 0 -> b = repeat x00 (length b).
Proof.
  intros V. apply map_b2n_inj.
  assert (S0 : strip0 (map b2n b) = []) by (apply (strip0_nil_value 256); [lia|exact V]).
  rewrite (lead0_strip0 (map b2n b)), S0, app_nil_r.
  assert (L : length (map b2n b) = lead0 (map b2n b)).
  { rewrite (lead0_strip0 (map b2n b)) at 1. rewrite S0, app_nil_r, repeat_length. reflexivity. }
  rewrite map_length in L. rewrite <- L.
  clear. induction (length b) as [|k IH]; [reflexivity|]. cbn [repeat map]. rewrite IH. reflexivity.
Qed.

Lemma map_b2n_zeros n : map b2n (repeat x00 n) = repeat 0 n.
Proof. induction n as [|n IH]; [reflexivity|]. cbn [repeat map]. rewrite IH. reflexivity. Qed.

(** The odd case: [n] zero bytes give [n + 1] ones. *)
Lemma b58_encode_zeros {E} n : (0 < n)%nat -> @b58_encode E (repeat x00 n) = Ok (repeat x31 (S n)).
Proof.
  intros Hn. destruct n as [|n]; [lia|]. unfold b58_encode.
  assert (NE : repeat x00 (S n) <> []) by discriminate.
  pose proof (fuel58 (repeat x00 (S n))) as FU. rewrite repeat_length in *.
  replace (2 * S n)%nat with (S (S (2 * n))) in FU |- * by lia.
  destruct (@b58_enc_loop_first E _ _ [] NE FU) as (r & ds & E1 & E2 & E3 & E4).
  rewrite map_b2n_zeros, value_repeat0 in E3. cbn [rev] in E3. rewrite value_snoc in E3.
  assert (D : value 58 (rev ds) = 0 /\ r = 0) by lia. destruct D as [D ->].
  assert (ds = []) as ->.
  { destruct (rev ds) as [|x l] eqn:X; [destruct ds; [reflexivity|cbn in X; destruct (rev ds); discriminate]|].
    exfalso. destruct x; [discriminate|]. rewrite value_cons in D.
    assert (0 < 58 ^ N.of_nat (length l)) by (apply N.neq_0_lt_0, N.pow_nonzero; lia). nia. }
  rewrite E1. cbn [bind app map]. rewrite b58_char_ok by lia. cbn [bind].
  rewrite count_lead_x00, map_b2n_zeros, lead0_repeat.
  change (b58a 0) with x31. change (x31 :: repeat x31 (S n)) with (repeat x31 (S (S n))).
  rewrite rev_repeat. reflexivity.
Qed.

(** ** Decoding *)

Lemma b58_mul_add_spec buff : forall carry, carry < 58 ->
  let '(buff', c) := b58_mul_add buff carry in
  length buff' = length buff /\ c < 58
  /\ value 256 (map b2n buff') + c * 256 ^ lenN buff = 58 * value 256 (map b2n buff) + carry.
Proof.
  induction buff as [|b buff IH]; intros carry Hc; cbn [b58_mul_add].
  - repeat split; auto. change (lenN []) with 0. rewrite N.pow_0_r. cbn [map]. rewrite value_nil. lia.
  - specialize (IH carry Hc). destruct (b58_mul_add buff carry) as [r c]. destruct IH as (I1 & I2 & I3).
    pose proof (b2n_lt b) as Hb. set (cur := c + b2n b * 58).
    assert (L : N.land cur 255 = cur mod 256) by (change 255 with (N.ones 8); apply N.land_ones).
    rewrite L, N.shiftr_div_pow2. change (2 ^ 8) with 256.
    assert (Hm : cur mod 256 < 256) by (apply N.mod_lt; lia).
    repeat split.
    + cbn [length]. congruence.
    + apply N.div_lt_upper_bound; unfold cur; lia.
    + cbn [map]. rewrite !value_cons, !map_length, I1, b2n_n2b_small by exact Hm.
      change (N.of_nat (length buff)) with (lenN buff). rewrite lenN_cons, N.pow_add_r, N.pow_1_r.
      pose proof (N.div_mod cur 256 ltac:(lia)) as DM.
      replace (cur mod 256 * 256 ^ lenN buff + value 256 (map b2n r) + cur / 256 * (256 ^ lenN buff * 256))
        with ((256 * (cur / 256) + cur mod 256) * 256 ^ lenN buff + value 256 (map b2n r)) by lia.
      rewrite <- DM. unfold cur. lia.
Qed.

Lemma b58_dec_loop_ok cs : forall buff,
  Forall ok58 cs ->
  (value 256 (map b2n buff) + 1) * 58 ^ lenN cs <= 256 ^ lenN buff ->
  exists out, b58_dec_loop cs buff = Ok out /\ length out = length buff
    /\ value 256 (map b2n out)
       = value 256 (map b2n buff) * 58 ^ lenN cs + value 58 (map (fun c => Z.to_N (b58v c)) cs).
Proof.
  induction cs as [|c cs IH]; intros buff F B.
  - exists buff. repeat split. change (lenN []) with 0. rewrite N.pow_0_r. cbn [map]. rewrite value_nil. lia.
  - inv F. rename H1 into Hc. rename H2 into F. cbn [b58_dec_loop].
    destruct (b58v_ok c Hc) as (V & _ & C128).
    destruct (N.leb_spec 256 c); [lia|]. fold (b58v c).
    destruct (Z.eqb_spec (b58v c) (-1)); [lia|]. destruct (Z.ltb_spec (b58v c) 0); [lia|].
    pose proof (b58_mul_add_spec buff (Z.to_N (b58v c)) ltac:(lia)) as M.
    destruct (b58_mul_add buff (Z.to_N (b58v c))) as [r k]. destruct M as (M1 & M2 & M3).
    cbn [fst].
    rewrite lenN_cons, N.pow_add_r, N.pow_1_r in B.
    assert (P58 : 0 < 58 ^ lenN cs) by (apply N.neq_0_lt_0, N.pow_nonzero; lia).
    set (V0 := value 256 (map b2n buff)) in *. set (d := Z.to_N (b58v c)) in *.
    assert (Hd : d < 58) by lia.
    assert (K : k = 0).
    { destruct (N.eq_dec k 0) as [|K]; [assumption|].
      assert (256 ^ lenN buff <= k * 256 ^ lenN buff) by nia.
      assert ((V0 + 1) * 58 <= (V0 + 1) * (58 ^ lenN cs * 58)) by nia. lia. }
    subst k. rewrite N.mul_0_l, N.add_0_r in M3.
    destruct (IH r F) as (out & O1 & O2 & O3).
    { unfold lenN in *. rewrite M1, M3. nia. }
    exists out. split; [exact O1|]. split; [congruence|]. rewrite O3, M3. cbn [map].
    rewrite value_cons, map_length. change (N.of_nat (length cs)) with (lenN cs).
    rewrite lenN_cons, N.pow_add_r, N.pow_1_r. fold d. lia.
Qed.

Lemma pow_root a b n : 0 < n -> a ^ n <= b ^ n -> a <= b.
Proof.
  intros Hn H. destruct (N.le_gt_cases a b) as [|G]; [assumption|].
  exfalso. apply (N.pow_lt_mono_l b a n) in G; lia.
Qed.

Lemma pow58_bound n : 58 ^ n <= 256 ^ (n * 733 / 1000 + 1).
Proof.
  apply (pow_root _ _ 71); [lia|]. rewrite <- !N.pow_mul_r.
  rewrite (N.mul_comm n 71), (N.pow_mul_r 58 71 n).
  transitivity (256 ^ (52 * n)).
  - rewrite (N.pow_mul_r 256 52 n). apply N.pow_le_mono_l. vm_compute. discriminate.
  - apply N.pow_le_mono_r; [lia|]. lia.
Qed.

Lemma strip_zeros_b2n bs : map b2n (strip_zeros bs) = strip0 (map b2n bs).
Proof.
  induction bs as [|b bs IH]; [reflexivity|]. cbn [map strip_zeros].
  destruct (byte_eqb_spec b x00) as [->|E]; [exact IH|].
  cbn [map strip0]. destruct (b2n b) eqn:X; [|reflexivity].
  exfalso. apply E. apply b2n_inj. rewrite X. reflexivity.
Qed.

Definition b58ds (s : bytes) : list N := map (fun c => Z.to_N (b58v (b2n c))) s.

Definition ok58s (s : bytes) : Prop := Forall (fun c => In c bitcoin58) s.

Lemma ok58s_ok s : ok58s s -> Forall ok58 (map b2n s).
Proof.
  unfold ok58s. induction 1 as [|c s H _ IH]; cbn [map]; constructor; auto. exists c. auto.
Qed.

Lemma ok58s_ascii s : ok58s s -> is_ascii s = true.
Proof.
  induction 1 as [|c s H _ IH]; [reflexivity|]. cbn [is_ascii forallb]. fold (is_ascii s). rewrite IH.
  destruct (b58v_ok (b2n c)) as (_ & _ & L); [exists c; auto|]. lia.
Qed.

Lemma b58ds_spec s : ok58s s -> Forall (fun d => d < 58) (b58ds s) /\ map b58a (b58ds s) = s.
Proof.
  induction 1 as [|c s H _ (IH1 & IH2)]; [split; [constructor|reflexivity]|].
  destruct (b58v_ok (b2n c)) as (V & A & _); [exists c; auto|].
  split; cbn [b58ds map].
  - constructor; [lia|exact IH1].
  - rewrite A, n2b_b2n. f_equal. exact IH2.
Qed.

Lemma count_lead_x31 s : ok58s s -> count_lead x31 s = lead0 (b58ds s).
Proof.
  induction 1 as [|c s H _ IH]; [reflexivity|]. cbn [count_lead b58ds map].
  destruct (b58v_ok (b2n c)) as (V & A & _); [exists c; auto|]. rewrite n2b_b2n in A.
  destruct (byte_eqb_spec c x31) as [->|E].
  - change (Z.to_N (b58v (b2n x31))) with 0. cbn [lead0]. rewrite IH. reflexivity.
  - cbn [lead0]. destruct (Z.to_N (b58v (b2n c))) eqn:X; [|reflexivity].
    exfalso. apply E. rewrite <- A. reflexivity.
Qed.

Lemma b58_decode_digits s : ok58s s ->
  exists b, b58_decode s = Ok b /\ value 58 (b58ds s) = value 256 (map b2n b)
            /\ lead0 (b58ds s) = lead0 (map b2n b).
Proof.
  intros F. destruct s as [|c0 s0].
  { exists []. repeat split. }
  unfold b58_decode. set (s := c0 :: s0) in *. change (match s with [] => Ok [] | _ :: _ => ?X end) with X.
  rewrite utf8_chars_ascii by (apply ok58s_ascii, F).
  assert (LR : lenN (repeat x00 (N.to_nat (lenN s * 733 / 1000 + 1))) = lenN s * 733 / 1000 + 1).
  { unfold lenN at 1. rewrite repeat_length, N2Nat.id. reflexivity. }
  destruct (b58_dec_loop_ok (map b2n s) (repeat x00 (N.to_nat (lenN s * 733 / 1000 + 1))) (ok58s_ok s F))
    as (out & O1 & O2 & O3).
  { rewrite map_b2n_zeros, value_repeat0, LR. unfold lenN at 1. rewrite map_length.
    rewrite N.mul_1_l. apply pow58_bound. }
  rewrite O1. cbn [bind]. eexists. split; [reflexivity|].
  rewrite map_b2n_zeros, value_repeat0, N.mul_0_l, N.add_0_l, map_map in O3.
  rewrite map_app, map_b2n_zeros, strip_zeros_b2n. split.
  - rewrite value_zeros, strip0_value. symmetry. exact O3.
  - rewrite lead0_app_repeat, strip0_lead0, count_lead_x31 by exact F. lia.
Qed.

Lemma numeral58_ok b s : numeral 58 bitcoin58 b s -> ok58s s.
Proof.
  intros (ds & F & -> & _). unfold ok58s. apply Forall_forall. intros x X. apply in_map_iff in X.
  destruct X as (d & <- & D). rewrite Forall_forall in F. specialize (F d D).
  apply nth_In. change (length bitcoin58) with 58%nat. lia.
Qed.

Lemma numeral58_decode b s : numeral 58 bitcoin58 b s -> b58_decode s = Ok b.
Proof.
  intros H. pose proof (numeral58_ok _ _ H) as O. destruct H as (ds & F & E & V & L).
  destruct (b58_decode_digits s O) as (b' & -> & V' & L'). f_equal.
  destruct (b58ds_spec s O) as (F2 & N2).
  change (fun d => nth (N.to_nat d) bitcoin58 x00) with b58a in E. rewrite <- N2 in E.
  apply map_b58a_inj in E; try assumption. rewrite E in *. apply map_b2n_inj.
  change b2n with Byte.to_N in *.
  apply (numeral_unique 256); [lia | apply map_b2n_bound | apply map_b2n_bound | |]; congruence.
Qed.

Lemma numeral58_unique b s s' : numeral 58 bitcoin58 b s -> numeral 58 bitcoin58 b s' -> s = s'.
Proof.
  intros (ds & F & -> & V & L) (ds' & F' & -> & V' & L').
  f_equal. apply (numeral_unique 58); auto; congruence || lia.
Qed.

(** ** Rejection *)

Lemma utf8_next_small bs c r : utf8_next bs = Some (c, r) -> c < 128 -> bs = n2b c :: r.
Proof.
  unfold utf8_next, is_cont, cont. destruct bs as [|b0 r0]; [discriminate|]. intros H C.
  destruct (b2n b0 <? 128) eqn:B.
  - injection H as <- <-. rewrite n2b_b2n. reflexivity.
  - exfalso. pose proof (b2n_lt b0).
    repeat match type of H with
           | (if ?x then _ else _) = _ => destruct x eqn:?
           | (match ?x with _ => _ end) = _ => destruct x
           end; try discriminate; injection H as <- _;
      try destruct (b2n b0 =? 224) eqn:?; try destruct (b2n b0 =? 237) eqn:?;
      try destruct (b2n b0 =? 240) eqn:?; try destruct (b2n b0 =? 244) eqn:?; lia.
Qed.

Lemma utf8_decode_small f : forall bs cs, utf8_decode_fuel f bs = Some cs ->
  Forall (fun c => c < 128) cs -> bs = map n2b cs.
Proof.
  induction f as [|f IH]; intros bs cs H F.
  - destruct bs; [|discriminate]. injection H as <-. reflexivity.
  - destruct bs as [|b bs]; [injection H as <-; reflexivity|]. cbn [utf8_decode_fuel] in H.
    destruct (utf8_next (b :: bs)) as [[c r]|] eqn:N; [|discriminate].
    destruct (utf8_decode_fuel f r) as [cs'|] eqn:D; [|discriminate]. injection H as <-.
    inv F. apply utf8_next_small in N; [|assumption]. rewrite N. cbn [map]. f_equal. apply IH; assumption.
Qed.

Lemma first_bad58 cs : Forall ok58 cs \/ exists p c t, cs = p ++ c :: t /\ Forall ok58 p /\ ~ ok58 c.
Proof.
  induction cs as [|c cs IH]; [left; constructor|].
  destruct (ok58_dec c) as [O|O].
  - destruct IH as [F|(p & c' & t & -> & F & B)]; [left; constructor; auto|].
    right. exists (c :: p), c', t. repeat split; auto.
  - right. exists [], c, cs. repeat split; auto.
Qed.

Lemma b58_dec_loop_bad p c t : forall buff, Forall ok58 p -> ~ ok58 c ->
  b58_dec_loop (p ++ c :: t) buff = if c <? 256 then Err (B58BadChar c) else Panic PIndex.
Proof.
  induction p as [|x p IH]; intros buff F B; cbn [app b58_dec_loop].
  - destruct (N.leb_spec 256 c); destruct (N.ltb_spec c 256); try lia; [reflexivity|].
    fold (b58v c). rewrite (b58v_bad c) by assumption. reflexivity.
  - inv F. destruct (b58v_ok x H1) as (V & _ & L).
    destruct (N.leb_spec 256 x); [lia|]. fold (b58v x).
    destruct (Z.eqb_spec (b58v x) (-1)); [lia|]. destruct (Z.ltb_spec (b58v x) 0); [lia|].
    apply IH; assumption.
Qed.

Lemma b58_decode_bad s p c t : utf8_decode s = Some (p ++ c :: t) -> Forall ok58 p -> ~ ok58 c ->
  b58_decode s = if c <? 256 then Err (B58BadChar c) else Panic PIndex.
Proof.
  intros D F B. destruct s as [|x s].
  { exfalso. vm_compute in D. destruct p; discriminate. }
  unfold b58_decode, utf8_chars. rewrite D. rewrite b58_dec_loop_bad by assumption.
  destruct (c <? 256); reflexivity.
Qed.

Lemma ok58_in c : ok58 c -> In (n2b c) bitcoin58.
Proof. intros (b & H & ->). rewrite n2b_b2n. exact H. Qed.

Lemma b58_decode_ok_iff s b : utf8 s ->
  (b58_decode s = Ok b <-> numeral 58 bitcoin58 b s).
Proof.
  intros U. split; [|apply numeral58_decode]. intros E.
  apply utf8_valid_iff in U. unfold utf8_valid in U. destruct (utf8_decode s) as [cs|] eqn:D; [|discriminate].
  destruct (first_bad58 cs) as [F|(p & c & t & -> & F & B)].
  - assert (s = map n2b cs) as Es.
    { eapply utf8_decode_small; [exact D|]. eapply Forall_impl; [|exact F].
      intros c H. apply b58v_ok in H. tauto. }
    assert (O : ok58s s).
    { rewrite Es. unfold ok58s. apply Forall_map. eapply Forall_impl; [|exact F]. exact ok58_in. }
    destruct (b58_decode_digits s O) as (b' & E' & V & L). rewrite E' in E. injection E as ->.
    destruct (b58ds_spec s O) as (F2 & N2). exists (b58ds s). auto.
  - rewrite (b58_decode_bad s p c t D F B) in E. destruct (c <? 256); discriminate.
Qed.

Lemma b58_roundtrip {E} b : (b = [] \/ value 256 (map b2n b) <> 0) ->
  exists s, @b58_encode E b = Ok s /\ b58_decode s = Ok b.
Proof.
  intros H. destruct (@b58_encode_numeral E b H) as (s & E1 & N). exists s. split; [exact E1|].
  apply numeral58_decode, N.
Qed.

Lemma b58_zeros_decode n : b58_decode (repeat x31 n) = Ok (repeat x00 n).
Proof.
  apply numeral58_decode. exists (repeat 0 n). repeat split.
  - apply Forall_forall. intros x X. apply repeat_spec in X. subst. lia.
  - induction n as [|n IH]; [reflexivity|]. cbn [repeat map]. rewrite <- IH. reflexivity.
  - change Byte.to_N with b2n. rewrite map_b2n_zeros, !value_repeat0. reflexivity.
  - change Byte.to_N with b2n. rewrite map_b2n_zeros. reflexivity.
Qed.
