(** Facts about the parser of secret phrases (Mnemonic.v) against BIP-39 (SpecPhrase.v). *)

From Coq Require Import Lia ZifyBool ZifyNat ZifyN Sorting.Sorted.
From Verif Require Import Base BaseFacts SpecText NumFacts Sha2 HashFacts Words Mnemonic SpecPhrase.
Local Open Scope N_scope.

(** ** Words of a text *)
Lemma blank_iff b : is_blank b = true <-> blank b.
Proof.
  unfold blank. rewrite <- existsb_byte_in. apply eq_iff_eq_true.
  assert (A : forall b, Bool.eqb (is_blank b) (existsb (byte_eqb b) [x09; x0a; x0b; x0c; x0d; x20]) = true) by (apply all_byte_spec; vm_compute; reflexivity).
  apply eqb_prop, A.
Qed.
Lemma not_blank_iff b : is_blank b = false <-> ~ blank b.
Proof. rewrite <- blank_iff. now destruct (is_blank b). Qed.
Lemma split_gap g t : gap g -> split_ws [] (g ++ t) = split_ws [] t.
Proof. induction 1 as [|b g B _ IH]; [reflexivity|]. cbn [app split_ws]. rewrite (proj2 (blank_iff b) B). exact IH. Qed.
Lemma split_letters w : Forall (fun b => ~ blank b) w -> forall cur t, split_ws cur (w ++ t) = split_ws (rev w ++ cur) t.
Proof.
  induction 1 as [|b w B _ IH]; intros cur t; [reflexivity|]. cbn [app split_ws rev]. rewrite (proj2 (not_blank_iff b) B), IH, <- app_assoc. reflexivity.
Qed.
Lemma rev_nonempty {A} (w : list A) : w <> [] -> rev w <> [].
Proof. intros N E. apply N. now rewrite <- (rev_involutive w), E. Qed.
Lemma spells_split t ws : spells t ws -> split_whitespace t = ws.
Proof.
  unfold split_whitespace. induction 1 as [g G|g w G [N L]|g w b t ws G [N L] B S IH].
  - now rewrite <- (app_nil_r g), split_gap.
  - rewrite split_gap by exact G. rewrite <- (app_nil_r w) at 1. rewrite split_letters by exact L. rewrite app_nil_r. cbn [split_ws].
    destruct (rev w) eqn:E; [now apply rev_nonempty in N|]. now rewrite <- E, rev_involutive.
  - rewrite split_gap, split_letters by assumption. rewrite app_nil_r. cbn [split_ws]. rewrite (proj2 (blank_iff b) B).
    destruct (rev w) eqn:E; [now apply rev_nonempty in N|]. now rewrite <- E, rev_involutive, IH.
Qed.
Lemma spells_gap g t ws : gap g -> spells t ws -> spells (g ++ t) ws.
Proof.
  intros G S. destruct S as [g' G'|g' w G' W|g' w b t ws G' W B S].
  - constructor. now apply Forall_app.
  - rewrite app_assoc. constructor; [now apply Forall_app|exact W].
  - rewrite app_assoc. constructor; [now apply Forall_app|assumption..].
Qed.
Lemma split_spells_at t : forall cur, Forall (fun b => ~ blank b) cur -> spells (rev cur ++ t) (split_ws cur t).
Proof.
  induction t as [|b t IH]; intros cur C; cbn [split_ws].
  - destruct cur as [|c cur]; [constructor; constructor|]. rewrite app_nil_r. apply (spells_last []); [constructor|].
    split; [apply rev_nonempty; discriminate|]. now apply Forall_rev.
  - destruct (is_blank b) eqn:B.
    + apply blank_iff in B. destruct cur as [|c cur].
      * apply (spells_gap [b]); [now constructor|]. apply (IH []). constructor.
      * apply (spells_more []); [constructor| |exact B|apply (IH []); constructor].
        split; [apply rev_nonempty; discriminate|]. now apply Forall_rev.
    + apply not_blank_iff in B. assert (C' : Forall (fun b => ~ blank b) (b :: cur)) by (constructor; assumption). specialize (IH (b :: cur) C'). cbn [rev] in IH. now rewrite <- app_assoc in IH.
Qed.
Lemma split_iff t ws : split_whitespace t = ws <-> spells t ws.
Proof. split; [|apply spells_split]. intros <-. apply (split_spells_at t []). constructor. Qed.

(** ** The list *)
Definition key (w : bytes) : N := be_val (w ++ repeat x00 (8 - length w)).
Fixpoint rising (l : list N) : bool :=
  match l with a :: (b :: _) as r => (a <? b) && rising r | _ => true end.
Lemma rising_sorted l : rising l = true -> Sorted N.lt l.
Proof.
  induction l as [|a [|b r] IH]; intros H; [constructor|repeat constructor|]. cbn in H. apply andb_prop in H as [L H].
  constructor; [now apply IH|]. constructor. lia.
Qed.
Lemma sorted_NoDup l : StronglySorted N.lt l -> NoDup l.
Proof.
  induction 1 as [|a l S IH F]; constructor; [|exact IH]. intros I. rewrite Forall_forall in F. specialize (F _ I). lia.
Qed.
Lemma english_rising : rising (map key english) = true.
Proof. vm_compute. reflexivity. Qed.
Lemma english_length : length english = 2048%nat.
Proof. vm_compute. reflexivity. Qed.
Lemma english_NoDup : NoDup english.
Proof.
  apply (NoDup_map_inv key). apply sorted_NoDup, Sorted_StronglySorted; [|apply rising_sorted, english_rising].
  intros a b c. apply N.lt_trans.
Qed.
Definition lower_word (w : bytes) : bool :=
  Nat.leb 3 (length w) && Nat.leb (length w) 8 && forallb (fun b => (97 <=? b2n b) && (b2n b <=? 122)) w.
Lemma english_lower : forallb lower_word english = true.
Proof. vm_compute. reflexivity. Qed.
Lemma english_prefixes : rising (map (fun w => key (firstn 4 w)) english) = true.
Proof. vm_compute. reflexivity. Qed.
Global Opaque english.

Lemma known_word w : known w -> word w.
Proof.
  intros I. pose proof english_lower as L. rewrite forallb_forall in L. specialize (L _ I). unfold lower_word in L.
  apply andb_prop in L as [L F]. apply andb_prop in L as [A B]. split; [intros ->; discriminate|].
  apply Forall_forall. intros b Ib. rewrite forallb_forall in F. specialize (F _ Ib). apply not_blank_iff. unfold is_blank. lia.
Qed.

Lemma position_none w l : forall i, position w l i = None <-> ~ In w l.
Proof.
  induction l as [|x l IH]; intros i; cbn [position]; [split; [intros _ []|reflexivity]|].
  destruct (bytes_eqb_spec w x) as [->|N]; [split; [discriminate|intros X; destruct X; now left]|].
  rewrite IH. cbn [In]. split; [intros A [E|I]; [now apply N|now apply A]|tauto].
Qed.
Lemma position_some w l : NoDup l -> forall i n, position w l i = Some n <-> (i <= n /\ nth_error l (N.to_nat (n - i)) = Some w).
Proof.
  induction l as [|x l IH]; intros D i n; cbn [position]; [split; [discriminate|intros [_ X]; destruct (N.to_nat (n - i)); discriminate]|].
  inversion D as [|? ? NI D']; subst. destruct (bytes_eqb_spec w x) as [->|N].
  - split.
    + intros [= <-]. split; [lia|]. rewrite N.sub_diag. reflexivity.
    + intros [L E]. destruct (N.eq_dec i n) as [->|Ne]; [reflexivity|]. exfalso.
      replace (N.to_nat (n - i)) with (S (N.to_nat (n - i - 1))) in E by lia. cbn [nth_error] in E. apply nth_error_In in E. now apply NI.
  - rewrite (IH D'). split.
    + intros [L E]. split; [lia|]. replace (N.to_nat (n - i)) with (S (N.to_nat (n - (i + 1)))) by lia. exact E.
    + intros [L E]. destruct (N.eq_dec i n) as [->|Ne].
      * rewrite N.sub_diag in E. cbn [N.to_nat nth_error] in E. injection E as E. destruct (N (eq_sym E)).
      * split; [lia|]. replace (N.to_nat (n - i)) with (S (N.to_nat (n - (i + 1)))) in E by lia. exact E.
Qed.
Definition numbered (n : N) (w : bytes) : Prop := nth_error english (N.to_nat n) = Some w.
Lemma find_some w n : find_word w = Some n <-> numbered n w.
Proof. unfold find_word. rewrite (position_some w english english_NoDup), N.sub_0_r. unfold numbered. split; [tauto|]. intros E. split; [lia|exact E]. Qed.
Lemma find_none w : find_word w = None <-> ~ known w.
Proof. apply position_none. Qed.
Lemma numbered_fun n m w : numbered n w -> numbered m w -> n = m.
Proof. intros A B. apply find_some in A, B. congruence. Qed.
Lemma numbered_lt n w : numbered n w -> n < 2048.
Proof. intros A. assert (L : (N.to_nat n < length english)%nat) by (apply nth_error_Some; unfold numbered in A; congruence). rewrite english_length in L. lia. Qed.
Lemma numbered_known n w : numbered n w -> known w.
Proof. apply nth_error_In. Qed.
Lemma known_numbered w : known w -> exists n, numbered n w.
Proof. intros I. apply In_nth_error in I as [k K]. exists (N.of_nat k). unfold numbered. now rewrite Nat2N.id. Qed.
Lemma number_named n : n < 2048 -> exists w, numbered n w.
Proof.
  intros L. unfold numbered. destruct (nth_error english (N.to_nat n)) as [w|] eqn:E; [eauto|]. exfalso.
  apply nth_error_None in E. rewrite english_length in E. lia.
Qed.

Lemma find_words_ok ws : forall i ns, find_words ws i = inr ns <-> Forall2 numbered ns ws.
Proof.
  induction ws as [|w ws IH]; intros i ns; cbn [find_words].
  - split; [intros [= <-]; constructor|intros F; inversion F; reflexivity].
  - destruct (find_word w) as [n|] eqn:E.
    + apply find_some in E. destruct (find_words ws (i + 1)) as [e|r] eqn:R.
      * split; [discriminate|]. intros F. inversion F as [|? ? m ? N F']; subst. apply (IH (i + 1)) in F'. congruence.
      * apply IH in R. split; [intros [= <-]; now constructor|]. intros F. inversion F as [|m ? ms ? N F']; subst.
        apply (IH (i + 1)) in F'. apply (IH (i + 1)) in R. f_equal. f_equal; [now apply (numbered_fun n m w)|congruence].
    + split; [discriminate|]. intros F. inversion F as [|m ? ms ? N F']; subst. apply find_none in E. exfalso. apply E.
      now apply (numbered_known m).
Qed.
Lemma find_words_err ws : forall i e, find_words ws i = inl e <->
  exists a w b, ws = a ++ w :: b /\ Forall known a /\ ~ known w /\ e = UnknownWord (i + lenN a).
Proof.
  induction ws as [|w ws IH]; intros i e; cbn [find_words].
  - split; [discriminate|]. intros (a & w & b & E & _). destruct a; discriminate.
  - destruct (find_word w) as [n|] eqn:E.
    + apply find_some, numbered_known in E. destruct (find_words ws (i + 1)) as [f|r] eqn:R.
      * apply IH in R as (a & x & b & -> & Ka & Nx & Ef). split.
        -- intros [= <-]. exists (w :: a), x, b. split; [reflexivity|]. split; [now constructor|]. split; [exact Nx|]. rewrite Ef. f_equal. rewrite lenN_cons. lia.
        -- intros (a' & x' & b' & EQ & Ka' & Nx' & ->). destruct a' as [|y a']; [injection EQ as <- _; contradiction|].
           injection EQ as <- EQ. inversion Ka' as [|? ? _ Ka'']; subst.
           assert (X : inl (UnknownWord (i + 1 + lenN a)) = inl (UnknownWord (i + 1 + lenN a')) :> bip39_err + list N).
           { transitivity (find_words (a ++ x :: b) (i + 1)); [symmetry; apply IH; exists a, x, b; auto|]. apply IH. exists a', x', b'. auto. }
           injection X as X. f_equal. f_equal. rewrite lenN_cons. lia.
      * split; [discriminate|]. intros (a & x & b & EQ & Ka & Nx & ->). destruct a as [|y a]; [injection EQ as <- _; contradiction|].
        injection EQ as <- EQ. inversion Ka as [|? ? _ Ka']; subst.
        assert (X : find_words (a ++ x :: b) (i + 1) = inl (UnknownWord (i + 1 + lenN a))) by (apply IH; exists a, x, b; auto). congruence.
    + apply find_none in E. split.
      * intros [= <-]. exists [], w, ws. rewrite lenN_nil, N.add_0_r. auto.
      * intros (a & x & b & EQ & Ka & Nx & ->). destruct a as [|y a]; [rewrite lenN_nil, N.add_0_r; reflexivity|].
        injection EQ as <- EQ. inversion Ka; contradiction.
Qed.

(** ** Bits *)
Definition bval (l : list bool) : N := value 2 (map N.b2n l).
Lemma bval_app a b : bval (a ++ b) = bval a * 2 ^ lenN b + bval b.
Proof. unfold bval. rewrite map_app, value_app, map_length. reflexivity. Qed.
Lemma b2n_small l : Forall (fun d => d < 2) (map N.b2n l).
Proof. apply Forall_forall. intros d I. apply in_map_iff in I as (b & <- & _). destruct b; cbn; lia. Qed.
Lemma bval_bound l : bval l < 2 ^ lenN l.
Proof. unfold bval, lenN. rewrite <- (map_length N.b2n l). apply value_bound; [lia|apply b2n_small]. Qed.
Lemma bval_inj a b : length a = length b -> bval a = bval b -> a = b.
Proof.
  intros L V. assert (E : map N.b2n a = map N.b2n b).
  { apply (value_inj_len 2); [lia|apply b2n_small|apply b2n_small|now rewrite !map_length|exact V]. }
  clear - E. revert b E. induction a as [|x a IH]; intros [|y b] E; try discriminate; [reflexivity|].
  injection E as X E. f_equal; [now destruct x, y|now apply IH].
Qed.

Definition topbits (k : nat) (n : N) : list bool := map (fun j => N.testbit n (N.of_nat k - 1 - N.of_nat j)) (seq 0 k).
Lemma topbits_length k n : length (topbits k n) = k.
Proof. unfold topbits. now rewrite map_length, seq_length. Qed.
Lemma topbits_S k n : topbits (S k) n = topbits k (n / 2) ++ [N.testbit n 0].
Proof.
  unfold topbits. rewrite seq_S, map_app. cbn [map Nat.add]. f_equal.
  - apply map_ext_in. intros j I. apply in_seq in I. rewrite <- N.div2_div, N.div2_spec, N.shiftr_spec by lia. f_equal. lia.
  - f_equal. f_equal. lia.
Qed.
Lemma topbits_val k : forall n, bval (topbits k n) = n mod 2 ^ N.of_nat k.
Proof.
  induction k as [|k IH]; intros n; [cbn; now rewrite N.mod_1_r|].
  rewrite topbits_S, bval_app, IH. change (2 ^ lenN [N.testbit n 0]) with 2. change (bval [N.testbit n 0]) with (N.b2n (N.testbit n 0)).
  rewrite N.bit0_mod, pow_S. rewrite (N.mul_comm (_ mod _)). rewrite N.add_comm. symmetry. apply N.mod_mul_r; [lia|]. apply N.pow_nonzero. lia.
Qed.
Lemma bits11_top n : bits11 n = topbits 11 n.
Proof. reflexivity. Qed.
Lemma bits11_val n : n < 2048 -> bval (bits11 n) = n.
Proof. intros L. rewrite bits11_top, topbits_val. now apply N.mod_small. Qed.

Lemma all_bits ns : Forall (fun n => n < 2048) ns -> bval (concat (map bits11 ns)) = value 2048 ns /\ length (concat (map bits11 ns)) = (length ns * 11)%nat.
Proof.
  induction 1 as [|n ns L _ [V S]]; [split; reflexivity|]. cbn [map concat length]. split.
  - rewrite bval_app, bits11_val, V, value_cons by exact L. f_equal. f_equal. unfold lenN. rewrite S.
    rewrite Nat2N.inj_mul. change (N.of_nat 11) with 11. rewrite N.mul_comm, N.pow_mul_r. reflexivity.
  - rewrite app_length, S. cbn [length]. unfold bits11. rewrite map_length, seq_length. lia.
Qed.

Lemma nth_skipn {A} (d : A) k : forall l j, nth j (skipn k l) d = nth (k + j) l d.
Proof. induction k as [|k IH]; intros [|x l] j; cbn; [reflexivity..|now destruct j|apply IH]. Qed.
Lemma byte_at_val bits i : (i * 8 + 8 <= length bits)%nat -> b2n (byte_at bits i) = bval (firstn 8 (skipn (i * 8) bits)).
Proof.
  intros L. unfold byte_at.
  assert (E : forall a, fold_left (fun a j => if nth (i * 8 + j) bits false then a + 2 ^ (7 - N.of_nat j) else a) (seq 0 8) a
            = fold_left (fun a j => if nth j (skipn (i * 8) bits) false then a + 2 ^ (7 - N.of_nat j) else a) (seq 0 8) a).
  { intros a. cbn [seq fold_left]. rewrite !nth_skipn. reflexivity. }
  rewrite E. assert (S : (8 <= length (skipn (i * 8) bits))%nat) by (rewrite skipn_length; lia). clear E L. revert S. generalize (skipn (i * 8) bits). intros l S.
  do 8 (destruct l as [|? l]; [cbn in S; lia|]). clear S. cbn [nth seq firstn fold_left].
  repeat match goal with b : bool |- _ => destruct b end; vm_compute; reflexivity.
Qed.
Lemma firstn_more {A} a b (l : list A) : firstn (a + b) l = firstn a l ++ firstn b (skipn a l).
Proof. revert l. induction a as [|a IH]; intros [|x l]; cbn; [reflexivity..|now rewrite firstn_nil|]. now rewrite IH. Qed.
Lemma entropy_length nb bits : length (entropy_of nb bits) = nb.
Proof. unfold entropy_of. now rewrite map_length, seq_length. Qed.
Lemma entropy_val nb bits : (nb * 8 <= length bits)%nat -> be_val (entropy_of nb bits) = bval (firstn (nb * 8) bits).
Proof.
  induction nb as [|nb IH]; intros L; [reflexivity|]. unfold entropy_of in *. rewrite seq_S, map_app. cbn [map Nat.add].
  rewrite be_val_snoc, IH by lia. rewrite byte_at_val by lia. replace (S nb * 8)%nat with (nb * 8 + 8)%nat by lia. rewrite firstn_more, bval_app. f_equal. f_equal.
  unfold lenN. rewrite firstn_length, skipn_length. replace (Nat.min 8 (length bits - nb * 8)) with 8%nat by lia. reflexivity.
Qed.

Definition bits_of (bs : bytes) : list bool := concat (map (fun b => topbits 8 (b2n b)) bs).
Lemma bits_of_length bs : length (bits_of bs) = (length bs * 8)%nat.
Proof. unfold bits_of. induction bs as [|b bs IH]; [reflexivity|]. cbn [map concat length]. rewrite app_length, IH, topbits_length. lia. Qed.
Lemma bits_of_val bs : bval (bits_of bs) = be_val bs.
Proof.
  induction bs as [|b bs IH]; [reflexivity|]. change (bits_of (b :: bs)) with (topbits 8 (b2n b) ++ bits_of bs).
  rewrite bval_app, IH, topbits_val, be_val_cons. pose proof (b2n_lt b) as L. rewrite N.mod_small by exact L. f_equal. f_equal.
  unfold lenN. rewrite bits_of_length, Nat2N.inj_mul. change (N.of_nat 8) with 8. rewrite N.mul_comm, N.pow_mul_r. reflexivity.
Qed.
Lemma check_bit_nth check : forall i, (i < length check * 8)%nat -> check_bit check i = nth i (bits_of check) false.
Proof.
  unfold check_bit. induction check as [|b check IH]; intros i L; [cbn in L; lia|].
  change (bits_of (b :: check)) with (topbits 8 (b2n b) ++ bits_of check). destruct (Nat.lt_ge_cases i 8) as [S|S].
  - rewrite app_nth1 by (rewrite topbits_length; exact S). rewrite Nat.div_small, Nat.mod_small by exact S. cbn [nth].
    unfold topbits. rewrite (nth_indep _ false (N.testbit (b2n b) (N.of_nat 8 - 1 - N.of_nat 0))) by (rewrite map_length, seq_length; exact S).
    rewrite (map_nth (fun j => N.testbit (b2n b) (N.of_nat 8 - 1 - N.of_nat j))), seq_nth by exact S. f_equal.
  - rewrite app_nth2 by (rewrite topbits_length; exact S). rewrite topbits_length, <- IH by (cbn [length] in L; lia).
    assert (E : i = (i - 8 + 1 * 8)%nat) by lia. rewrite E at 1 2. rewrite Nat.div_add, Nat.mod_add by lia. rewrite Nat.add_1_r. reflexivity.
Qed.
Lemma forallb_seq f n : forallb f (seq 0 n) = true <-> forall i, (i < n)%nat -> f i = true.
Proof. rewrite forallb_forall. split; intros H i I; apply H; [apply in_seq; lia|]. apply in_seq in I. lia. Qed.
Lemma nth_firstn {A} (d : A) k : forall l j, (j < k)%nat -> nth j (firstn k l) d = nth j l d.
Proof. induction k as [|k IH]; intros [|x l] [|j] L; cbn; [lia..|reflexivity|reflexivity|reflexivity|]. apply IH. lia. Qed.
Lemma check_iff bits nb k check : length bits = (8 * nb + k)%nat -> (k <= length check * 8)%nat ->
  forallb (fun i => Bool.eqb (nth (8 * nb + i) bits false) (check_bit check i)) (seq 0 k) = true <-> skipn (8 * nb) bits = firstn k (bits_of check).
Proof.
  intros L K. rewrite forallb_seq. split.
  - intros H. apply (nth_ext _ _ false false).
    + rewrite skipn_length, firstn_length, bits_of_length. lia.
    + intros i I. rewrite skipn_length in I. rewrite nth_skipn, nth_firstn by lia. specialize (H i). rewrite check_bit_nth in H by lia. apply eqb_prop, H. lia.
  - intros E i I. rewrite <- nth_skipn, E, nth_firstn, check_bit_nth by lia. apply eqb_reflx.
Qed.
Lemma top_val check k : (k <= length check * 8)%nat -> bval (firstn k (bits_of check)) = be_val check / 2 ^ (lenN check * 8 - N.of_nat k).
Proof.
  intros K. assert (V : be_val check = bval (firstn k (bits_of check)) * 2 ^ lenN (skipn k (bits_of check)) + bval (skipn k (bits_of check))).
  { now rewrite <- bval_app, firstn_skipn, bits_of_val. }
  assert (E : lenN (skipn k (bits_of check)) = lenN check * 8 - N.of_nat k) by (unfold lenN; rewrite skipn_length, bits_of_length; lia).
  pose proof (bval_bound (skipn k (bits_of check))) as B. rewrite E in *. rewrite V, N.add_comm, N.div_add by (apply N.pow_nonzero; lia).
  now rewrite (N.div_small _ _ B).
Qed.

(** ** Sentences *)
Lemma number_be bs : number bs = be_val bs.
Proof. symmetry. apply be_val_value. Qed.
Lemma bad_count_iff n : bad_count n = false <-> fair_count n.
Proof.
  unfold bad_count, fair_count. split.
  - intros H. apply orb_false_elim in H as [H M]. apply orb_false_elim in H as [A B]. apply Nat.ltb_ge in A, B.
    do 25 (destruct n as [|n]; [cbn in *; first [lia|discriminate|tauto]|]). lia.
  - cbn [In]. intros H. repeat (destruct H as [<-|H]; [reflexivity|]). destruct H.
Qed.
Lemma Forall2_numbered ns ws : Forall2 numbered ns ws -> Forall (fun n => n < 2048) ns /\ length ns = length ws /\ Forall known ws.
Proof.
  induction 1 as [|n w ns ws N _ (A & B & C)]; [repeat split; constructor|]. split; [constructor; [now apply (numbered_lt n w)|exact A]|].
  split; [cbn; now rewrite B|]. constructor; [now apply (numbered_known n)|exact C].
Qed.
Lemma numbers_fun ns ms ws : Forall2 numbered ns ws -> Forall2 numbered ms ws -> ns = ms.
Proof. intros A B. apply (find_words_ok ws 0) in A, B. congruence. Qed.

(** Cutting a number of [11 n] bits into entropy and checksum. *)
Lemma cut_unique a b c d m : b < m -> d < m -> a * m + b = c * m + d -> a = c /\ b = d.
Proof.
  intros B D E. assert (A : a = c).
  { apply (f_equal (fun x => x / m)) in E. rewrite !(N.add_comm (_ * _)), !N.div_add in E by lia. now rewrite !N.div_small in E. }
  subst c. split; [reflexivity|]. lia.
Qed.
Lemma checksum_small ent : In (length ent) [16; 20; 24; 28; 32]%nat -> number (sha256 ent) / 2 ^ (256 - checksum_bits ent) < 2 ^ checksum_bits ent.
Proof.
  intros I. apply N.div_lt_upper_bound; [apply N.pow_nonzero; lia|]. rewrite <- N.pow_add_r.
  assert (C : checksum_bits ent <= 8) by (unfold checksum_bits; cbn [In] in I; lia).
  replace (256 - checksum_bits ent + checksum_bits ent) with 256 by lia. rewrite number_be. pose proof (be_val_bound (sha256 ent)) as B.
  rewrite sha256_length in B. exact B.
Qed.
Lemma sentence_fun ent ent' ws : sentence ent ws -> sentence ent' ws -> ent = ent'.
Proof.
  intros (I & L & ns & F & V) (I' & L' & ns' & F' & V'). rewrite <- (numbers_fun _ _ _ F F') in V'.
  assert (E : length ent = length ent') by lia. assert (C : checksum_bits ent = checksum_bits ent') by (unfold checksum_bits; now rewrite E).
  pose proof (checksum_small ent I) as S. pose proof (checksum_small ent' I') as S'.
  unfold with_checksum in V, V'. rewrite <- C in *. rewrite V in V'. apply cut_unique in V' as [V' _]; [|exact S|exact S'].
  rewrite !number_be in V'. now apply be_val_inj.
Qed.
Lemma entropy_sentence ent : In (length ent) [16; 20; 24; 28; 32]%nat -> exists ws, sentence ent ws.
Proof.
  intros I. set (n := (length ent / 4 * 3)%nat).
  assert (B : with_checksum ent < 2048 ^ N.of_nat n).
  { unfold with_checksum. pose proof (checksum_small ent I) as S. pose proof (be_val_bound ent) as M. rewrite <- number_be in M.
    assert (X : 2048 ^ N.of_nat n = 256 ^ N.of_nat (length ent) * 2 ^ checksum_bits ent).
    { change 2048 with (2 ^ 11). change 256 with (2 ^ 8). rewrite <- !N.pow_mul_r, <- N.pow_add_r. f_equal. unfold checksum_bits, n. cbn [In] in I. lia. }
    rewrite X. set (p := 2 ^ checksum_bits ent) in *. clearbody p. revert S M. generalize (256 ^ N.of_nat (length ent)) (number ent) (number (sha256 ent) / 2 ^ (256 - checksum_bits ent)).
    intros q a b S M. nia. }
  assert (D : forall k v, v < 2048 ^ N.of_nat k -> exists ns ws, Forall2 numbered ns ws /\ length ws = k /\ value 2048 ns = v).
  { clear. induction k as [|k IH]; intros v L.
    - exists [], []. split; [constructor|]. split; [reflexivity|]. cbn in *. lia.
    - rewrite pow_S in L. destruct (IH (v / 2048)) as (ns & ws & F & E & V); [apply N.div_lt_upper_bound; lia|].
      destruct (number_named (v mod 2048)) as (w & W); [apply N.mod_lt; lia|].
      exists (ns ++ [v mod 2048]), (ws ++ [w]). split; [apply Forall2_app; [exact F|now repeat constructor]|].
      split; [rewrite app_length, E; cbn; lia|]. rewrite value_snoc, V. rewrite N.mul_comm. symmetry. apply N.div_mod. lia. }
  destruct (D n _ B) as (ns & ws & F & L & V). exists ws. split; [exact I|]. split; [unfold n in L; cbn [In] in I; lia|]. exists ns. auto.
Qed.
Lemma sentence_words ent ws ws' : sentence ent ws -> sentence ent ws' -> ws = ws'.
Proof.
  intros (I & L & ns & F & V) (_ & L' & ns' & F' & V'). rewrite <- V' in V. pose proof (Forall2_numbered _ _ F) as (A & B & _).
  pose proof (Forall2_numbered _ _ F') as (A' & B' & _). apply value_inj_len in V; [|lia|exact A|exact A'|lia]. subst ns'.
  clear - F F'. revert ws' F'. induction F as [|n w ns ws N F IH]; intros ws' F'; inversion F' as [|? w' ? ws2 N' F2]; subst; [reflexivity|].
  f_equal; [unfold numbered in *; congruence|now apply IH].
Qed.
Lemma sentence_known ent ws : sentence ent ws -> Forall known ws /\ fair_count (length ws).
Proof.
  intros (I & L & ns & F & _). split; [now apply (Forall2_numbered ns ws)|]. unfold fair_count. cbn [In] in *. lia.
Qed.

Lemma checked_iff ws ns : fair_count (length ws) -> Forall2 numbered ns ws ->
  let bits := concat (map bits11 ns) in let nb := (length ws / 3 * 4)%nat in
  forallb (fun i => Bool.eqb (nth (8 * nb + i) bits false) (check_bit (sha256 (entropy_of nb bits)) i)) (seq 0 (nb / 4)) = true
  <-> exists ent, sentence ent ws.
Proof.
  intros C F bits nb. pose proof (Forall2_numbered _ _ F) as (S & L & _). destruct (all_bits ns S) as [V B]. fold bits in V, B. rewrite L in B.
  set (ent := entropy_of nb bits). assert (K : (nb / 4 = length ws / 3)%nat) by (unfold nb; apply Nat.div_mul; lia).
  assert (I : In nb [16; 20; 24; 28; 32]%nat) by (unfold nb, fair_count in *; cbn [In] in C; repeat (destruct C as [<-|C]; [cbn; tauto|]); destruct C).
  assert (Q : (length ws * 11 = 8 * nb + nb / 4)%nat) by (unfold nb, fair_count in *; cbn [In] in C; repeat (destruct C as [<-|C]; [reflexivity|]); destruct C).
  assert (R : (length ws * 4 = nb * 3)%nat) by (unfold nb, fair_count in *; cbn [In] in C; repeat (destruct C as [<-|C]; [reflexivity|]); destruct C).
  assert (Le : length ent = nb) by apply entropy_length.
  assert (Cb : checksum_bits ent = N.of_nat (nb / 4)) by (unfold checksum_bits; rewrite Le, Nat2N.inj_div; reflexivity).
  assert (KB : (nb / 4 <= length (sha256 ent) * 8)%nat) by (rewrite sha256_length; cbn [In] in I; lia).
  rewrite (check_iff bits nb (nb / 4) (sha256 ent)) by (assumption || lia).
  assert (Cut : value 2048 ns = number ent * 2 ^ N.of_nat (nb / 4) + bval (skipn (8 * nb) bits)).
  { rewrite <- V, <- (firstn_skipn (8 * nb) bits) at 1. rewrite bval_app, number_be. unfold ent. rewrite entropy_val by lia. rewrite (Nat.mul_comm nb 8). f_equal. f_equal. f_equal.
    unfold lenN. rewrite skipn_length, B, Q. f_equal. lia. }
  assert (T : bval (firstn (nb / 4) (bits_of (sha256 ent))) = number (sha256 ent) / 2 ^ (256 - checksum_bits ent)).
  { rewrite top_val by exact KB. unfold lenN. rewrite sha256_length, number_be, Cb. reflexivity. }
  split.
  - intros E. exists ent. split; [now rewrite Le|]. split; [now rewrite Le|]. exists ns. split; [exact F|].
    unfold with_checksum. rewrite Cut, E, T, Cb. reflexivity.
  - intros (ent' & I' & L' & ns' & F' & V'). rewrite <- (numbers_fun _ _ _ F F') in V'. pose proof (checksum_small ent' I') as S'.
    assert (Le' : length ent' = length ent) by (clear - L' R Le; lia). assert (C' : checksum_bits ent' = checksum_bits ent) by (unfold checksum_bits; now rewrite Le').
    unfold with_checksum in V'. rewrite C', Cb in *. rewrite Cut in V'. apply cut_unique in V' as [X Y]; [| |exact S'].
    + rewrite !number_be in X. apply be_val_inj in X; [|now rewrite Le']. subst ent'. apply bval_inj.
      * rewrite skipn_length, firstn_length, bits_of_length, B, Q, sha256_length. cbn [In] in I. lia.
      * rewrite T. exact Y.
    + pose proof (bval_bound (skipn (8 * nb) bits)) as W. unfold lenN in W. rewrite skipn_length, B, Q in W.
      rewrite Nat.add_comm, Nat.add_sub in W. exact W.
Qed.

(** ** The parser *)
Definition told (f : fault) : bip39_err :=
  match f with NotThatMany n => BadWordCount (N.of_nat n) | NoSuchWord i => UnknownWord (N.of_nat i) | WrongChecksum => InvalidChecksum end.
Definition parsed (ws : list bytes) : bip39_err + list N := match language_of ws with inl e => inl e | inr _ => parse_words ws end.
Lemma parsed_ok ws ns : parsed ws = inr ns <-> Forall2 numbered ns ws /\ exists ent, sentence ent ws.
Proof.
  unfold parsed, parse_words. split.
  - destruct (language_of ws) as [e|]; [discriminate|]. destruct (bad_count (length ws)) eqn:C; [discriminate|]. apply bad_count_iff in C.
    destruct (find_words ws 0) as [e|ms] eqn:F; [discriminate|]. apply find_words_ok in F.
    destruct (forallb _ _) eqn:K; [|discriminate]. intros [= <-]. split; [exact F|]. apply (checked_iff ws ms C F). exact K.
  - intros (F & ent & S). destruct (sentence_known ent ws S) as [A C]. pose proof (proj2 (checked_iff ws ns C F) (ex_intro _ ent S)) as K.
    assert (G : language_of ws = inr tt).
    { destruct ws as [|w ws]; [cbn in C; lia|]. cbn [language_of]. inversion A as [|? ? Kw _]; subst. destruct (find_word w) eqn:E; [reflexivity|]. now apply find_none in E. }
    rewrite G. pose proof (proj2 (bad_count_iff _) C) as C'. rewrite C'. pose proof (proj2 (find_words_ok ws 0 ns) F) as F'. rewrite F', K. reflexivity.
Qed.
Lemma parsed_err ws e : parsed ws = inl e <-> exists f, faulty ws f /\ e = told f.
Proof.
  unfold parsed, parse_words. split.
  - destruct ws as [|w r]; [cbn [language_of]; intros [= <-]; exists (NotThatMany 0); split; [constructor|reflexivity]|].
    cbn [language_of]. destruct (find_word w) as [n|] eqn:E.
    + apply find_some, numbered_known in E. set (ws := w :: r) in *.
      destruct (bad_count (length ws)) eqn:C.
      * intros [= <-]. exists (NotThatMany (length ws)). split; [|reflexivity]. apply faulty_count; [exact E|]. intros X. apply bad_count_iff in X. unfold ws in C. cbn [length] in C. congruence.
      * apply bad_count_iff in C. destruct (find_words ws 0) as [f|ms] eqn:F.
        -- intros [= <-]. apply find_words_err in F as (a & x & b & EQ & Ka & Nx & ->). exists (NoSuchWord (length a)). split; [rewrite EQ; constructor; [assumption..|now rewrite <- EQ]|]. reflexivity.
        -- apply find_words_ok in F. destruct (forallb _ _) eqn:K; [discriminate|]. intros [= <-]. exists WrongChecksum. split; [|reflexivity].
           apply faulty_sum; [now apply (Forall2_numbered ms)|exact C|]. intros ent S. pose proof (proj2 (checked_iff ws ms C F) (ex_intro _ ent S)) as K'. cbn zeta in K'. congruence.
    + intros [= <-]. exists (NoSuchWord 0). split; [|reflexivity]. apply find_none in E. now constructor.
  - intros (f & H & ->). destruct H as [|w r K|w r K C|a w r A K C|ws A C N]; cbn [told].
    + reflexivity.
    + cbn [language_of]. apply find_none in K. now rewrite K.
    + cbn [language_of]. apply known_numbered in K as (n & K). apply find_some in K. rewrite K. destruct (bad_count (length (w :: r))) eqn:B; [reflexivity|].
      apply bad_count_iff in B. contradiction.
    + pose proof (proj2 (bad_count_iff _) C) as C'. rewrite C'.
      assert (F : find_words (a ++ w :: r) 0 = inl (UnknownWord (0 + lenN a))) by (apply find_words_err; exists a, w, r; auto). rewrite F.
      destruct a as [|x a]; [cbn [language_of app]; apply find_none in K; now rewrite K|]. cbn [app language_of].
      inversion A as [|? ? Kx _]; subst. apply known_numbered in Kx as (n & Kx). apply find_some in Kx. rewrite Kx. reflexivity.
    + pose proof (proj2 (bad_count_iff _) C) as C'. rewrite C'.
      assert (G : language_of ws = inr tt).
      { destruct ws as [|w ws]; [cbn in C; lia|]. cbn [language_of]. inversion A as [|? ? Kw _]; subst. destruct (find_word w) eqn:E; [reflexivity|]. now apply find_none in E. }
      rewrite G. destruct (find_words ws 0) as [e|ms] eqn:F.
      * apply find_words_err in F as (a & x & b & -> & _ & Nx & _). apply Forall_app in A as [_ A]. inversion A; contradiction.
      * apply find_words_ok in F. destruct (forallb _ _) eqn:K; [|reflexivity]. exfalso. apply (checked_iff ws ms C F) in K as (ent & S). now apply (N ent).
Qed.
Lemma parse_parsed t ws : spells t ws -> parse_phrase t = parsed ws.
Proof. intros S. apply spells_split in S. unfold parse_phrase, parsed. now rewrite S. Qed.
Lemma every_text t : exists ws, spells t ws.
Proof. exists (split_whitespace t). now apply split_iff. Qed.
Lemma spells_fun t ws ws' : spells t ws -> spells t ws' -> ws = ws'.
Proof. intros A B. apply split_iff in A, B. congruence. Qed.

Lemma spaced_joined ws : spaced ws = joined ws.
Proof.
  destruct ws as [|w ws]; [reflexivity|]. revert w. induction ws as [|x ws IH]; intros w; [cbn; now rewrite app_nil_r|].
  change (spaced (w :: x :: ws)) with (w ++ x20 :: spaced (x :: ws)). rewrite IH. reflexivity.
Qed.
Lemma text_of_numbers ns ws : Forall2 numbered ns ws -> phrase_text ns = joined ws.
Proof.
  intros F. unfold phrase_text. rewrite spaced_joined. f_equal. induction F as [|n w ns ws N _ IH]; [reflexivity|]. cbn [map]. f_equal; [|exact IH].
  unfold numbered in N. now apply nth_error_nth.
Qed.
Lemma joined_spells ws : Forall word ws -> spells (joined ws) ws.
Proof.
  rewrite <- spaced_joined. destruct ws as [|w ws]; [intros _; constructor; constructor|]. intros F. inversion F as [|? ? W F']; subst. revert w W F.
  induction F' as [|x ws X F' IH]; intros w W F; [apply (spells_last []); [constructor|exact W]|].
  change (spaced (w :: x :: ws)) with ([] ++ w ++ x20 :: spaced (x :: ws)). constructor; [constructor|exact W|cbn; tauto|]. apply IH; [exact X|]. now constructor.
Qed.

(** ** The last word *)
Section Last.
  Variables (ws : list bytes) (ns : list N) (k : N).
  Hypotheses (F : Forall2 numbered ns ws) (K : 4 <= k <= 8) (L : N.of_nat (length ws) + 1 = 3 * k).
  Let V := value 2048 ns.
  Let ent (e : N) : bytes := be_bytes (N.to_nat (4 * k)) (V * 2 ^ (11 - k) + e).
  Let top (b : bytes) : N := number (sha256 b) / 2 ^ (256 - k).
  Let place (e : N) : N := e * 2 ^ k + top (ent e).
  Definition last_words : list bytes := map (fun e => nth (N.to_nat (place (N.of_nat e))) english []) (seq 0 (N.to_nat (2 ^ (11 - k)))).

  Lemma ent_size b : length b = N.to_nat (4 * k) -> In (length b) [16; 20; 24; 28; 32]%nat /\ checksum_bits b = k.
  Proof. intros E. unfold checksum_bits. rewrite E, N2Nat.id. cbn [In]. split; lia. Qed.
  Lemma split_2048 : 2048 = 2 ^ (11 - k) * 2 ^ k.
  Proof. rewrite <- N.pow_add_r. replace (11 - k + k) with 11 by lia. reflexivity. Qed.
  Lemma V_bound : V < 2048 ^ (3 * k - 1).
  Proof.
    destruct (Forall2_numbered _ _ F) as (A & B & _). unfold V. replace (3 * k - 1) with (N.of_nat (length ns)) by lia. apply value_bound; [lia|exact A].
  Qed.
  Lemma ent_number e : e < 2 ^ (11 - k) -> number (ent e) = V * 2 ^ (11 - k) + e.
  Proof.
    intros E. rewrite number_be. unfold ent. apply be_val_be_bytes_small. rewrite N2Nat.id.
    pose proof V_bound as B.
    assert (X : 256 ^ (4 * k) = 2048 ^ (3 * k - 1) * 2 ^ (11 - k)).
    { change 2048 with (2 ^ 11). change 256 with (2 ^ 8). rewrite <- !N.pow_mul_r, <- N.pow_add_r. f_equal. lia. }
    rewrite X. revert E B. generalize (2048 ^ (3 * k - 1)) (2 ^ (11 - k)). clear. intros p q E B. nia.
  Qed.
  Lemma top_small b : length b = N.to_nat (4 * k) -> top b < 2 ^ k.
  Proof. intros E. destruct (ent_size b E) as [I C]. pose proof (checksum_small b I) as S. now rewrite C in S. Qed.
  Lemma ent_length e : length (ent e) = N.to_nat (4 * k).
  Proof. apply be_bytes_length. Qed.
  Lemma place_small e : e < 2 ^ (11 - k) -> place e < 2048.
  Proof.
    intros E. pose proof (top_small (ent e) (ent_length e)) as T. rewrite split_2048. unfold place. revert E T. generalize (2 ^ (11 - k)) (2 ^ k) (top (ent e)).
    clear. intros p q t E T. nia.
  Qed.
  Lemma place_inj e e' : place e = place e' -> e = e'.
  Proof.
    intros E. unfold place in E. apply cut_unique in E as [E _]; [exact E|apply top_small, ent_length..].
  Qed.
  Lemma placed e : e < 2 ^ (11 - k) -> numbered (place e) (nth (N.to_nat (place e)) english []).
  Proof. intros E. unfold numbered. apply nth_error_nth'. rewrite english_length. pose proof (place_small e E). lia. Qed.
  Lemma place_sentence e w : e < 2 ^ (11 - k) -> numbered (place e) w -> sentence (ent e) (ws ++ [w]).
  Proof.
    intros E N. destruct (ent_size (ent e) (ent_length e)) as [I C]. split; [exact I|]. split; [rewrite app_length, ent_length; cbn [length]; lia|].
    exists (ns ++ [place e]). split; [apply Forall2_app; [exact F|repeat constructor; exact N]|].
    rewrite value_snoc. unfold with_checksum. rewrite C, (ent_number e E). fold V. fold (top (ent e)). unfold place. rewrite split_2048 at 1.
    generalize (2 ^ (11 - k)) (2 ^ k) (top (ent e)). clear. intros p q t. nia.
  Qed.
  Lemma sentence_place b w : sentence b (ws ++ [w]) -> exists e, e < 2 ^ (11 - k) /\ numbered (place e) w.
  Proof.
    intros (I & Lb & ms & G & W). rewrite app_length in Lb. cbn [length] in Lb. assert (Eb : length b = N.to_nat (4 * k)) by (clear - Lb L K; lia).
    apply Forall2_app_inv_r in G as (ns' & r & G & R & ->). rewrite (numbers_fun _ _ _ G F) in *.
    inversion R as [|m ? r' ? M R' E1 E2]. inversion R' as [E3|]. rewrite <- E1, <- E3 in W. destruct (ent_size b Eb) as [_ C]. rewrite value_snoc in W. fold V in W. unfold with_checksum in W. rewrite C in W.
    fold (top b) in W. pose proof (numbered_lt m w M) as Lm.
    assert (E : m / 2 ^ k < 2 ^ (11 - k)) by (apply N.div_lt_upper_bound; [apply N.pow_nonzero; lia|]; rewrite N.mul_comm, <- split_2048; exact Lm).
    assert (D : m = m / 2 ^ k * 2 ^ k + m mod 2 ^ k) by (rewrite N.mul_comm; apply N.div_mod, N.pow_nonzero; lia).
    assert (Mm : m mod 2 ^ k < 2 ^ k) by (apply N.mod_lt, N.pow_nonzero; lia).
    assert (Q : (V * 2 ^ (11 - k) + m / 2 ^ k) * 2 ^ k + m mod 2 ^ k = number b * 2 ^ k + top b).
    { rewrite <- W. rewrite D at 3. rewrite split_2048 at 1. generalize (m / 2 ^ k) (m mod 2 ^ k) (2 ^ (11 - k)) (2 ^ k). clear. intros a c p q. nia. }
    apply cut_unique in Q as [Q T]; [|exact Mm|now apply top_small].
    assert (X : b = ent (m / 2 ^ k)).
    { unfold ent. rewrite Q, number_be, <- Eb. symmetry. apply be_bytes_be_val. }
    exists (m / 2 ^ k). split; [exact E|]. unfold place. rewrite <- X, <- T, <- D. exact M.
  Qed.
  Lemma in_last_words w : In w last_words <-> exists b, sentence b (ws ++ [w]).
  Proof.
    unfold last_words. rewrite in_map_iff. split.
    - intros (e & <- & I). apply in_seq in I. assert (E : N.of_nat e < 2 ^ (11 - k)) by lia.
      eexists. apply place_sentence; [exact E|]. now apply placed.
    - intros (b & S). apply sentence_place in S as (e & E & N). exists (N.to_nat e). rewrite N2Nat.id. split; [|apply in_seq; lia].
      pose proof (placed e E) as P. unfold numbered in *. congruence.
  Qed.
  Lemma last_words_NoDup : NoDup last_words.
  Proof.
    unfold last_words. assert (A : forall l, NoDup l -> Forall (fun e => N.of_nat e < 2 ^ (11 - k)) l -> NoDup (map (fun e => nth (N.to_nat (place (N.of_nat e))) english []) l)).
    { induction 1 as [|e l NI _ IH]; intros B; [constructor|]. inversion B as [|? ? Be B']; subst. cbn [map]. constructor; [|now apply IH].
      intros I. apply in_map_iff in I as (e' & E & I). rewrite Forall_forall in B'. pose proof (placed _ (B' _ I)) as P. pose proof (placed _ Be) as P'. rewrite E in P.
      pose proof (numbered_fun _ _ _ P P') as X. apply place_inj in X. apply Nat2N.inj in X. now subst e'. }
    apply A; [apply seq_NoDup|]. apply Forall_forall. intros e I. apply in_seq in I. lia.
  Qed.
  Lemma last_words_length : N.of_nat (length last_words) = 2 ^ (11 - k).
  Proof. unfold last_words. rewrite map_length, seq_length. apply N2Nat.id. Qed.
End Last.
