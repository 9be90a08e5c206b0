(** Proofs about reading JSON (C91). *)

From Coq Require Import Strings.String Lia ZifyBool ZifyNat ZifyN.
From Verif Require Import Base BaseFacts SpecUtf8 Utf8 Utf8Facts Utf8Thms SpecText SpecShow Clarity SpecWire ShowFacts Tx SpecTx F64 Rpc SpecClient ClientThms Json SpecJson SpecF64 F64Thms JsonThms JsonRead SpecBody.
Local Open Scope list_scope.
Local Open Scope N_scope.

(** ** Blanks *)
Lemma is_space_blank c : is_space c = true <-> blank c.
Proof. unfold is_space, blank. rewrite !Bool.orb_true_iff, !beq. cbn. intuition congruence. Qed.
Lemma skip_split b : exists w, ws w /\ b = w ++ skip b.
Proof.
  induction b as [|c r (w & W & E)]; [exists []; split; [constructor|reflexivity]|]. cbn [skip]. destruct (is_space c) eqn:S.
  - exists (c :: w). split; [constructor; [now apply is_space_blank|exact W]|]. cbn [app]. now rewrite <- E.
  - exists []. split; [constructor|reflexivity].
Qed.
Lemma skip_ws w r : ws w -> halts blank r -> skip (w ++ r) = r.
Proof.
  intros W H. induction W as [|c w C W IH]; cbn [app].
  - destruct r as [|c r]; [reflexivity|]. cbn [skip]. cbn in H. destruct (is_space c) eqn:S; [|reflexivity].
    apply is_space_blank in S. contradiction.
  - cbn [skip]. now rewrite (proj2 (is_space_blank c) C).
Qed.
Lemma skip_le b : (length (skip b) <= length b)%nat.
Proof. destruct (skip_split b) as (w & _ & E). rewrite E at 2. rewrite app_length. lia. Qed.

(** ** Strings *)
Lemma hex_of_value c n : hex_of c = Some n <-> hex_value c n.
Proof.
  unfold hex_of, hex_value, b2n.
  destruct ((48 <=? Byte.to_N c) && (Byte.to_N c <=? 57)) eqn:A; [split; [intros H; injection H as <-; lia|intros H; f_equal; lia]|].
  destruct ((65 <=? Byte.to_N c) && (Byte.to_N c <=? 70)) eqn:B; [split; [intros H; injection H as <-; lia|intros H; f_equal; lia]|].
  destruct ((97 <=? Byte.to_N c) && (Byte.to_N c <=? 102)) eqn:C; [split; [intros H; injection H as <-; lia|intros H; f_equal; lia]|].
  split; [discriminate|lia].
Qed.
Lemma unit_of_unit a b c d n : unit_of a b c d = Some n <-> code_unit [a; b; c; d] n.
Proof.
  unfold unit_of. split.
  - destruct (hex_of a) as [i|] eqn:A; [|discriminate]. destruct (hex_of b) as [j|] eqn:B; [|discriminate].
    destruct (hex_of c) as [k|] eqn:C; [|discriminate]. destruct (hex_of d) as [l|] eqn:D; [|discriminate].
    intros H. injection H as <-. apply hex_of_value in A, B, C, D. exists a, b, c, d, i, j, k, l. auto 10.
  - intros (a' & b' & c' & d' & i & j & k & l & E & A & B & C & D & ->). injection E as <- <- <- <-.
    apply hex_of_value in A, B, C, D. now rewrite A, B, C, D.
Qed.
Lemma n2b_octet n : n2b n = octet n.
Proof. reflexivity. Qed.
Lemma put_char_text n : put_char n = utf8_text n.
Proof. reflexivity. Qed.
Lemma letter_short e c : letter e = Some c <-> In (e, c) short_escapes.
Proof.
  split.
  - destruct e; cbn [letter]; intros H; try discriminate H; injection H as <-; cbn; auto 10.
  - cbn. intros H. repeat (destruct H as [H|H]; [injection H as <- <-; reflexivity|]). destruct H.
Qed.

Lemma put_some x o s r : put x o = Some (s, r) -> exists t, o = Some (t, r) /\ s = x ++ t.
Proof. destruct o as [[t q]|]; [|discriminate]. cbn [put]. intros H. injection H as <- <-. eauto. Qed.

Lemma string_body_sound n : forall b s r, (length b <= n)%nat -> string_body b = Some (s, r) ->
  exists c, chars c s /\ b = c ++ x22 :: r.
Proof.
  induction n as [|n IH]; intros [|c b] s r L H; cbn [string_body] in H; try discriminate; cbn [length] in L; [lia|].
  destruct (byte_eqb c x22) eqn:Q; [apply beq in Q; subst c; injection H as <- <-; exists []; split; [constructor|reflexivity]|].
  apply beq_false in Q. destruct (byte_eqb c x5c) eqn:B.
  - apply beq in B. subst c. destruct b as [|e r1]; [discriminate|]. destruct (byte_eqb e x75) eqn:U.
    + apply beq in U. subst e. destruct r1 as [|h1 [|h2 [|h3 [|h4 r2]]]]; try discriminate.
      destruct (unit_of h1 h2 h3 h4) as [u|] eqn:Eu; [|discriminate]. apply unit_of_unit in Eu.
      destruct ((56320 <=? u) && (u <=? 57343)) eqn:T; [discriminate|]. destruct ((55296 <=? u) && (u <=? 56319)) eqn:P.
      * destruct r2 as [|k1 [|k2 [|g1 [|g2 [|g3 [|g4 r3]]]]]]; try discriminate.
        destruct (byte_eqb k1 x5c) eqn:K1; [|discriminate]. destruct (byte_eqb k2 x75) eqn:K2; [|discriminate]. cbn [andb] in H.
        apply beq in K1, K2. subst k1 k2. destruct (unit_of g1 g2 g3 g4) as [m|] eqn:Em; [|discriminate]. apply unit_of_unit in Em.
        destruct ((56320 <=? m) && (m <=? 57343)) eqn:M; [|discriminate].
        apply put_some in H. destruct H as (t & E & Es).
        destruct (IH r3 t r) as (x & X & ->); [cbn [length] in L; clear - L; lia|exact E|]. clear E IH L.
        exists (x5c :: x75 :: [h1; h2; h3; h4] ++ x5c :: x75 :: [g1; g2; g3; g4] ++ x). split; [|reflexivity].
        rewrite Es, put_char_text. apply chars_pair; [assumption|assumption|clear - P; lia|clear - M; lia|assumption].
      * apply put_some in H. destruct H as (t & E & Es).
        destruct (IH r2 t r) as (x & X & ->); [cbn [length] in L; clear - L; lia|exact E|].
        exists (x5c :: x75 :: [h1; h2; h3; h4] ++ x). split; [|reflexivity].
        rewrite Es, put_char_text. apply chars_unit; [assumption| |assumption].
        assert (u < 65536).
        { destruct Eu as (a' & b' & c' & d' & i & j & k & l & _ & A & B' & C & D & ->). unfold hex_value in *. clear - A B' C D. lia. }
        unfold scalar_value. clear - T P H. lia.
    + destruct (letter e) as [x|] eqn:Le; [|discriminate]. apply letter_short in Le.
      destruct (string_body r1) as [[t q]|] eqn:E; [|discriminate]. cbn [put app] in H. injection H as <- <-.
      destruct (IH r1 t q) as (y & Y & ->); [cbn [length] in L; lia|exact E|]. exists (x5c :: e :: y). split; [|reflexivity]. now constructor.
  - apply beq_false in B. destruct (b2n c <? 32) eqn:Lo; [discriminate|].
    destruct (string_body b) as [[t q]|] eqn:E; [|discriminate]. cbn [put app] in H. injection H as <- <-.
    destruct (IH b t q) as (y & Y & ->); [lia|exact E|]. exists (c :: y). split; [|reflexivity]. constructor; try assumption. unfold b2n in Lo. lia.
Qed.

Lemma string_body_complete c s r : chars c s -> string_body (c ++ x22 :: r) = Some (s, r).
Proof.
  induction 1 as [|c t s L N1 N2 H IH|e c t s I H IH|u n t s U V H IH|u v n m t s U V Bn Bm H IH].
  - reflexivity.
  - cbn [app string_body]. apply beq_false in N1, N2. rewrite N1, N2, IH. unfold b2n. now rewrite (proj2 (N.ltb_ge _ _) L).
  - cbn [app string_body]. assert (Hu : byte_eqb e x75 = false) by (apply beq_false; intros ->; now apply short_not_u in I).
    apply letter_short in I. change (byte_eqb x5c x22) with false. change (byte_eqb x5c x5c) with true. cbv iota. now rewrite Hu, I, IH.
  - pose proof U as U'. destruct U as (h1 & h2 & h3 & h4 & _ & _ & _ & _ & -> & _). apply unit_of_unit in U'.
    cbn [app string_body]. change (byte_eqb x5c x22) with false. change (byte_eqb x5c x5c) with true. change (byte_eqb x75 x75) with true. cbv iota.
    rewrite U', IH, put_char_text. unfold scalar_value in V.
    assert ((56320 <=? n) && (n <=? 57343) = false) as -> by (clear - V; lia). assert ((55296 <=? n) && (n <=? 56319) = false) as -> by (clear - V; lia).
    reflexivity.
  - pose proof U as U'. destruct U as (h1 & h2 & h3 & h4 & _ & _ & _ & _ & -> & _). apply unit_of_unit in U'.
    pose proof V as V'. destruct V as (g1 & g2 & g3 & g4 & _ & _ & _ & _ & -> & _). apply unit_of_unit in V'.
    cbn [app string_body]. change (byte_eqb x5c x22) with false. change (byte_eqb x5c x5c) with true. change (byte_eqb x75 x75) with true. cbv iota.
    rewrite U', V', IH, put_char_text. cbn [andb].
    assert ((56320 <=? n) && (n <=? 57343) = false) as -> by (clear - Bn; lia). assert ((55296 <=? n) && (n <=? 56319) = true) as -> by (clear - Bn; lia).
    assert ((56320 <=? m) && (m <=? 57343) = true) as -> by (clear - Bm; lia). reflexivity.
Qed.

Lemma string_sound b s r : string b = Some (s, r) -> exists t, string_text t s /\ x22 :: b = t ++ r.
Proof.
  unfold string. destruct (string_body b) as [[s' r']|] eqn:E; [|discriminate]. destruct (utf8_valid s') eqn:U; [|discriminate].
  intros H. injection H as -> ->. apply utf8_valid_iff in U. destruct (string_body_sound _ b s r (le_n _) E) as (c & C & ->).
  exists (x22 :: c ++ [x22]). split; [split; [exact U|exists c; auto]|]. cbn [app]. now rewrite <- app_assoc.
Qed.
Lemma string_complete t s r : string_text t s -> exists q, t = x22 :: q /\ string (q ++ r) = Some (s, r).
Proof.
  intros (U & c & C & ->). exists (c ++ [x22]). split; [reflexivity|]. unfold string. rewrite <- app_assoc. cbn [app].
  rewrite (string_body_complete c s r C). apply utf8_valid_iff in U. now rewrite U.
Qed.

(** *** Strings nobody looks at *)
Lemma ignore_str_sound n : forall b r, (length b <= n)%nat -> ignore_str b = Some r -> exists c, loose c /\ b = c ++ x22 :: r.
Proof.
  induction n as [|n IH]; intros [|c b] r L H; cbn [ignore_str] in H; try discriminate; cbn [length] in L; [lia|].
  destruct (byte_eqb c x22) eqn:Q; [apply beq in Q; subst c; injection H as <-; exists []; split; [constructor|reflexivity]|].
  apply beq_false in Q. destruct (byte_eqb c x5c) eqn:B.
  - apply beq in B. subst c. destruct b as [|e r1]; [discriminate|]. destruct (byte_eqb e x75) eqn:U.
    + apply beq in U. subst e. destruct r1 as [|h1 [|h2 [|h3 [|h4 r2]]]]; try discriminate.
      destruct (unit_of h1 h2 h3 h4) as [u|] eqn:Eu; [|discriminate]. apply unit_of_unit in Eu.
      destruct (IH r2 r) as (x & X & ->); [cbn [length] in L; clear - L; lia|exact H|].
      exists (x5c :: x75 :: [h1; h2; h3; h4] ++ x). split; [|reflexivity]. now apply (loose_unit _ u).
    + destruct (letter e) as [x|] eqn:Le; [|discriminate]. apply letter_short in Le.
      destruct (IH r1 r) as (y & Y & ->); [cbn [length] in L; lia|exact H|]. exists (x5c :: e :: y). split; [|reflexivity].
      constructor; [|exact Y]. exact (in_map fst _ _ Le).
  - apply beq_false in B. destruct (b2n c <? 32) eqn:Lo; [discriminate|].
    destruct (IH b r) as (y & Y & ->); [lia|exact H|]. exists (c :: y). split; [|reflexivity]. constructor; try assumption. unfold b2n in Lo. lia.
Qed.
Lemma ignore_str_complete c r : loose c -> ignore_str (c ++ x22 :: r) = Some r.
Proof.
  induction 1 as [|c t L N1 N2 H IH|e t I H IH|u n t U H IH].
  - reflexivity.
  - cbn [app ignore_str]. apply beq_false in N1, N2. rewrite N1, N2, IH. unfold b2n. now rewrite (proj2 (N.ltb_ge _ _) L).
  - apply in_map_iff in I. destruct I as ([e' c] & Ee & I). cbn [fst] in Ee. subst e'.
    cbn [app ignore_str]. assert (Hu : byte_eqb e x75 = false) by (apply beq_false; intros ->; now apply short_not_u in I).
    apply letter_short in I. change (byte_eqb x5c x22) with false. change (byte_eqb x5c x5c) with true. cbv iota. now rewrite Hu, I, IH.
  - pose proof U as U'. destruct U as (h1 & h2 & h3 & h4 & _ & _ & _ & _ & -> & _). apply unit_of_unit in U'.
    cbn [app ignore_str]. change (byte_eqb x5c x22) with false. change (byte_eqb x5c x5c) with true. change (byte_eqb x75 x75) with true. cbv iota.
    now rewrite U', IH.
Qed.
Lemma string_at_sound s b x r : string_at s b = Some (x, r) -> exists t, text_at s t x /\ x22 :: b = t ++ r.
Proof.
  destruct s; try apply string_sound. cbn [string_at text_at]. destruct (ignore_str b) as [r'|] eqn:E; [|discriminate]. intros H. injection H as <- <-.
  destruct (ignore_str_sound _ b r' (le_n _) E) as (c & C & ->). exists (x22 :: c ++ [x22]). split; [split; [reflexivity|eauto]|].
  cbn [app]. now rewrite <- app_assoc.
Qed.
Lemma string_at_complete s t x r : text_at s t x -> exists q, t = x22 :: q /\ string_at s (q ++ r) = Some (x, r).
Proof.
  destruct s; try apply string_complete. intros (-> & c & C & ->). exists (c ++ [x22]). split; [reflexivity|]. cbn [string_at].
  rewrite <- app_assoc. cbn [app]. now rewrite (ignore_str_complete c r C).
Qed.
Lemma text_head s t x : text_at s t x -> exists q, t = x22 :: q.
Proof. intros H. destruct (string_at_complete s t x [] H) as (q & -> & _). eauto. Qed.
Lemma text_not_blank s t x r : text_at s t x -> halts blank (t ++ r).
Proof. intros H. destruct (text_head s t x H) as (q & ->). cbn. unfold blank. cbn. intuition discriminate. Qed.

(** ** Numbers *)
(** An integer of sign [m] and digits [i] is a numeral of at most one number. *)
Lemma int_decimal i : int_text i -> decimal (decimal_value i) i.
Proof.
  intros [->|[[N D] H]].
  - split; [constructor; [unfold digit; cbn; lia|constructor]|]. split; [reflexivity|now left].
  - split; [exact D|]. split; [reflexivity|]. right. destruct i as [|c r]; [now destruct N|]. exists c, r. split; [reflexivity|exact H].
Qed.
Lemma decimal_int n i : decimal n i -> int_text i.
Proof.
  intros (D & _ & [->|(c & r & -> & C)]); [now left|]. right. split; [split; [discriminate|exact D]|exact C].
Qed.
(** What the four parts of a number make. *)
Definition made (m i f e : bytes) : json :=
  if is_nil f && is_nil e && (if is_nil m then dec_value i <? 2 ^ 64 else (0 <? dec_value i) && (dec_value i <=? 2 ^ 63))
  then JInt (if is_nil m then Z.of_N (dec_value i) else - Z.of_N (dec_value i)) else JFloat (m ++ i ++ f ++ e).

Lemma decimal_digits n t : decimal n t -> Forall digit t.
Proof. now intros (D & _). Qed.

Lemma made_number m i f e : (m = [] \/ m = [x2d]) -> int_text i -> frac_text f -> exp_text e -> number_text (m ++ i ++ f ++ e) (made m i f e).
Proof.
  intros M I F X. unfold made. destruct (is_nil f && is_nil e) eqn:FE; cbn [andb].
  - apply Bool.andb_true_iff in FE. rewrite !is_nil_spec in FE. destruct FE as [-> ->]. rewrite !app_nil_r. pose proof (int_decimal i I) as D.
    rewrite dec_value_spec.
    destruct M as [-> | ->]; cbn [is_nil app].
    + destruct (decimal_value i <? 2 ^ 64) eqn:B.
      * left. exists (Z.of_N (decimal_value i)). split; [unfold small_int; clear - B; lia|]. split; [|reflexivity]. left. split; [lia|]. now rewrite N2Z.id.
      * right. split; [|exists [], i, [], []; rewrite !app_nil_r; cbn [app]; repeat split; auto; now left].
        intros z S [[P Dz]|[P (r & -> & _)]].
        -- pose proof (decimal_fun _ _ _ D Dz). unfold small_int in S. clear - S P H B. lia.
        -- destruct (int_head (x2d :: r) I) as (c & q & E & G). injection E as <- _. unfold digit in G. cbn in G. lia.
    + destruct ((0 <? decimal_value i) && (decimal_value i <=? 2 ^ 63)) eqn:B.
      * left. exists (- Z.of_N (decimal_value i))%Z. split; [unfold small_int; clear - B; lia|]. split; [|reflexivity]. right. split; [clear - B; lia|].
        exists i. split; [reflexivity|]. replace (Z.to_N (- - Z.of_N (decimal_value i))) with (decimal_value i) by (clear; lia). exact D.
      * right. split; [|exists [x2d], i, [], []; rewrite !app_nil_r; cbn [app]; repeat split; auto; now left].
        intros z S [[P Dz]|[P (r & E & Dz)]].
        -- apply decimal_digits in Dz. inversion Dz as [|? ? G _]; subst. unfold digit in G. cbn in G. lia.
        -- injection E as <-. pose proof (decimal_fun _ _ _ D Dz). unfold small_int in S. clear - S P H B. lia.
  - right. split; [|exists m, i, f, e; repeat split; auto].
    intros z _ H.
    assert (A : exists x, (m ++ i) ++ f ++ e = x /\ Forall (fun c => digit c \/ c = x2d) x).
    { eexists. split; [now rewrite <- app_assoc|]. destruct H as [[_ D]|[_ (r & -> & D)]]; apply decimal_digits in D.
      - revert D. apply Forall_impl. auto.
      - constructor; [auto|]. revert D. apply Forall_impl. auto. }
    destruct A as (x & <- & A). apply Forall_app in A. destruct A as [_ A]. apply Forall_app in A. destruct A as [Af Ae].
    apply Bool.andb_false_iff in FE. destruct FE as [FE|FE].
    + destruct F as [->|(d & _ & ->)]; [discriminate|]. inversion Af as [|? ? [G|G] _]; subst; [unfold digit in G; cbn in G; lia|discriminate].
    + destruct X as [->|(c & s & d & C & _ & _ & ->)]; [discriminate|]. apply Forall_inv in Ae.
      destruct C as [-> | ->], Ae as [G|G]; try discriminate; unfold digit in G; cbn in G; lia.
Qed.

Lemma number_parts t j : number_text t j ->
  exists m i f e, (m = [] \/ m = [x2d]) /\ int_text i /\ frac_text f /\ exp_text e /\ t = m ++ i ++ f ++ e.
Proof.
  intros [(z & _ & [[_ D]|[_ (r & -> & D)]] & _)|(_ & m & i & f & e & M & I & F & X & -> & _)]; [| |exists m, i, f, e; auto 10].
  - exists [], t, [], []. rewrite !app_nil_r. cbn [app]. repeat split; auto; [now apply decimal_int in D|now left..].
  - exists [x2d], r, [], []. rewrite !app_nil_r. cbn [app]. repeat split; auto; [now apply decimal_int in D|now left..].
Qed.

Lemma parse_number_sound b j r : parse_number b = Some (j, r) -> exists t, number_text t j /\ b = t ++ r.
Proof.
  unfold parse_number.
  set (mb := match b with c :: r0 => if byte_eqb c x2d then ([x2d], r0) else ([], b) | [] => ([], []) end).
  assert (Mb : exists m b1, mb = (m, b1) /\ (m = [] \/ m = [x2d]) /\ b = m ++ b1).
  { subst mb. destruct b as [|c q]; [exists [], []; auto|]. destruct (byte_eqb c x2d) eqn:C; [apply beq in C; subst c; exists [x2d], q; auto|].
    exists [], (c :: q). auto. }
  destruct Mb as (m & b1 & -> & M & ->). pose proof (digits_spec b1) as (D & _ & E). destruct (digits b1) as [i b2]. cbn [fst snd] in *.
  destruct i as [|d ds]; [discriminate|]. destruct (byte_eqb d x30 && negb (is_nil ds)) eqn:Z; [discriminate|].
  destruct (fraction b2) as [[f b3]|] eqn:F; [|discriminate]. destruct (exponent b3) as [[e b4]|] eqn:X; [|discriminate].
  apply fraction_sound in F. destruct F as (F & -> & _ & _). apply exponent_sound in X. destruct X as (X & ->).
  intros H. exists (m ++ (d :: ds) ++ f ++ e). subst b1.
  assert (I : int_text (d :: ds)).
  { apply Bool.andb_false_iff in Z. destruct Z as [Z|Z].
    - right. split; [split; [discriminate|exact D]|]. cbn [hd]. now apply beq_false in Z.
    - apply Bool.negb_false_iff, is_nil_spec in Z. subst ds. destruct (byte_eqb d x30) eqn:Q; [apply beq in Q; left; now subst d|].
      right. split; [split; [discriminate|exact D]|]. now apply beq_false in Q. }
  assert (J : j = made m (d :: ds) f e /\ r = b4).
  { unfold made. destruct (is_nil f && is_nil e && _); injection H as <- <-; auto. }
  destruct J as [-> ->]. split; [now apply made_number|]. now rewrite <- !app_assoc.
Qed.

Lemma parse_number_complete t j r : number_text t j -> halts numeric r -> parse_number (t ++ r) = Some (j, r).
Proof.
  intros N H. destruct (number_parts t j N) as (m & i & f & e & M & I & F & X & ->).
  rewrite (number_fun _ _ _ N (made_number m i f e M I F X)). clear N j. unfold parse_number.
  assert (Mb : match (m ++ i ++ f ++ e) ++ r with c :: r0 => if byte_eqb c x2d then ([x2d], r0) else ([], (m ++ i ++ f ++ e) ++ r) | [] => ([], []) end
    = (m, i ++ f ++ e ++ r)).
  { rewrite <- !app_assoc. destruct (int_head i I) as (c & q & -> & D). destruct M as [-> | ->]; cbn [app].
    - replace (byte_eqb c x2d) with false; [reflexivity|]. symmetry. apply beq_false. intros ->. unfold digit in D. cbn in D. lia.
    - reflexivity. }
  rewrite Mb, digits_of.
  2:{ destruct I as [->|[[_ D] _]]; [|exact D]. constructor; [unfold digit; cbn; lia|constructor]. }
  2:{ destruct F as [->|(d & _ & ->)]; cbn [app].
      - destruct X as [->|(c & s & d & C & _ & _ & ->)]; cbn [app]; [now apply halts_digit|]. cbn. unfold digit. destruct C as [-> | ->]; cbn; lia.
      - cbn. unfold digit. cbn. lia. }
  rewrite (fraction_complete f e r F X H), (exponent_complete e r X H).
  destruct (int_head i I) as (c & q & Ei & D). subst i. replace (byte_eqb c x30 && negb (is_nil q)) with false.
  2:{ symmetry. destruct I as [E|[_ G]]; [injection E as -> ->; reflexivity|]. cbn [hd] in G. apply beq_false in G. now rewrite G. }
  unfold made. destruct (is_nil f && is_nil e && _); reflexivity.
Qed.

(** ** Values *)
Lemma in_range_iff s t : in_range s t = true <-> bearable s (JFloat t).
Proof.
  assert (E : (match float_of_text t with Some _ => true | None => false end) = true <-> exists r, double_of t r).
  { destruct (float_of_text t) as [r|] eqn:F; split.
    - intros _. exists r. now apply float_iff.
    - reflexivity.
    - discriminate.
    - intros [r R]. apply float_iff in R. congruence. }
  destruct s; cbn [in_range bearable]; try exact E. split; auto.
Qed.
Lemma number_at_sound s b j r : number_at s b = Some (j, r) -> exists t, number_text t j /\ bearable s j /\ b = t ++ r.
Proof.
  unfold number_at. destruct (parse_number b) as [[i q]|] eqn:E; [|discriminate]. destruct (parse_number_sound _ _ _ E) as (t & T & ->). intros H. exists t.
  destruct (number_chars t i T) as (_ & _ & _ & [[z ->]|[x ->]]).
  - injection H as <- <-. split; [exact T|]. split; [now destruct s|reflexivity].
  - destruct (in_range s x) eqn:R; [|discriminate]. injection H as <- <-. apply in_range_iff in R. auto.
Qed.

Lemma ident_sound w : forall b r, ident w b = Some r -> b = w ++ r.
Proof.
  induction w as [|x w IH]; intros b r H; cbn [ident] in H; [destruct b; injection H as <-; reflexivity|].
  destruct b as [|c b]; [discriminate|]. destruct (byte_eqb x c) eqn:E; [|discriminate]. apply beq in E. subst c. cbn [app]. f_equal. now apply IH.
Qed.
Lemma ident_complete w r : ident w (w ++ r) = Some r.
Proof. induction w as [|x w IH]; [now destruct r|]. cbn [app ident]. now rewrite beq_refl. Qed.

(** *** Shapes *)
Definition rest (n : nat) (s : shape) : shape := match s with Struct f => Struct (skipn n f) | _ => s end.
Lemma rest_0 s : rest 0 s = s.
Proof. now destruct s. Qed.
Lemma tail_rest n s : tail_shape (rest n s) = rest (S n) s.
Proof.
  destruct s as [d| |f|e]; try reflexivity. cbn [rest]. revert n. induction f as [|x f IH]; intros [|n]; try reflexivity. cbn [skipn]. apply IH.
Qed.
Lemma head_rest n s : s <> Any 0 -> item_at s n (head_shape (rest n s)).
Proof.
  intros N. destruct s as [[|d]| |f|e]; cbn [rest head_shape pred]; try constructor; [now destruct N|].
  destruct (nth_error f n) as [[k x]|] eqn:E.
  - rewrite <- (firstn_skipn n f) in E. rewrite nth_error_app2 in E by (apply firstn_le_length).
    assert (L : (n < length f)%nat) by (destruct (le_lt_dec (length f) n) as [L|L]; [|exact L];
      rewrite skipn_all2 in E by exact L; destruct (n - length (firstn n f))%nat; discriminate).
    rewrite firstn_length_le, Nat.sub_diag in E by lia. destruct (skipn n f) as [|y g] eqn:G; [discriminate|]. injection E as ->.
    apply (item_field f n k). rewrite <- (firstn_skipn n f), nth_error_app2 by apply firstn_le_length. now rewrite firstn_length_le, Nat.sub_diag, G by lia.
  - apply nth_error_None in E. rewrite skipn_all2 by exact E. now constructor.
Qed.
Lemma item_head s n s' : item_at s n s' -> s' = head_shape (rest n s).
Proof.
  intros H. destruct H as [d n|n|f n k x E|f n L|x n]; try reflexivity; cbn [rest].
  - revert n E. induction f as [|[k' x'] f IH]; intros [|n] E; try discriminate; cbn in *; [congruence|]. now apply IH.
  - now rewrite skipn_all2 by exact L.
Qed.
Lemma field_in f k : member_at (Struct f) k (field_shape k f).
Proof.
  assert (G : (exists a x b, f = a ++ (k, x) :: b /\ ~ In k (map fst a) /\ field_shape k f = x) \/ (~ In k (map fst f) /\ field_shape k f = Skipped)).
  { induction f as [|[k' x] f IH]; [right; split; [intros []|reflexivity]|]. cbn [field_shape]. destruct (bytes_eqb k' k) eqn:E.
    - apply bytes_eqb_eq in E. subst k'. left. exists [], x, f. split; [reflexivity|]. split; [intros []|reflexivity].
    - assert (Nk : k' <> k) by (intros ->; now rewrite bytes_eqb_refl in E).
      destruct IH as [(a & y & b & -> & Na & F)|[Na F]].
      + left. exists ((k', x) :: a), y, b. split; [reflexivity|]. split; [|exact F]. intros [I|I]; [now apply Nk|now apply Na].
      + right. split; [|exact F]. intros [I|I]; [now apply Nk|now apply Na]. }
  destruct G as [(a & x & b & -> & Na & F)|[Na F]]; rewrite F; now constructor.
Qed.
Lemma member_shape_at s k : s <> Any 0 -> member_at s k (member_shape s k).
Proof. intros N. destruct s as [[|d]| |f|e]; cbn [member_shape pred]; try constructor; [now destruct N|apply field_in]. Qed.
Lemma member_at_shape s k s' : member_at s k s' -> s' = member_shape s k.
Proof.
  intros H. destruct H as [d k|k|f g k x N|f k N|x k]; try reflexivity; cbn [member_shape].
  - induction f as [|[k' y] f IH]; cbn [app field_shape]; [now rewrite bytes_eqb_refl|].
    destruct (bytes_eqb k' k) eqn:E; [exfalso; apply N; left; now apply bytes_eqb_eq|]. apply IH. intros I. apply N. now right.
  - induction f as [|[k' y] f IH]; [reflexivity|]. cbn [field_shape]. destruct (bytes_eqb k' k) eqn:E; [exfalso; apply N; left; now apply bytes_eqb_eq|].
    apply IH. intros I. apply N. now right.
Qed.
Lemma may_open_iff s : may_open s = true <-> s <> Any 0.
Proof. destruct s as [[|d]| | |]; cbn; split; congruence. Qed.

Definition reads_value (f : nat) : Prop := forall s b j r, value s f b = Some (j, r) -> exists t, value_at s t j /\ b = t ++ r.
Definition reads_items (f : nat) : Prop := forall s n b l r, s <> Any 0 -> items (rest n s) f b = Some (l, r) -> exists t, items_at s n t l /\ b = t ++ x5d :: r.
Definition reads_members (f : nat) : Prop := forall s b l r, s <> Any 0 -> members s f b = Some (l, r) -> exists t, members_at s t l /\ b = t ++ x7d :: r.

Lemma items_at_lead s n w t l : ws w -> items_at s n t l -> items_at s n (w ++ t) l.
Proof.
  intros W H. destruct H as [s n s' a t b j I A B V|s n s' a t b j u l I A B V M]; rewrite app_assoc; econstructor; eauto; apply Forall_app; auto.
Qed.
Lemma members_at_lead s w t l : ws w -> members_at s t l -> members_at s (w ++ t) l.
Proof.
  intros W H. destruct H as [s s' a k b c t d x j A B C D S M V|s s' a k b c t d x j u l A B C D S M V I]; rewrite app_assoc; econstructor; eauto; apply Forall_app; auto.
Qed.

Lemma reader_sound f : reads_value f /\ reads_items f /\ reads_members f.
Proof.
  induction f as [|f (IV & II & IM)]; [repeat split; [intros s b x r H|intros s n b x r _ H|intros s b x r _ H]; discriminate H|]. repeat split.
  - intros s [|c b] j r H; cbn [value] in H; [discriminate|].
    destruct (byte_eqb c x6e) eqn:C1; [apply beq in C1; subst c|clear C1].
    { unfold named in H. destruct (ident _ b) eqn:E; [|discriminate]. injection H as <- <-. apply ident_sound in E. subst b.
      exists (str "null"). split; [constructor|reflexivity]. }
    destruct (byte_eqb c x74) eqn:C2; [apply beq in C2; subst c|clear C2].
    { unfold named in H. destruct (ident _ b) eqn:E; [|discriminate]. injection H as <- <-. apply ident_sound in E. subst b.
      exists (str "true"). split; [constructor|reflexivity]. }
    destruct (byte_eqb c x66) eqn:C3; [apply beq in C3; subst c|clear C3].
    { unfold named in H. destruct (ident _ b) eqn:E; [|discriminate]. injection H as <- <-. apply ident_sound in E. subst b.
      exists (str "false"). split; [constructor|reflexivity]. }
    destruct (byte_eqb c x22) eqn:C4; [apply beq in C4; subst c|clear C4].
    { destruct (string_at s b) as [[x q]|] eqn:E; [|discriminate]. injection H as <- <-. apply string_at_sound in E. destruct E as (t & T & ->).
      exists t. split; [now constructor|reflexivity]. }
    destruct (byte_eqb c x5b) eqn:C5; [apply beq in C5; subst c|clear C5].
    { destruct (may_open s) eqn:O; [|discriminate]. apply may_open_iff in O. destruct (skip_split b) as (w & W & Eb). destruct (skip b) as [|d q]; [discriminate|]. subst b. destruct (byte_eqb d x5d) eqn:D.
      - apply beq in D. subst d. injection H as <- <-. exists (x5b :: w ++ [x5d]). split; [now constructor|]. cbn [app]. now rewrite <- app_assoc.
      - destruct (items s f (d :: q)) as [[l p]|] eqn:E; [|discriminate]. injection H as <- <-. rewrite <- (rest_0 s) in E. destruct (II _ _ _ _ _ O E) as (t & T & ->).
        exists (x5b :: (w ++ t) ++ [x5d]). split; [constructor; [exact O|now apply items_at_lead]|]. cbn [app]. now rewrite <- !app_assoc. }
    destruct (byte_eqb c x7b) eqn:C6; [apply beq in C6; subst c|clear C6].
    { destruct (may_open s) eqn:O; [|discriminate]. apply may_open_iff in O. destruct (skip_split b) as (w & W & Eb). destruct (skip b) as [|d q]; [discriminate|]. subst b. destruct (byte_eqb d x7d) eqn:D.
      - apply beq in D. subst d. injection H as <- <-. exists (x7b :: w ++ [x7d]). split; [now constructor|]. cbn [app]. now rewrite <- app_assoc.
      - destruct (members s f (d :: q)) as [[l p]|] eqn:E; [|discriminate]. injection H as <- <-. destruct (IM _ _ _ _ O E) as (t & T & ->).
        exists (x7b :: (w ++ t) ++ [x7d]). split; [constructor; [exact O|now apply members_at_lead]|]. cbn [app]. now rewrite <- !app_assoc. }
    destruct (number_at_sound _ _ _ _ H) as (t & T & B & ->). exists t. split; [now constructor|reflexivity].
  - intros s n b l r O H. cbn [items] in H. destruct (value (head_shape (rest n s)) f b) as [[j q]|] eqn:E; [|discriminate]. destruct (IV _ _ _ _ E) as (t & T & ->).
    pose proof (head_rest n s O) as Hs. clear E.
    destruct (skip_split q) as (w & W & Eq). destruct (skip q) as [|c p]; [discriminate|]. subst q. destruct (byte_eqb c x5d) eqn:C.
    + apply beq in C. subst c. injection H as <- <-. exists ([] ++ t ++ w). split; [econstructor; eauto; constructor|]. cbn [app]. now rewrite <- app_assoc.
    + clear C. destruct (byte_eqb c x2c) eqn:C; [|discriminate]. apply beq in C. subst c.
      destruct (skip_split p) as (v & V & Ep). rewrite tail_rest in H. destruct (items (rest (S n) s) f (skip p)) as [[l' o]|] eqn:E; [|discriminate]. injection H as <- <-.
      destruct (II _ _ _ _ _ O E) as (u & U & Eu). rewrite Eu in Ep. subst p. exists ([] ++ t ++ w ++ x2c :: (v ++ u)).
      split; [econstructor; eauto; [constructor|now apply items_at_lead]|]. cbn [app]. rewrite <- !app_assoc. cbn [app]. now rewrite <- !app_assoc.
  - intros s [|c b] l r O H; cbn [members] in H; [discriminate|]. destruct (byte_eqb c x22) eqn:C; [|discriminate]. apply beq in C. subst c. cbn [negb] in H.
    destruct (string_at s b) as [[k r1]|] eqn:E; [|discriminate]. apply string_at_sound in E. destruct E as (kt & K & ->).
    destruct (skip_split r1) as (w1 & W1 & E1). destruct (skip r1) as [|d r2]; [discriminate|]. subst r1.
    destruct (byte_eqb d x3a) eqn:D; [|discriminate]. apply beq in D. subst d. cbn [negb] in H.
    destruct (skip_split r2) as (w2 & W2 & E2). destruct (value (member_shape s k) f (skip r2)) as [[j r3]|] eqn:E; [|discriminate].
    pose proof (member_shape_at s k O) as Ms. destruct (IV _ _ _ _ E) as (t & T & Et). rewrite Et in E2. subst r2. clear E Et.
    destruct (skip_split r3) as (w3 & W3 & E3). destruct (skip r3) as [|e q]; [discriminate|]. subst r3. destruct (byte_eqb e x7d) eqn:C.
    + apply beq in C. subst e. injection H as <- <-. exists ([] ++ kt ++ w1 ++ x3a :: w2 ++ t ++ w3).
      split; [econstructor; eauto; constructor|]. cbn [app]. rewrite <- !app_assoc. cbn [app]. now rewrite <- !app_assoc.
    + clear C. destruct (byte_eqb e x2c) eqn:C; [|discriminate]. apply beq in C. subst e.
      destruct (skip_split q) as (v & V & Ep). destruct (members s f (skip q)) as [[l' o]|] eqn:E; [|discriminate]. injection H as <- <-.
      destruct (IM _ _ _ _ O E) as (u & U & Eu). rewrite Eu in Ep. subst q. exists ([] ++ kt ++ w1 ++ x3a :: w2 ++ t ++ w3 ++ x2c :: (v ++ u)).
      split; [econstructor; eauto; [constructor|now apply members_at_lead]|]. cbn [app]. rewrite <- !app_assoc. cbn [app]. rewrite <- !app_assoc. cbn [app]. now rewrite <- !app_assoc.
Qed.

(** *** How values begin *)
Lemma value_at_head s t j : value_at s t j -> exists c r, t = c :: r /\ head_of c (kind j).
Proof.
  intros H. destruct H as [s|s|s|s t j N Bn|s t x T|s w O W|s t l O I|s w O W|s t l O M]; try (eexists _, _; split; [reflexivity|reflexivity]).
  - destruct (number_chars t j N) as (_ & Ne & Hd & J). destruct t as [|c r]; [now destruct Ne|]. exists c, r. split; [reflexivity|].
    destruct J as [[z ->]|[x ->]]; exact Hd.
  - destruct (text_head s t x T) as (q & ->). exists x22, q. split; reflexivity.
Qed.
Lemma value_at_not_blank s t j r : value_at s t j -> halts blank (t ++ r).
Proof. intros H. destruct (value_at_head s t j H) as (c & q & -> & C). cbn. intros B. apply (head_not_stop c _ (kind_small j) C). now left. Qed.
Lemma items_at_first s n t l r c q : items_at s n t l -> ws c -> c ++ x5d :: q = t ++ r -> False.
Proof.
  intros H W E. assert (exists s' a v j q, ws a /\ value_at s' v j /\ t = a ++ v ++ q) as (s' & a & v & j & p & A & V & ->).
  { destruct H as [s n s' a t b j I A B V|s n s' a t b j u l I A B V M]; [exists s', a, t, j, b|exists s', a, t, j, (b ++ x2c :: u)]; auto. }
  rewrite <- !app_assoc in E. apply (span blank) in E; [|exact W|exact A|apply not_blank; cbn; auto|now apply (value_at_not_blank s' v j)].
  destruct E as [_ E]. destruct (value_at_head s' v j V) as (x & y & -> & C). cbn [app] in E. injection E as <- _.
  apply (head_not_stop _ _ (kind_small j) C). right. cbn. auto.
Qed.
Lemma members_at_first s t l r c q : members_at s t l -> ws c -> c ++ x7d :: q = t ++ r -> False.
Proof.
  intros H W E. assert (exists a k x q, ws a /\ text_at s k x /\ t = a ++ k ++ q) as (a & k & x & p & A & S & ->).
  { destruct H as [s s' a k b c0 t d x j A B C D S M V|s s' a k b c0 t d x j u l A B C D S M V I]; [exists a, k, x, (b ++ x3a :: c0 ++ t ++ d)|
      exists a, k, x, (b ++ x3a :: c0 ++ t ++ d ++ x2c :: u)]; auto. }
  rewrite <- !app_assoc in E. apply (span blank) in E; [|exact W|exact A|apply not_blank; cbn; auto|now apply (text_not_blank s k x)].
  destruct E as [_ E]. destruct (text_head s k x S) as (y & ->). cbn [app] in E. discriminate.
Qed.

Scheme value_at_mut := Minimality for value_at Sort Prop
  with items_at_mut := Minimality for items_at Sort Prop
  with members_at_mut := Minimality for members_at Sort Prop.
Combined Scheme at_mut from value_at_mut, items_at_mut, members_at_mut.

(** *** Enough fuel *)
Definition finds_value (s : shape) (t : bytes) (j : json) : Prop :=
  forall f r, (2 * length t <= f)%nat -> ends r -> value s f (t ++ r) = Some (j, r).
Definition finds_items (s : shape) (n : nat) (t : bytes) (l : list json) : Prop :=
  forall f r, (2 * length t + 1 <= f)%nat -> items (rest n s) f (skip (t ++ x5d :: r)) = Some (l, r).
Definition finds_members (s : shape) (t : bytes) (l : list (bytes * json)) : Prop :=
  forall f r, (2 * length t + 1 <= f)%nat -> members s f (skip (t ++ x7d :: r)) = Some (l, r).

Lemma number_value s f t j r : number_text t j -> ends r -> (2 * length t <= f)%nat ->
  value s f (t ++ r) = match j with JFloat x => if in_range s x then Some (j, r) else None | _ => Some (j, r) end.
Proof.
  intros N R L. pose proof (parse_number_complete t j r N (ends_halts r R)) as P. destruct (number_chars t j N) as (_ & Ne & Hd & _).
  destruct t as [|c t]; [now destruct Ne|]. cbn [hd] in Hd. destruct f as [|f]; [cbn [length] in L; lia|]. cbn [app value]. cbn [app] in P.
  assert (Hc : forall d, (Byte.to_N d < 48 \/ 57 < Byte.to_N d) -> d <> x2d -> byte_eqb c d = false).
  { intros d B M. apply beq_false. intros ->. destruct Hd as [G|G]; [unfold digit in G; lia|contradiction]. }
  rewrite !Hc by (cbn; (lia || discriminate)). unfold number_at. rewrite P. now destruct j.
Qed.

Lemma items_nonclose s n t l r : items_at s n t l -> exists d q, skip (t ++ x5d :: r) = d :: q /\ d <> x5d.
Proof.
  intros H. destruct (skip_split (t ++ x5d :: r)) as (w & W & E). destruct (skip (t ++ x5d :: r)) as [|d q].
  - exfalso. rewrite app_nil_r in E. rewrite <- E in W. apply Forall_app in W. destruct W as [_ W]. inversion W as [|? ? B _]; subst. revert B. apply not_blank. cbn. auto.
  - exists d, q. split; [reflexivity|]. intros ->. symmetry in E. exact (items_at_first s n t l (x5d :: r) w q H W E).
Qed.
Lemma members_nonclose s t l r : members_at s t l -> exists d q, skip (t ++ x7d :: r) = d :: q /\ d <> x7d.
Proof.
  intros H. destruct (skip_split (t ++ x7d :: r)) as (w & W & E). destruct (skip (t ++ x7d :: r)) as [|d q].
  - exfalso. rewrite app_nil_r in E. rewrite <- E in W. apply Forall_app in W. destruct W as [_ W]. inversion W as [|? ? B _]; subst. revert B. apply not_blank. cbn. auto.
  - exists d, q. split; [reflexivity|]. intros ->. symmetry in E. exact (members_at_first s t l (x7d :: r) w q H W E).
Qed.

Lemma reader_complete : (forall s t j, value_at s t j -> finds_value s t j) /\ (forall s n t l, items_at s n t l -> finds_items s n t l)
  /\ (forall s t l, members_at s t l -> finds_members s t l).
Proof.
  apply at_mut.
  - intros s [|f] r L R; [cbn in L; lia|]. reflexivity.
  - intros s [|f] r L R; [cbn in L; lia|]. reflexivity.
  - intros s [|f] r L R; [cbn in L; lia|]. reflexivity.
  - intros s t j N B f r L R. rewrite (number_value s f t j r N R L). destruct j; try reflexivity. apply in_range_iff in B. now rewrite B.
  - intros s t x S [|f] r L R; destruct (string_at_complete s t x r S) as (q & -> & E); [cbn [length] in L; lia|].
    cbn [app value]. change (byte_eqb x22 x6e) with false. change (byte_eqb x22 x74) with false. change (byte_eqb x22 x66) with false.
    change (byte_eqb x22 x22) with true. cbv iota. now rewrite E.
  - intros s w O W [|f] r L R; [cbn [length] in L; lia|]. cbn [app value].
    change (byte_eqb x5b x6e) with false. change (byte_eqb x5b x74) with false. change (byte_eqb x5b x66) with false.
    change (byte_eqb x5b x22) with false. change (byte_eqb x5b x5b) with true. cbv iota.
    rewrite (proj2 (may_open_iff s) O), app_bracket, skip_ws; [|exact W|apply not_blank; cbn; auto]. reflexivity.
  - intros s t l O I IH [|f] r L R; [cbn [length] in L; lia|]. cbn [app value].
    change (byte_eqb x5b x6e) with false. change (byte_eqb x5b x74) with false. change (byte_eqb x5b x66) with false.
    change (byte_eqb x5b x22) with false. change (byte_eqb x5b x5b) with true. cbv iota. rewrite (proj2 (may_open_iff s) O), app_bracket.
    assert (E : items s f (skip (t ++ x5d :: r)) = Some (l, r)) by (rewrite <- (rest_0 s); apply IH; cbn [length] in L; rewrite app_length in L; cbn [length] in L; lia).
    destruct (items_nonclose s 0 t l r I) as (d & q & Eq & D). rewrite Eq in *. apply beq_false in D. now rewrite D, E.
  - intros s w O W [|f] r L R; [cbn [length] in L; lia|]. cbn [app value].
    change (byte_eqb x7b x6e) with false. change (byte_eqb x7b x74) with false. change (byte_eqb x7b x66) with false.
    change (byte_eqb x7b x22) with false. change (byte_eqb x7b x5b) with false. change (byte_eqb x7b x7b) with true. cbv iota.
    rewrite (proj2 (may_open_iff s) O), app_bracket, skip_ws; [|exact W|apply not_blank; cbn; auto]. reflexivity.
  - intros s t l O I IH [|f] r L R; [cbn [length] in L; lia|]. cbn [app value].
    change (byte_eqb x7b x6e) with false. change (byte_eqb x7b x74) with false. change (byte_eqb x7b x66) with false.
    change (byte_eqb x7b x22) with false. change (byte_eqb x7b x5b) with false. change (byte_eqb x7b x7b) with true. cbv iota. rewrite (proj2 (may_open_iff s) O), app_bracket.
    assert (E : members s f (skip (t ++ x7d :: r)) = Some (l, r)) by (apply IH; cbn [length] in L; rewrite app_length in L; cbn [length] in L; lia).
    destruct (members_nonclose s t l r I) as (d & q & Eq & D). rewrite Eq in *. apply beq_false in D. now rewrite D, E.
  - intros s n s' a t b j Hs A B V IH [|f] r L; [lia|]. apply item_head in Hs. subst s'. rewrite !app_length in L. rewrite <- !app_assoc.
    rewrite skip_ws; [|exact A|exact (value_at_not_blank _ t j _ V)]. cbn [items].
    rewrite IH; [|lia|apply ws_ends; [exact B|right; cbn; auto]]. rewrite skip_ws; [|exact B|apply not_blank; cbn; auto]. reflexivity.
  - intros s n s' a t b j u l Hs A B V IH I IHu [|f] r L; [lia|]. apply item_head in Hs. subst s'. rewrite !app_length in L. cbn [length] in L. rewrite <- !app_assoc. cbn [app].
    rewrite skip_ws; [|exact A|exact (value_at_not_blank _ t j _ V)]. cbn [items].
    rewrite IH; [|lia|apply ws_ends; [exact B|right; cbn; auto]].
    rewrite skip_ws; [|exact B|apply not_blank; cbn; auto].
    change (byte_eqb x2c x5d) with false. change (byte_eqb x2c x2c) with true. cbv iota. rewrite tail_rest, IHu; [reflexivity|lia].
  - intros s s' a k b c t d x j A B C D S Ms V IH [|f] r L; [lia|]. apply member_at_shape in Ms. subst s'. rewrite !app_length in L. cbn [length] in L. rewrite !app_length in L.
    rewrite <- !app_assoc. cbn [app]. rewrite <- !app_assoc. rewrite skip_ws; [|exact A|now apply (text_not_blank s k x)].
    destruct (string_at_complete s k x (b ++ x3a :: c ++ t ++ d ++ x7d :: r) S) as (q & -> & E). cbn [app members].
    change (byte_eqb x22 x22) with true. cbn [negb]. cbv iota. rewrite E.
    rewrite skip_ws; [|exact B|apply not_blank; cbn; auto]. change (byte_eqb x3a x3a) with true. cbn [negb]. cbv iota.
    rewrite skip_ws; [|exact C|exact (value_at_not_blank _ t j _ V)]. cbn [length] in L.
    rewrite IH; [|lia|apply ws_ends; [exact D|right; cbn; auto]]. rewrite skip_ws; [|exact D|apply not_blank; cbn; auto]. reflexivity.
  - intros s s' a k b c t d x j u l A B C D S Ms V IH M IHu [|f] r L; [lia|]. apply member_at_shape in Ms. subst s'. rewrite !app_length in L. cbn [length] in L. rewrite !app_length in L. cbn [length] in L.
    repeat (rewrite <- !app_assoc; cbn [app]). rewrite skip_ws; [|exact A|now apply (text_not_blank s k x)].
    destruct (string_at_complete s k x (b ++ x3a :: c ++ t ++ d ++ x2c :: u ++ x7d :: r) S) as (q & -> & E). cbn [app members].
    change (byte_eqb x22 x22) with true. cbn [negb]. cbv iota. rewrite E.
    rewrite skip_ws; [|exact B|apply not_blank; cbn; auto]. change (byte_eqb x3a x3a) with true. cbn [negb]. cbv iota.
    rewrite skip_ws; [|exact C|exact (value_at_not_blank _ t j _ V)]. cbn [length] in L.
    rewrite IH; [|lia|apply ws_ends; [exact D|right; cbn; auto]]. rewrite skip_ws; [|exact D|apply not_blank; cbn; auto].
    change (byte_eqb x2c x7d) with false. change (byte_eqb x2c x2c) with true. cbv iota. rewrite IHu; [reflexivity|lia].
Qed.

Theorem read_json_iff s b j : read_json s b = Some j <-> document_at s b j.
Proof.
  unfold read_json. split.
  - destruct (skip_split b) as (u & U & Eb). destruct (value _ _ (skip b)) as [[j' r]|] eqn:E; [|discriminate].
    destruct (proj1 (reader_sound _) _ _ _ _ E) as (t & T & Et). destruct (skip_split r) as (v & V & Er). destruct (skip r); [|discriminate].
    intros H. injection H as <-. rewrite app_nil_r in Er. subst r. exists u, t, v. rewrite Et in Eb. auto.
  - intros (u & t & v & U & V & T & ->). rewrite skip_ws; [|exact U|now apply (value_at_not_blank s t j)].
    rewrite (proj1 reader_complete s t j T); [|rewrite !app_length; lia|].
    2:{ destruct v as [|x v]; [exact I|]. inversion V; subst. now left. }
    rewrite <- (app_nil_r v), skip_ws; [reflexivity|exact V|exact I].
Qed.
Lemma document_at_fun s b j j' : document_at s b j -> document_at s b j' -> j = j'.
Proof. intros D D'. apply read_json_iff in D, D'. congruence. Qed.
