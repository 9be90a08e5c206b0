(** The UTF-8 decoder against RFC 3629: proofs for C71. *)

From Coq Require Import Lia ZifyBool ZifyNat ZifyN.
From Verif Require Import Base BaseFacts Utf8 Utf8Facts SpecUtf8.
Local Open Scope N_scope.

Lemma octet_eq b n : b2n b = n -> octet n = b.
Proof. intros <-. change octet with n2b. apply n2b_b2n. Qed.
Lemma octet_val n : n < 256 -> b2n (octet n) = n.
Proof. intros H. change octet with n2b. apply b2n_n2b_small. exact H. Qed.

Lemma next_sound bs c r : utf8_next bs = Some (c, r) -> scalar_value c /\ bs = utf8_text c ++ r.
Proof.
  destruct bs as [|b0 r0]; [discriminate|]. cbn [utf8_next]. pose proof (b2n_lt b0). unfold scalar_value, utf8_text.
  destruct (b2n b0 <? 128) eqn:E0.
  { intros [= <- <-]. rewrite E0. cbn [app]. rewrite (octet_eq b0 (b2n b0)) by reflexivity. split; [lia | reflexivity]. }
  destruct ((194 <=? b2n b0) && (b2n b0 <=? 223)) eqn:E1.
  { destruct r0 as [|b1 r1]; [discriminate|]. unfold is_cont, cont. pose proof (b2n_lt b1).
    destruct ((128 <=? b2n b1) && (b2n b1 <=? 191)) eqn:C1; [|discriminate]. intros [= <- <-].
    set (n := (b2n b0 - 192) * 64 + (b2n b1 - 128)).
    assert (n <? 128 = false) as -> by lia. assert (n <? 2048 = true) as -> by lia. cbn [app].
    rewrite (octet_eq b0 (192 + n / 64)) by lia. rewrite (octet_eq b1 (128 + n mod 64)) by lia. split; [lia | reflexivity]. }
  destruct ((224 <=? b2n b0) && (b2n b0 <=? 239)) eqn:E2.
  { destruct r0 as [|b1 [|b2 r2]]; try discriminate. unfold is_cont, cont. pose proof (b2n_lt b1). pose proof (b2n_lt b2).
    set (lo := if b2n b0 =? 224 then 160 else 128). set (hi := if b2n b0 =? 237 then 159 else 191).
    destruct ((lo <=? b2n b1) && (b2n b1 <=? hi) && ((128 <=? b2n b2) && (b2n b2 <=? 191))) eqn:C1; [|discriminate]. intros [= <- <-].
    assert (128 <= b2n b1 <= 191 /\ 128 <= b2n b2 <= 191 /\ (b2n b0 = 224 -> 160 <= b2n b1) /\ (b2n b0 = 237 -> b2n b1 <= 159)) as (A & B & L & H2).
    { unfold lo, hi in C1. destruct (b2n b0 =? 224) eqn:?, (b2n b0 =? 237) eqn:?; lia. }
    clear C1. clearbody lo hi. clear lo hi.
    set (n := (b2n b0 - 224) * 4096 + (b2n b1 - 128) * 64 + (b2n b2 - 128)).
    assert (n <? 128 = false) as -> by lia. assert (n <? 2048 = false) as -> by lia. assert (n <? 65536 = true) as -> by lia. cbn [app].
    rewrite (octet_eq b0 (224 + n / 4096)) by lia. rewrite (octet_eq b1 (128 + n / 64 mod 64)) by lia. rewrite (octet_eq b2 (128 + n mod 64)) by lia.
    split; [lia | reflexivity]. }
  destruct ((240 <=? b2n b0) && (b2n b0 <=? 244)) eqn:E3; [|discriminate].
  destruct r0 as [|b1 [|b2 [|b3 r3]]]; try discriminate. unfold is_cont, cont. pose proof (b2n_lt b1). pose proof (b2n_lt b2). pose proof (b2n_lt b3).
  set (lo := if b2n b0 =? 240 then 144 else 128). set (hi := if b2n b0 =? 244 then 143 else 191).
  destruct ((lo <=? b2n b1) && (b2n b1 <=? hi) && ((128 <=? b2n b2) && (b2n b2 <=? 191)) && ((128 <=? b2n b3) && (b2n b3 <=? 191))) eqn:C1; [|discriminate].
  intros [= <- <-].
  assert (128 <= b2n b1 <= 191 /\ 128 <= b2n b2 <= 191 /\ 128 <= b2n b3 <= 191 /\ (b2n b0 = 240 -> 144 <= b2n b1) /\ (b2n b0 = 244 -> b2n b1 <= 143)) as (A & B & D & L & H3).
  { unfold lo, hi in C1. destruct (b2n b0 =? 240) eqn:?, (b2n b0 =? 244) eqn:?; lia. }
  clear C1. clearbody lo hi. clear lo hi.
  set (n := (b2n b0 - 240) * 262144 + (b2n b1 - 128) * 4096 + (b2n b2 - 128) * 64 + (b2n b3 - 128)).
  assert (65536 <= n <= 1114111) as N by lia.
  assert (n <? 128 = false) as -> by lia. assert (n <? 2048 = false) as -> by lia. assert (n <? 65536 = false) as -> by lia. cbn [app].
  rewrite (octet_eq b0 (240 + n / 262144)) by lia. rewrite (octet_eq b1 (128 + n / 4096 mod 64)) by lia.
  rewrite (octet_eq b2 (128 + n / 64 mod 64)) by lia. rewrite (octet_eq b3 (128 + n mod 64)) by lia.
  split; [lia | reflexivity].
Qed.

Lemma next_complete c r : scalar_value c -> utf8_next (utf8_text c ++ r) = Some (c, r).
Proof.
  unfold scalar_value, utf8_text. intros S.
  destruct (c <? 128) eqn:E0.
  { cbn [app utf8_next]. rewrite octet_val by lia. rewrite E0. reflexivity. }
  destruct (c <? 2048) eqn:E1.
  { cbn [app utf8_next]. unfold is_cont, cont. rewrite !octet_val by lia.
    assert (192 + c / 64 <? 128 = false) as -> by lia. assert ((194 <=? 192 + c / 64) && (192 + c / 64 <=? 223) = true) as -> by lia.
    assert ((128 <=? 128 + c mod 64) && (128 + c mod 64 <=? 191) = true) as -> by lia. repeat f_equal. lia. }
  destruct (c <? 65536) eqn:E2.
  { cbn [app utf8_next]. unfold is_cont, cont. rewrite !octet_val by lia.
    assert (224 + c / 4096 <? 128 = false) as -> by lia. assert ((194 <=? 224 + c / 4096) && (224 + c / 4096 <=? 223) = false) as -> by lia.
    assert ((224 <=? 224 + c / 4096) && (224 + c / 4096 <=? 239) = true) as -> by lia.
    assert ((128 <=? 128 + c mod 64) && (128 + c mod 64 <=? 191) = true) as -> by lia.
    assert (((if 224 + c / 4096 =? 224 then 160 else 128) <=? 128 + c / 64 mod 64) && (128 + c / 64 mod 64 <=? (if 224 + c / 4096 =? 237 then 159 else 191)) = true) as ->.
    { destruct (224 + c / 4096 =? 224) eqn:?, (224 + c / 4096 =? 237) eqn:?; lia. }
    cbn [andb]. repeat f_equal. lia. }
  cbn [app utf8_next]. unfold is_cont, cont. rewrite !octet_val by lia.
  assert (240 + c / 262144 <? 128 = false) as -> by lia. assert ((194 <=? 240 + c / 262144) && (240 + c / 262144 <=? 223) = false) as -> by lia.
  assert ((224 <=? 240 + c / 262144) && (240 + c / 262144 <=? 239) = false) as -> by lia.
  assert ((240 <=? 240 + c / 262144) && (240 + c / 262144 <=? 244) = true) as -> by lia.
  assert ((128 <=? 128 + c / 64 mod 64) && (128 + c / 64 mod 64 <=? 191) = true) as -> by lia.
  assert ((128 <=? 128 + c mod 64) && (128 + c mod 64 <=? 191) = true) as -> by lia.
  assert (((if 240 + c / 262144 =? 240 then 144 else 128) <=? 128 + c / 4096 mod 64) && (128 + c / 4096 mod 64 <=? (if 240 + c / 262144 =? 244 then 143 else 191)) = true) as ->.
  { destruct (240 + c / 262144 =? 240) eqn:?, (240 + c / 262144 =? 244) eqn:?; lia. }
  cbn [andb]. repeat f_equal. lia.
Qed.

Lemma utf8_text_nonempty c : (1 <= length (utf8_text c))%nat.
Proof. unfold utf8_text. destruct (c <? 128), (c <? 2048), (c <? 65536); cbn; lia. Qed.

Lemma fuel_sound f : forall s l, utf8_decode_fuel f s = Some l -> spells_text l s.
Proof.
  induction f as [|f IH]; intros [|b s] l H; cbn [utf8_decode_fuel] in H; try discriminate.
  - injection H as <-. split; [constructor | reflexivity].
  - injection H as <-. split; [constructor | reflexivity].
  - destruct (utf8_next (b :: s)) as [[c r]|] eqn:N; [|discriminate]. destruct (utf8_decode_fuel f r) as [cs|] eqn:E; [|discriminate].
    injection H as <-. apply next_sound in N. destruct N as [S ->]. destruct (IH _ _ E) as [F ->]. split; [constructor; assumption | reflexivity].
Qed.

Lemma fuel_complete l : Forall scalar_value l -> forall f, (length (flat_map utf8_text l) <= f)%nat ->
  utf8_decode_fuel f (flat_map utf8_text l) = Some l.
Proof.
  induction 1 as [|c l S F IH]; intros f L; [destruct f; reflexivity|]. cbn [flat_map] in *. rewrite app_length in L.
  pose proof (utf8_text_nonempty c). destruct f as [|f]; [lia|].
  pose proof (next_complete c (flat_map utf8_text l) S) as N. destruct (utf8_text c ++ flat_map utf8_text l) as [|b s] eqn:E; [discriminate N|].
  cbn [utf8_decode_fuel]. rewrite N, IH by lia. reflexivity.
Qed.

Lemma utf8_decode_iff s l : utf8_decode s = Some l <-> spells_text l s.
Proof.
  split; [apply fuel_sound|]. intros [F ->]. apply fuel_complete; auto.
Qed.

Lemma utf8_valid_iff s : utf8_valid s = true <-> utf8 s.
Proof.
  unfold utf8_valid, utf8. split.
  - destruct (utf8_decode s) as [l|] eqn:E; [|discriminate]. exists l. apply utf8_decode_iff. exact E.
  - intros [l H]. apply utf8_decode_iff in H. rewrite H. reflexivity.
Qed.

Lemma utf8_chars_iff s l : utf8 s -> (utf8_chars s = l <-> spells_text l s).
Proof.
  intros [m H]. pose proof H as D. apply utf8_decode_iff in D. unfold utf8_chars. rewrite D. split; [intros <-; exact H|].
  intros K. apply utf8_decode_iff in K. congruence.
Qed.

Lemma utf8_app a b : utf8 a -> utf8 b -> utf8 (a ++ b).
Proof.
  intros (l & F & ->) (m & G & ->). exists (l ++ m). split; [apply Forall_app; split; assumption | symmetry; apply flat_map_app].
Qed.

