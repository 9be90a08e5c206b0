(** Lemmas about Utf8.v. *)

From Coq Require Import Lia ZifyBool ZifyNat ZifyN.
From Verif Require Import Base BaseFacts Utf8.
Local Open Scope N_scope.

Lemma utf8_ascii_fuel f s : is_ascii s = true -> (length s <= f)%nat ->
  utf8_decode_fuel f s = Some (map b2n s).
Proof.
  revert s. induction f as [|f IH]; intros [|b s] A L; cbn in L; try reflexivity; try lia.
  cbn [is_ascii forallb] in A. apply andb_prop in A. destruct A as [A1 A2].
  cbn [utf8_decode_fuel]. cbn [utf8_next]. rewrite A1. rewrite IH; [reflexivity | exact A2 | lia].
Qed.

Lemma utf8_decode_ascii s : is_ascii s = true -> utf8_decode s = Some (map b2n s).
Proof. intros A. apply utf8_ascii_fuel; auto. Qed.

Lemma utf8_valid_ascii s : is_ascii s = true -> utf8_valid s = true.
Proof. intros A. unfold utf8_valid. rewrite utf8_decode_ascii by exact A. reflexivity. Qed.

Lemma utf8_chars_ascii s : is_ascii s = true -> utf8_chars s = map b2n s.
Proof. intros A. unfold utf8_chars. rewrite utf8_decode_ascii by exact A. reflexivity. Qed.

(** Concatenation. *)
Lemma utf8_next_app bs c r t : utf8_next bs = Some (c, r) -> utf8_next (bs ++ t) = Some (c, r ++ t).
Proof.
  destruct bs as [|b0 r0]; [discriminate|]. cbn [utf8_next app].
  destruct (b2n b0 <? 128); [intros [= <- <-]; reflexivity|].
  destruct ((194 <=? b2n b0) && (b2n b0 <=? 223)).
  { destruct r0 as [|b1 r1]; [discriminate|]. cbn [app]. destruct (is_cont (b2n b1)); [|discriminate].
    intros [= <- <-]. reflexivity. }
  destruct ((224 <=? b2n b0) && (b2n b0 <=? 239)).
  { destruct r0 as [|b1 [|b2 r2]]; try discriminate. cbn [app].
    match goal with |- context [if ?x then _ else _] => destruct x end; [|discriminate]. intros [= <- <-]. reflexivity. }
  destruct ((240 <=? b2n b0) && (b2n b0 <=? 244)); [|discriminate].
  destruct r0 as [|b1 [|b2 [|b3 r3]]]; try discriminate. cbn [app].
  match goal with |- context [if ?x then _ else _] => destruct x end; [|discriminate]. intros [= <- <-]. reflexivity.
Qed.

Lemma utf8_fuel_app f : forall bs cs g t ds, utf8_decode_fuel f bs = Some cs ->
  utf8_decode_fuel g t = Some ds -> utf8_decode_fuel (f + g) (bs ++ t) = Some (cs ++ ds).
Proof.
  assert (forall g h t ds, utf8_decode_fuel g t = Some ds -> (g <= h)%nat -> utf8_decode_fuel h t = Some ds) as M.
  { induction g as [|g IH]; intros [|h] [|b t] ds H L; cbn [utf8_decode_fuel] in *; try discriminate; try lia; auto.
    destruct (utf8_next (b :: t)) as [[c r]|]; [|discriminate].
    destruct (utf8_decode_fuel g r) as [cs|] eqn:E; [|discriminate].
    rewrite (IH h r cs E ltac:(lia)). exact H. }
  induction f as [|f IH]; intros [|b bs] cs g t ds H G; cbn [utf8_decode_fuel] in H; try discriminate.
  - injection H as <-. cbn [app]. apply (M g); auto.
  - injection H as <-. cbn [app]. apply (M g); auto. lia.
  - destruct (utf8_next (b :: bs)) as [[c r]|] eqn:N; [|discriminate].
    destruct (utf8_decode_fuel f r) as [cs'|] eqn:E; [|discriminate]. injection H as <-.
    change (S f + g)%nat with (S (f + g)). cbn [app utf8_decode_fuel].
    change (b :: bs ++ t) with ((b :: bs) ++ t). rewrite (utf8_next_app _ _ _ t N).
    rewrite (IH _ _ _ _ _ E G). reflexivity.
Qed.

Lemma utf8_valid_app a b : utf8_valid a = true -> utf8_valid b = true -> utf8_valid (a ++ b) = true.
Proof.
  unfold utf8_valid, utf8_decode. rewrite app_length.
  destruct (utf8_decode_fuel (length a) a) eqn:A; [|discriminate].
  destruct (utf8_decode_fuel (length b) b) eqn:B; [|discriminate]. intros _ _.
  rewrite (utf8_fuel_app _ _ _ _ _ _ A B). reflexivity.
Qed.
