(** Lemmas about the error texts. *)

From Coq Require Import Strings.String Lia ZifyBool ZifyNat ZifyN.
From Verif Require Import Base BaseFacts Utf8 Hex Hash C32 B58 Clarity Tx Derive Messages SpecUtf8 SpecText SpecShow ShowFacts HexFacts NumFacts
  Utf8Thms SpecMessages.
Local Open Scope N_scope.

Lemma char_text_spec c : c <= 1114111 -> char_text c = utf8_text c.
Proof.
  intros H. unfold char_text, utf8_text. change octet with n2b.
  assert (L : forall n, N.lor 128 (N.land n 63) = 128 + n mod 64).
  { intros n. change 63 with (N.ones 6). rewrite N.land_ones, N.lor_comm. change 128 with (N.shiftl 2 6) at 1.
    rewrite lor_shiftl by (apply N.mod_lt; discriminate). change (2 ^ 6) with 64. lia. }
  assert (K : forall a m k, m < 2 ^ k -> N.lor (N.shiftl a k) m = a * 2 ^ k + m).
  { intros a m k X. rewrite N.lor_comm, lor_shiftl by exact X. lia. }
  rewrite !L, !N.shiftr_div_pow2. change (2 ^ 6) with 64. change (2 ^ 12) with 4096. change (2 ^ 18) with 262144.
  destruct (c <? 0x80) eqn:E0; [reflexivity|].
  destruct (c <? 0x800) eqn:E1.
  { change 192 with (N.shiftl 6 5) at 1. rewrite K by (change (2 ^ 5) with 32; lia). reflexivity. }
  destruct (c <? 0x10000) eqn:E2.
  { change 224 with (N.shiftl 14 4) at 1. rewrite K by (change (2 ^ 4) with 16; lia). reflexivity. }
  change 240 with (N.shiftl 30 3) at 1. rewrite K by (change (2 ^ 3) with 8; lia). reflexivity.
Qed.

Lemma bytes_items_rest l : exists ts, Forall2 (fun c t => decimal (Byte.to_N c) t) l ts
  /\ bytes_items false l = flat_map (fun t => [x2c; x20] ++ t) ts.
Proof.
  induction l as [|b r (ts & F & E)]; [exists []; split; [constructor | reflexivity]|].
  exists (show_N (b2n b) :: ts). split; [constructor; [apply show_N_decimal | exact F]|].
  cbn [bytes_items flat_map]. rewrite E, <- app_assoc. reflexivity.
Qed.

Lemma comma_rest t ts : comma_separated (t :: ts) = t ++ flat_map (fun t => [x2c; x20] ++ t) ts.
Proof.
  revert t. induction ts as [|u r IH]; intros t; [cbn; now rewrite app_nil_r|].
  change (comma_separated (t :: u :: r)) with (t ++ [x2c; x20] ++ comma_separated (u :: r)). rewrite IH. cbn [flat_map].
  rewrite <- app_assoc. reflexivity.
Qed.

Lemma bytes_debug_list l : byte_list l (bytes_debug l).
Proof.
  destruct l as [|b r]; [exists []; split; [constructor | reflexivity]|].
  destruct (bytes_items_rest r) as (ts & F & E). exists (show_N (b2n b) :: ts).
  split; [constructor; [apply show_N_decimal | exact F]|].
  unfold bytes_debug. cbn [bytes_items]. rewrite E, comma_rest. reflexivity.
Qed.

(** ** Reading a text *)

Lemma says t l s : reads l s -> reads (Says t :: l) (t ++ s).
Proof. intros R. exists s. split; [reflexivity | exact R]. Qed.
Lemma says_end t : reads [Says t] t.
Proof. exists []. split; [symmetry; apply app_nil_r | reflexivity]. Qed.
Lemma numbered n l s : reads l s -> reads (Number n :: l) (show_N n ++ s).
Proof. intros R. exists (show_N n), s. split; [reflexivity|]. split; [apply show_N_decimal | exact R]. Qed.
Lemma numbered_end n : reads [Number n] (show_N n).
Proof. rewrite <- (app_nil_r (show_N n)). apply numbered. reflexivity. Qed.
Lemma listed b l s : reads l s -> reads (Bytes b :: l) (bytes_debug b ++ s).
Proof. intros R. exists (bytes_debug b), s. split; [reflexivity|]. split; [apply bytes_debug_list | exact R]. Qed.
Lemma listed_end b : reads [Bytes b] (bytes_debug b).
Proof. rewrite <- (app_nil_r (bytes_debug b)). apply listed. reflexivity. Qed.
Lemma letter_end c : c <= 1114111 -> reads [Letter c] (char_text c).
Proof. intros H. exists []. rewrite app_nil_r. split; [apply char_text_spec, H | reflexivity]. Qed.

Ltac reading := repeat first [apply says_end | apply numbered_end | apply listed_end | apply says | apply numbered | apply listed].

(** ** Texts of the hash types *)

Lemma hash_debug_hex h : hash_debug h = bytes_to_hex h.
Proof.
  induction h as [|b r IH]; [reflexivity|]. cbn [hash_debug bytes_to_hex]. rewrite IH, N.shiftr_div_pow2.
  change 15 with (N.ones 4). rewrite N.land_ones. reflexivity.
Qed.

Lemma byte_list_debug b s : byte_list b s -> s = bytes_debug b.
Proof.
  intros (ts & F & ->). assert (ts = map (fun c => show_N (b2n c)) b) as ->.
  { induction F as [|c t r ts D F IH]; [reflexivity|]. cbn [map]. rewrite <- IH. f_equal. symmetry. apply decimal_show, D. }
  clear F. unfold bytes_debug. destruct b as [|c r]; [reflexivity|]. cbn [map]. rewrite comma_rest. cbn [bytes_items].
  assert (flat_map (fun t => [x2c; x20] ++ t) (map (fun c => show_N (b2n c)) r) = bytes_items false r) as ->.
  { induction r as [|d r IH]; [reflexivity|]. cbn [map flat_map bytes_items]. rewrite IH, <- app_assoc. reflexivity. }
  reflexivity.
Qed.
