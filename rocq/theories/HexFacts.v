(** Proofs about Hex.v. *)

From Coq Require Import Strings.String.
From Coq Require Import Lia ZifyBool ZifyNat ZifyN.
From Verif Require Import Base BaseFacts NumFacts Hex SpecText.
Local Open Scope N_scope.

Lemma hex_char_hi b : hex_char (b2n b / 16) = nth (N.to_nat (Byte.to_N b / 16)) lower_hex_digits x00.
Proof. destruct b; reflexivity. Qed.
Lemma hex_char_lo b : hex_char (b2n b mod 16) = nth (N.to_nat (Byte.to_N b mod 16)) lower_hex_digits x00.
Proof. destruct b; reflexivity. Qed.

Lemma bytes_to_hex_text bs : bytes_to_hex bs = hex_text bs.
Proof.
  induction bs as [|b bs IH]; [reflexivity|]. cbn [bytes_to_hex hex_text flat_map app].
  rewrite hex_char_hi, hex_char_lo, IH. reflexivity.
Qed.

Lemma bytes_to_hex_length bs : length (bytes_to_hex bs) = (2 * length bs)%nat.
Proof. induction bs as [|b bs IH]; cbn [bytes_to_hex length]; lia. Qed.

Lemma hex_digit_hi b : hex_digit (hex_char (b2n b / 16)) = Some (b2n b / 16).
Proof. destruct b; reflexivity. Qed.
Lemma hex_digit_lo b : hex_digit (hex_char (b2n b mod 16)) = Some (b2n b mod 16).
Proof. destruct b; reflexivity. Qed.
Lemma hex_join b : n2b (N.lor (N.shiftl (b2n b / 16) 4) (b2n b mod 16)) = b.
Proof. destruct b; reflexivity. Qed.

Lemma hex_loop_roundtrip bs : hex_loop (bytes_to_hex bs) = Ok bs.
Proof.
  induction bs as [|b bs IH]; [reflexivity|].
  cbn [bytes_to_hex hex_loop]. rewrite hex_digit_hi, hex_digit_lo, IH. cbn [bind].
  rewrite hex_join. reflexivity.
Qed.

Lemma hex_roundtrip bs : hex_to_bytes (bytes_to_hex bs) = Ok bs.
Proof.
  unfold hex_to_bytes, lenN. rewrite bytes_to_hex_length.
  destruct (N.ltb_spec 0 (N.of_nat (2 * length bs) mod 2)); [lia|]. apply hex_loop_roundtrip.
Qed.

Lemma bytes_to_hex_inj a b : bytes_to_hex a = bytes_to_hex b -> a = b.
Proof.
  intros H. pose proof (hex_roundtrip a) as Ha. rewrite H, hex_roundtrip in Ha. congruence.
Qed.

(** Characters. *)
Lemma hex_class c :
  match hex_digit c with
  | Some v => (v <? 16) && existsb (byte_eqb c) (str "0123456789abcdefABCDEF"%string)
              && byte_eqb (hex_char v) (ascii_lower c)
  | None => negb (existsb (byte_eqb c) (str "0123456789abcdefABCDEF"%string))
  end = true.
Proof. revert c. apply all_byte_spec. vm_compute. reflexivity. Qed.

Lemma hex_digit_char c v : hex_digit c = Some v -> v < 16 /\ is_hex_char c /\ hex_char v = ascii_lower c.
Proof.
  intros H. pose proof (hex_class c) as C. rewrite H in C.
  apply andb_prop in C. destruct C as [C C3]. apply andb_prop in C. destruct C as [C1 C2].
  apply N.ltb_lt in C1. apply existsb_byte_in in C2. apply byte_eqb_eq in C3. auto.
Qed.

Lemma hex_digit_none c : hex_digit c = None -> ~ is_hex_char c.
Proof.
  intros H Hin. pose proof (hex_class c) as C. rewrite H in C.
  apply existsb_byte_in in Hin. rewrite Hin in C. discriminate.
Qed.

Lemma hex_join_split hi lo : hi < 16 -> lo < 16 ->
  b2n (n2b (N.lor (N.shiftl hi 4) lo)) / 16 = hi /\ b2n (n2b (N.lor (N.shiftl hi 4) lo)) mod 16 = lo.
Proof.
  intros Hh Hl. rewrite N.lor_comm, lor_shiftl by (change (2 ^ 4) with 16; lia).
  change (2 ^ 4) with 16. rewrite b2n_n2b_small by lia. lia.
Qed.

(** Induction two characters at a time. *)
Lemma pair_ind (P : bytes -> Prop) :
  P [] -> (forall a b r, P r -> P (a :: b :: r)) -> forall s, Nat.even (length s) = true -> P s.
Proof.
  intros H0 H2 s. remember (length s) as n eqn:Hn. revert s Hn.
  induction n as [n IH] using lt_wf_ind. intros [|a [|b r]] -> E; cbn in *; auto; try discriminate.
  apply H2, (IH (length r)); auto.
Qed.

Lemma hex_loop_good s : Nat.even (length s) = true -> Forall is_hex_char s ->
  exists b, hex_loop s = Ok b /\ bytes_to_hex b = map ascii_lower s.
Proof.
  intros E. revert s E.
  refine (pair_ind _ _ _).
  - intros _. exists []. auto.
  - intros h l r IH F. inv F. match goal with F : Forall _ (l :: r) |- _ => inv F end.
    destruct (IH ltac:(assumption)) as (t & Ht & Hx). cbn [hex_loop].
    destruct (hex_digit h) as [hi|] eqn:Hh; [|apply hex_digit_none in Hh; tauto].
    destruct (hex_digit l) as [lo|] eqn:Hl; [|apply hex_digit_none in Hl; tauto].
    rewrite Ht. cbn [bind]. eexists. split; [reflexivity|].
    apply hex_digit_char in Hh. destruct Hh as (Hh & _ & Eh).
    apply hex_digit_char in Hl. destruct Hl as (Hl & _ & El).
    destruct (hex_join_split hi lo Hh Hl) as [Dh Dl].
    cbn [bytes_to_hex map]. rewrite Dh, Dl, Eh, El, Hx. reflexivity.
Qed.

Lemma hex_loop_bad s : Nat.even (length s) = true -> ~ Forall is_hex_char s ->
  hex_loop s = Err HexBadChar.
Proof.
  intros E. revert s E.
  refine (pair_ind _ _ _).
  - intros H. contradiction H. constructor.
  - intros h l r IH F. cbn [hex_loop].
    destruct (hex_digit h) as [hi|] eqn:Hh; [|reflexivity].
    destruct (hex_digit l) as [lo|] eqn:Hl; [|reflexivity].
    apply hex_digit_char in Hh. apply hex_digit_char in Hl.
    rewrite IH; [reflexivity|]. intros Fr. apply F.
    constructor; [tauto|]. constructor; [tauto | exact Fr].
Qed.

Lemma even_mod (s : bytes) : (0 <? lenN s mod 2) = Nat.odd (length s).
Proof.
  unfold lenN. rewrite <- Nat.negb_even.
  destruct (Nat.even (length s)) eqn:E; cbn.
  - apply Nat.even_spec in E. destruct E as [k ->]. lia.
  - assert (Nat.odd (length s) = true) as O by (rewrite <- Nat.negb_even, E; reflexivity).
    apply Nat.odd_spec in O. destruct O as [k ->]. lia.
Qed.

Lemma hex_decode_exact s :
  (Nat.odd (length s) = true -> hex_to_bytes s = Err (HexUnpadded s (N.of_nat (length s)))) /\
  (Nat.even (length s) = true -> Forall is_hex_char s ->
     exists b, hex_to_bytes s = Ok b /\ bytes_to_hex b = map ascii_lower s) /\
  (Nat.even (length s) = true -> ~ Forall is_hex_char s -> hex_to_bytes s = Err HexBadChar).
Proof.
  unfold hex_to_bytes. rewrite even_mod, <- Nat.negb_even.
  repeat split; intros H.
  - rewrite H. reflexivity.
  - rewrite H. intros F. apply hex_loop_good; assumption.
  - rewrite H. intros F. apply hex_loop_bad; assumption.
Qed.
