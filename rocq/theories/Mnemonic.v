(** Reading a secret phrase: [bip39::Mnemonic::parse] (crate [bip39] 2.0, English, the only list its default features enable) as
    called at /repo/stacks/src/wallet.rs:104.

    Simplified: the crate first applies Unicode NFKD, which leaves ASCII text alone; a phrase here is taken as ASCII.  (Beyond
    ASCII the crate also takes compatibility characters, such as full-width letters, for the letters they stand for.) *)

From Verif Require Import Base Sha2 Words.
Local Open Scope N_scope.

(** [bip39::Error], the variants that [parse] returns. *)
Inductive bip39_err := BadWordCount (n : N) | UnknownWord (i : N) | InvalidChecksum.

(** [char::is_whitespace] on ASCII, [str::split_whitespace]; [cur] is the word being read, reversed. *)
Definition is_blank (b : byte) : bool := (b2n b =? 32) || ((9 <=? b2n b) && (b2n b <=? 13)).
Fixpoint split_ws (cur t : bytes) : list bytes :=
  match t with
  | [] => match cur with [] => [] | _ => [rev cur] end
  | b :: r => if is_blank b then match cur with [] => split_ws [] r | _ => rev cur :: split_ws [] r end
              else split_ws (b :: cur) r
  end.
Definition split_whitespace (t : bytes) : list bytes := split_ws [] t.

(** [Language::find_word]: the position of a word in a list. *)
Fixpoint position (w : bytes) (l : list bytes) (i : N) : option N :=
  match l with
  | [] => None
  | x :: r => if bytes_eqb w x then Some i else position w r (i + 1)
  end.
Definition find_word (w : bytes) : option N := position w english 0.

(** The loop over the words: their numbers, or the place of the first one not in the list. *)
Fixpoint find_words (ws : list bytes) (i : N) : bip39_err + list N :=
  match ws with
  | [] => inr []
  | w :: r => match find_word w with
              | None => inl (UnknownWord i)
              | Some n => match find_words r (i + 1) with inr ns => inr (n :: ns) | inl e => inl e end
              end
  end.

(** [is_invalid_word_count]. *)
Definition bad_count (n : nat) : bool := Nat.ltb n 12 || Nat.ltb 24 n || negb (Nat.eqb (Nat.modulo n 3) 0).

(** [bits[i * 11 + j] = idx >> (10 - j) & 1 == 1]. *)
Definition bits11 (n : N) : list bool := map (fun j => N.testbit n (10 - N.of_nat j)) (seq 0 11).
(** [entropy[i] += 1 << (7 - j)] for every bit set among the eight from [i * 8]. *)
Definition byte_at (bits : list bool) (i : nat) : byte :=
  n2b (fold_left (fun a j => if nth (i * 8 + j) bits false then a + 2 ^ (7 - N.of_nat j) else a) (seq 0 8) 0).
Definition entropy_of (nb : nat) (bits : list bool) : bytes := map (byte_at bits) (seq 0 nb).
(** [check[i / 8] & (1 << (7 - (i % 8)))  > 0]. *)
Definition check_bit (check : bytes) (i : nat) : bool :=
  N.testbit (b2n (nth (Nat.div i 8) check x00)) (7 - N.of_nat (Nat.modulo i 8)).

(** [Mnemonic::parse_in_normalized] on the words: the numbers of the words of a phrase with a good checksum. *)
Definition parse_words (ws : list bytes) : bip39_err + list N :=
  let nb_words := length ws in
  if bad_count nb_words then inl (BadWordCount (N.of_nat nb_words))
  else match find_words ws 0 with
       | inl e => inl e
       | inr ns =>
         let bits := concat (map bits11 ns) in
         let nb := (nb_words / 3 * 4)%nat in
         let check := sha256 (entropy_of nb bits) in
         if forallb (fun i => Bool.eqb (nth (8 * nb + i) bits false) (check_bit check i)) (seq 0 (nb / 4))
         then inr ns else inl InvalidChecksum
       end.

(** [Mnemonic::language_of]: the first word decides whether the phrase is English at all. *)
Definition language_of (ws : list bytes) : bip39_err + unit :=
  match ws with
  | [] => inl (BadWordCount 0)
  | w :: _ => match find_word w with Some _ => inr tt | None => inl (UnknownWord 0) end
  end.

(** [Mnemonic::parse]. *)
Definition parse_phrase (t : bytes) : bip39_err + list N :=
  let ws := split_whitespace t in
  match language_of ws with inl e => inl e | inr _ => parse_words ws end.

(** The words of a parsed phrase with single spaces between them: what [to_seed_normalized] hashes. *)
Fixpoint spaced (ws : list bytes) : bytes :=
  match ws with
  | [] => []
  | [w] => w
  | w :: r => w ++ x20 :: spaced r
  end.
Definition phrase_text (ns : list N) : bytes := spaced (map (fun n => nth (N.to_nat n) english []) ns).
