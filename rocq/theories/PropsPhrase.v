(** C88: which texts open a wallet, which wallet they open, and how the others are refused. *)

From Coq Require Import Strings.String Lia.
From Verif Require Import Base BaseFacts SpecText Sha2 HashFacts Words SpecPhrase Mnemonic PhraseThms Wallet Hd SpecTree TreeThms PropsTree.
Local Open Scope N_scope.

(** Every text consists of words in exactly one way. *)
Theorem C88_words : forall t, exists ws, spells t ws /\ forall ws', spells t ws' -> ws' = ws.
Proof. intros t. destruct (every_text t) as (ws & S). exists ws. split; [exact S|]. intros ws' S'. exact (spells_fun _ _ _ S' S). Qed.
Print Assumptions C88_words.

(** The list: 2048 different words of three to eight lower-case letters, told apart by their first four. *)
Lemma prefix_inj : forall w w', known w -> known w' -> firstn 4 w = firstn 4 w' -> w = w'.
Proof.
  intros w w' I I' E. apply In_nth_error in I as [i I], I' as [j J].
  pose proof (sorted_NoDup _ (Sorted.Sorted_StronglySorted (fun a b c => N.lt_trans a b c) (rising_sorted _ english_prefixes))) as D.
  assert (X : i = j).
  { apply (NoDup_nth_error (map (fun w => key (firstn 4 w)) english)); [exact D| |].
    - rewrite map_length. apply nth_error_Some. congruence.
    - rewrite (map_nth_error _ _ _ I), (map_nth_error _ _ _ J). now rewrite E. }
  subst j. congruence.
Qed.
Theorem C88_list : length english = 2048%nat /\ NoDup english
  /\ (forall w, known w -> (3 <= length w <= 8)%nat /\ Forall (fun b => 97 <= Byte.to_N b <= 122) w)
  /\ (forall w w', known w -> known w' -> firstn 4 w = firstn 4 w' -> w = w').
Proof.
  split; [exact english_length|]. split; [exact english_NoDup|]. split; [|exact prefix_inj]. intros w I.
  pose proof english_lower as L. rewrite forallb_forall in L. specialize (L _ I). unfold lower_word in L.
  apply andb_prop in L as [L F]. apply andb_prop in L as [A B]. apply Nat.leb_le in A, B. split; [lia|].
  apply Forall_forall. intros b Ib. rewrite forallb_forall in F. specialize (F _ Ib). apply andb_prop in F as [C D].
  apply N.leb_le in C, D. unfold b2n in *. lia.
Qed.
Print Assumptions C88_list.

(** Entropies and sentences correspond one to one. *)
Theorem C88_sentences :
  (forall ent, In (length ent) [16; 20; 24; 28; 32]%nat -> exists ws, sentence ent ws /\ forall ws', sentence ent ws' -> ws' = ws)
  /\ (forall ent ent' ws, sentence ent ws -> sentence ent' ws -> ent = ent')
  /\ (forall ent ws, sentence ent ws -> fair_count (length ws) /\ Forall known ws /\ spells (joined ws) ws).
Proof.
  split; [|split].
  - intros ent I. destruct (entropy_sentence ent I) as (ws & S). exists ws. split; [exact S|]. intros ws' S'. exact (sentence_words ent ws' ws S' S).
  - exact sentence_fun.
  - intros ent ws S. destruct (sentence_known ent ws S) as [K C]. split; [exact C|]. split; [exact K|]. apply joined_spells.
    apply Forall_forall. intros w I. rewrite Forall_forall in K. now apply known_word, K.
Qed.
Print Assumptions C88_sentences.

(** Without a sentence there is no wallet, and the error says why; with one there is a wallet unless the key tree has a gap. *)
Definition error_of (f : fault) : bip39_err :=
  match f with
  | NotThatMany n => BadWordCount (N.of_nat n)
  | NoSuchWord i => UnknownWord (N.of_nat i)
  | WrongChecksum => InvalidChecksum
  end.
Lemma secret_err (H : hd) phrase e : @from_secret_key H phrase = Err (WHd e) <-> from_mnemonic H phrase = inl e.
Proof. unfold from_secret_key. destruct (from_mnemonic H phrase) as [f|k]; split; intros X; try discriminate; injection X as ->; reflexivity. Qed.
Theorem C88_refused : forall t e, @from_secret_key bip_hd t = Err (WHd (Bip39Bad e : hd_err bip_hd))
  <-> exists ws f, spells t ws /\ faulty ws f /\ e = error_of f.
Proof. intros t e. rewrite (secret_err bip_hd). exact (root_fault t e). Qed.
Print Assumptions C88_refused.
Theorem C88_underivable : forall t, @from_secret_key bip_hd t = Err (WHd (Bip32Bad : hd_err bip_hd))
  <-> exists ent ws, spells t ws /\ sentence ent ws
      /\ forall s ch s' ch', master_key (seed_of (joined ws)) s ch -> ~ descends s ch stacks_path s' ch'.
Proof. intros t. rewrite (secret_err bip_hd). exact (root_bad t). Qed.
Print Assumptions C88_underivable.
(** A word list is a sentence or has exactly one fault. *)
Theorem C88_one_fault : forall ws,
  ((exists ent, sentence ent ws) \/ exists f, faulty ws f)
  /\ (forall ent f, sentence ent ws -> ~ faulty ws f) /\ (forall f f', faulty ws f -> faulty ws f' -> f = f').
Proof.
  intros ws. split; [|split].
  - destruct (parsed ws) as [e|ns] eqn:P; [right; apply parsed_err in P as (f & G & _); eauto|left; now apply parsed_ok in P].
  - intros ent f S G. destruct S as (A & B & ns & F & V). assert (P : parsed ws = inr ns) by (apply parsed_ok; split; [exact F|exists ent; exact (conj A (conj B (ex_intro _ ns (conj F V))))]).
    assert (Q : parsed ws = inl (told f)) by (apply parsed_err; eauto). congruence.
  - intros f f' G G'. assert (P : parsed ws = inl (told f)) by (apply parsed_err; eauto). assert (Q : parsed ws = inl (told f')) by (apply parsed_err; eauto).
    rewrite P in Q. injection Q as Q. destruct f, f'; cbn [told] in Q; try discriminate; [|injection Q as Q; apply Nat2N.inj in Q; now subst..|reflexivity].
    injection Q as Q. apply Nat2N.inj in Q. now subst.
Qed.
Print Assumptions C88_one_fault.

(** Blanks between, before and after the words make no difference to anything. *)
Lemma same_words : forall t t' ws, spells t ws -> spells t' ws -> from_mnemonic bip_hd t = from_mnemonic bip_hd t'.
Proof. intros t t' ws S S'. cbn [from_mnemonic bip_hd]. now rewrite (parse_parsed t ws S), (parse_parsed t' ws S'). Qed.
Theorem C88_blanks : forall t t' ws, spells t ws -> spells t' ws -> @from_secret_key bip_hd t = from_secret_key t'.
Proof. intros t t' ws S S'. unfold from_secret_key. rewrite (same_words t t' ws S S'). reflexivity. Qed.
Print Assumptions C88_blanks.

(** Case does matter: nothing but lower-case letters and blanks occurs in a text that opens a wallet. *)
Lemma spells_bytes t ws : spells t ws -> forall b, In b t -> blank b \/ exists w, In w ws /\ In b w.
Proof.
  induction 1 as [g G|g w G W|g w b t ws G W B S IH]; intros c I.
  - left. unfold gap in G. rewrite Forall_forall in G. now apply G.
  - apply in_app_or in I as [I|I]; [left; unfold gap in G; rewrite Forall_forall in G; now apply G|]. right. exists w. cbn. auto.
  - apply in_app_or in I as [I|I]; [left; unfold gap in G; rewrite Forall_forall in G; now apply G|].
    apply in_app_or in I as [I|[<-|I]]; [right; exists w; cbn; auto|now left|]. destruct (IH c I) as [X|(x & X & Y)]; [now left|]. right. exists x. cbn. auto.
Qed.
Theorem C88_letters : forall t (w : wallet bip_hd) b, from_secret_key t = Ok w -> In b t -> blank b \/ 97 <= Byte.to_N b <= 122.
Proof.
  intros t w b E I. apply C84_wallet in E as (_ & ent & ws & S & Se & _). destruct (spells_bytes t ws S b I) as [B|(x & X & Y)]; [now left|right].
  destruct (sentence_known ent ws Se) as [K _]. rewrite Forall_forall in K. destruct C88_list as (_ & _ & L & _). destruct (L x (K x X)) as [_ F].
  rewrite Forall_forall in F. now apply F.
Qed.
Print Assumptions C88_letters.

(** What the checksum is worth: any 11, 14, 17, 20 or 23 words of the list are completed to a sentence by exactly
    128, 64, 32, 16 or 8 of the 2048 last words. *)
Theorem C88_last_word : forall ws, Forall known ws -> fair_count (S (length ws)) ->
  exists l, NoDup l /\ N.of_nat (length l) = 2 ^ (11 - N.of_nat (S (length ws)) / 3)
    /\ forall w, In w l <-> exists ent, sentence ent (ws ++ [w]).
Proof.
  intros ws K C. assert (F : exists ns, Forall2 numbered ns ws).
  { clear C. induction K as [|w ws Kw _ (ns & F)]; [exists []; constructor|]. apply known_numbered in Kw as (n & N). exists (n :: ns). now constructor. }
  destruct F as (ns & F). set (k := N.of_nat (S (length ws)) / 3). assert (B : 4 <= k <= 8 /\ N.of_nat (length ws) + 1 = 3 * k).
  { unfold k, fair_count in *. cbn [In] in C. lia. }
  destruct B as [B L]. exists (last_words ns k). split; [now apply (last_words_NoDup ws ns k)|]. split; [now apply last_words_length|].
  intros w. exact (in_last_words ws ns k F B L w).
Qed.
Print Assumptions C88_last_word.
(** So a wrong word is not always noticed: every sentence has a neighbour with another last word. *)
Theorem C88_wrong_word : forall ent ws w, sentence ent (ws ++ [w]) -> exists ent' w', w' <> w /\ ent' <> ent /\ sentence ent' (ws ++ [w']).
Proof.
  intros ent ws w S. destruct (sentence_known _ _ S) as [K C]. apply Forall_app in K as [K _]. rewrite app_length, Nat.add_1_r in C.
  destruct (C88_last_word ws K C) as (l & D & Le & I). pose proof (proj2 (I w) (ex_intro _ ent S)) as W.
  assert (X : exists w', In w' l /\ w' <> w).
  { assert (B : 8 <= N.of_nat (length l)).
    { rewrite Le. change 8 with (2 ^ 3). apply N.pow_le_mono_r; [lia|]. unfold fair_count in C. cbn [In] in C. lia. }
    destruct l as [|a [|b l]]; [cbn in B; lia..|]. inversion D as [|? ? NI D']; subst.
    destruct (bytes_eqb_spec a w) as [->|N]; [exists b; split; [cbn; auto|intros ->; apply NI; cbn; auto]|exists a; split; [cbn; auto|exact N]]. }
  destruct X as (w' & I' & N). apply I in I' as (ent' & S'). exists ent', w'. split; [exact N|]. split; [|exact S'].
  intros ->. pose proof (sentence_words _ _ _ S S') as E. apply app_inj_tail in E as [_ E]. now symmetry in E.
Qed.
Print Assumptions C88_wrong_word.

(** The sentence of sixteen zero bytes, spread over two lines; the same with a capital; with a wrong word; one word short. *)
Definition zero_words : list bytes := repeat (str "abandon"%string) 11 ++ [str "about"%string].
Lemma zero_sentence : sentence (repeat x00 16) zero_words.
Proof.
  split; [cbn; auto|]. split; [reflexivity|]. exists (repeat 0 11 ++ [3]). split; [|vm_compute; reflexivity].
  apply Forall2_app; [cbn [repeat]; repeat constructor|repeat constructor]; vm_compute; reflexivity.
Qed.
Definition two_lines : bytes := str "  abandon abandon abandon abandon abandon abandon"%string ++ [x0d; x0a]
  ++ str "abandon abandon abandon abandon abandon  about"%string ++ [x0a].
Lemma two_lines_words : spells two_lines zero_words.
Proof. apply split_iff. vm_compute. reflexivity. Qed.
Example C88_ex : spells two_lines zero_words /\ sentence (repeat x00 16) zero_words
  /\ faulty (repeat (str "abandon"%string) 11 ++ [str "About"%string]) (NoSuchWord 11)
  /\ faulty (repeat (str "abandon"%string) 12) WrongChecksum
  /\ faulty (repeat (str "abandon"%string) 11) (NotThatMany 11)
  /\ faulty (str "About"%string :: repeat (str "abandon"%string) 3) (NoSuchWord 0)
  /\ faulty [] (NotThatMany 0).
Proof.
  assert (P : forall ws e, parsed ws = inl e -> exists f, faulty ws f /\ e = told f) by (intros ws e X; now apply parsed_err).
  split; [exact two_lines_words|]. split; [exact zero_sentence|]. split; [|split; [|split; [|split]]].
  - destruct (P (repeat (str "abandon"%string) 11 ++ [str "About"%string]) (UnknownWord 11) ltac:(vm_compute; reflexivity)) as ([n|[|i]|] & G & E); try discriminate.
    injection E as E. assert (i = 10)%nat by lia. now subst i.
  - destruct (P (repeat (str "abandon"%string) 12) InvalidChecksum ltac:(vm_compute; reflexivity)) as ([n|i|] & G & E); try discriminate. exact G.
  - destruct (P (repeat (str "abandon"%string) 11) (BadWordCount 11) ltac:(vm_compute; reflexivity)) as ([n|i|] & G & E); try discriminate.
    injection E as E. assert (n = 11)%nat by lia. now subst n.
  - apply faulty_first. apply find_none. vm_compute. reflexivity.
  - constructor.
Qed.
