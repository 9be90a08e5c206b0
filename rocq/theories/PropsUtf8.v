(** C71: texts are UTF-8. *)

From Coq Require Import Strings.String Lists.List Lia ZifyBool ZifyNat ZifyN.
From Verif Require Import Base BaseFacts SpecUtf8 Utf8 Utf8Facts Utf8Thms SpecText SpecAddr C32 C32Facts AddrFacts Clarity SpecWire WireFacts
  ClarityFacts ClarityTotal ClarityThms PropsClarity.
Local Open Scope string_scope.
Local Open Scope list_scope.
Local Open Scope N_scope.

(** [String::from_utf8] as every decoder calls it. *)
Theorem C71_from_utf8 : forall s,
  (utf8 s -> from_utf8 s = Ok s) /\ (~ utf8 s -> from_utf8 s = Err ClTryFromUtf8).
Proof.
  intros s. split; [apply from_utf8_yes|]. intros H. unfold from_utf8. destruct (utf8_valid s) eqn:E; [|reflexivity].
  exfalso. apply H, utf8_valid_iff, E.
Qed.
Print Assumptions C71_from_utf8.

(** [str::chars]. *)
Theorem C71_chars : forall s l, spells_text l s -> utf8_chars s = l.
Proof. intros s l H. apply utf8_chars_iff; [exists l; exact H | exact H]. Qed.
Print Assumptions C71_chars.

Theorem C71_unique : forall s l m, spells_text l s -> spells_text m s -> l = m.
Proof. intros s l m H K. apply utf8_decode_iff in H, K. congruence. Qed.
Print Assumptions C71_unique.

Lemma address_utf8 h v a : address_text h v a -> utf8 a.
Proof.
  intros T. apply address_text_spelling in T. destruct T as (t & -> & F & _). apply utf8_valid_iff, utf8_valid_ascii.
  cbn [is_ascii forallb]. apply crockford_ok_ascii in F. exact F.
Qed.
Lemma decoded_texts c : forall w, canonically_means c w -> decodable w -> Forall utf8 (texts c).
Proof.
  induction c using cval_induction; intros [] M D; cbn [denotes] in M; try contradiction; cbn [decodable texts] in *; try constructor; subst; try tauto; eauto using address_utf8.
  - destruct M as [M _]. eapply address_utf8, M.
  - destruct M as [_ ->]. constructor; [tauto | constructor].
  - destruct D as [_ D]. rewrite every_Forall in D. rewrite every2_Forall2 in M. apply Forall_flat_map.
    revert H D. induction M as [|x y l m E M IH]; intros H D; constructor; apply Forall_cons_iff in H, D; destruct H as [X H], D as [[Y _] D]; eauto.
  - destruct D as [_ D]. rewrite every_Forall in D. rewrite every2_Forall2 in M. apply Forall_flat_map.
    revert H D. induction M as [|x y l m [K E] M IH]; intros H D; constructor; apply Forall_cons_iff in H, D;
      destruct H as [X H], D as [(_ & Y & Z & _) D]; [rewrite K; constructor|]; eauto.
Qed.

(** Everything the decoder returns is made of UTF-8 strings. *)
Theorem C71_decoded : forall b c, decode_clarity_type b = Ok c -> Forall utf8 (texts c).
Proof. intros b c D. apply decode_exact in D. destruct D as (w & t & _ & D & M). eapply decoded_texts; eassumption. Qed.
Print Assumptions C71_decoded.

(** Strings and contract names that are not UTF-8 are refused, whatever follows. *)
Theorem C71_refused : forall s t, ~ utf8 s ->
  (count s < 2 ^ 32 -> decode_clarity_type (x0d :: big_endian 4 (count s) ++ s ++ t) = Err ClTryFromUtf8)
  /\ (count s < 2 ^ 32 -> decode_clarity_type (x0e :: big_endian 4 (count s) ++ s ++ t) = Err ClTryFromUtf8)
  /\ (forall v h, count s < 256 -> stacks_version v -> length h = 20%nat ->
        decode_clarity_type (x06 :: v :: h ++ big_endian 1 (count s) ++ s ++ t) = Err ClTryFromUtf8).
Proof.
  intros s t U. pose proof (proj2 (C71_from_utf8 s) U) as F. split; [|split].
  - intros L. change (dec_ascii (x0d :: big_endian 4 (count s) ++ s ++ t) = Err ClTryFromUtf8). unfold dec_ascii.
    rewrite (check_id_ok TAscii). cbn [bind]. rewrite read_len32_ok by exact L. cbn [bind]. rewrite drop5. cbn [bind].
    rewrite take_slice_app. cbn [bind]. rewrite F. reflexivity.
  - intros L. change (dec_utf8 (x0e :: big_endian 4 (count s) ++ s ++ t) = Err ClTryFromUtf8). unfold dec_utf8.
    rewrite read_len32_ok by exact L. cbn [bind]. rewrite drop5. cbn [bind].
    rewrite take_slice_app. cbn [bind]. rewrite F. reflexivity.
  - intros v h L V Lh. change (dec_prin_con (x06 :: v :: h ++ big_endian 1 (count s) ++ s ++ t) = Err ClTryFromUtf8). unfold dec_prin_con.
    destruct (c32_address_ok h v V) as (a & A & _ & _). rewrite (check_id_ok TPrinCon). cbn [bind]. rewrite big_endian_1.
    rewrite (proj2 (sub_slice_ok 2 20 _ h)) by (exists [x06; v], ([n2b (count s)] ++ s ++ t); auto). cbn [bind].
    unfold index at 1. cbn [nth_error bind]. rewrite A. cbn [bind map_err].
    rewrite (proj2 (index_ok 22 _ (n2b (count s)))).
    2:{ change (nth_error (h ++ [n2b (count s)] ++ s ++ t) 20 = Some (n2b (count s))).
        rewrite nth_error_app2 by lia. rewrite Lh. reflexivity. }
    cbn [bind]. rewrite (proj2 (drop_slice_ok 23 _ (s ++ t))).
    2:{ exists (x06 :: v :: h ++ [n2b (count s)]). split.
        - cbn [app]. rewrite <- app_assoc. reflexivity.
        - cbn [length]. rewrite app_length, Lh. reflexivity. }
    cbn [bind]. rewrite n2b_count by exact L. rewrite take_slice_app. cbn [bind]. rewrite F. reflexivity.
Qed.
Print Assumptions C71_refused.

(** A text of one-, two-, three- and four-byte characters; bytes that are no text: an overlong form, a surrogate, a cut character. *)
Example C71_ex : spells_text [97; 233; 8364; 128512] [x61; xc3; xa9; xe2; x82; xac; xf0; x9f; x98; x80]
  /\ utf8_chars [x61; xc3; xa9; xe2; x82; xac; xf0; x9f; x98; x80] = [97; 233; 8364; 128512]
  /\ ~ utf8 [xc0; x80] /\ ~ utf8 [xed; xa0; x80] /\ ~ utf8 [xe2; x82]
  /\ decode_clarity_type [x0e; x00; x00; x00; x02; xe2; x82] = Err ClTryFromUtf8
  /\ texts sample = [str "who"; sample_addr; str "abc"; str "xs"; str "hi"].
Proof.
  assert (spells_text [97; 233; 8364; 128512] [x61; xc3; xa9; xe2; x82; xac; xf0; x9f; x98; x80]) as S by (apply utf8_decode_iff; reflexivity).
  split; [exact S|]. split; [reflexivity|]. rewrite <- !utf8_valid_iff. repeat (split; [vm_compute; discriminate|]). split; reflexivity.
Qed.
