(** Property theorem C99: a struct filled from a contract's answer says what the answer says. *)

From Coq Require Import Strings.String Sorting.Permutation.
From Verif Require Import Base Utf8Thms Hex SpecAddr Clarity SpecWire WireFacts SpecShow Tx Derive Rpc SpecClient ClientThms SpecFlow FlowThms
     PropsClarity PropsFlow SpecStruct StructThms.
Local Open Scope N_scope.

(** A node answers a question to a contract with a tuple.  The answer, once its "0x" is dropped, decodes to a tuple from which a
    struct is filled exactly when its fields hold what the tuple on the wire holds. *)
Theorem C99_answer : forall http url addr name fname args sender ws r j l, Forall2 means args ws -> Forall (wall fits1) ws ->
  http (post_json (url ++ str "/v2/contracts/call-read/"%string ++ addr ++ str "/"%string ++ name ++ str "/"%string ++ fname)
          (call_question sender ws)) = OOk r ->
  rs_json r = Some j -> result_json j true (value_answer (WTuple l)) -> proper (WTuple l) -> keyed (WTuple l) ->
  exists a b t, read_only http url addr name fname args sender = Ok (ROk true a)
  /\ hex_to_bytes (skipn 2 a) = Ok b /\ decode_clarity_type b = Ok (CTuple t)
  /\ forall s fields xs, derive_fields s fields t = Ok xs <-> holds_all l fields xs.
Proof.
  intros http url addr name fname args sender ws r j l M F Hh J R P K.
  destruct (C67_read_only http url addr name fname args sender ws r j (WTuple l) M F Hh J R P) as (A & _ & b & c & B & D & G).
  destruct c as [| | | | | | | | | | | |t| | | |]; try contradiction. exists (value_answer (WTuple l)), b, t.
  split; [exact A|]. split; [exact B|]. split; [exact D|]. intros s fields xs. rewrite derive_ok. apply fills_all_holds; assumption.
Qed.
Print Assumptions C99_answer.

(** The same of any bytes that encode a tuple, wherever they come from. *)
Theorem C99_decoded : forall l s fields xs, proper (WTuple l) -> keyed (WTuple l) ->
  exists t, decode_clarity_type (wser (WTuple l)) = Ok (CTuple t) /\ (derive_fields s fields t = Ok xs <-> holds_all l fields xs).
Proof.
  intros l s fields xs P K. destruct (answer_read _ P) as [_ (c & _ & D & G)].
  destruct c as [| | | | | | | | | | | |t| | | |]; try contradiction. exists t. split; [exact D|].
  rewrite derive_ok. apply fills_all_holds; assumption.
Qed.
Print Assumptions C99_decoded.

(** What is read does not depend on the order of the entries, nor on entries that no field names. *)
Theorem C99_order : forall l l' fields xs, Permutation l l' -> (holds_all l fields xs <-> holds_all l' fields xs).
Proof.
  intros l l' fields xs P. apply every2_iff. intros f y. split; apply holds_perm; [exact P | symmetry; exact P].
Qed.
Print Assumptions C99_order.

Theorem C99_others : forall l fields xs k w, ~ In k (map fst fields) -> (holds_all ((k, w) :: l) fields xs <-> holds_all l fields xs).
Proof.
  intros l fields xs k w N. unfold holds_all. rewrite !every2_Forall2.
  assert (forall f y, fst f <> k -> (holds ((k, w) :: l) (fst f) (snd f) y <-> holds l (fst f) (snd f) y)) as E
    by (intros f y H; apply holds_other; exact H).
  revert xs N. induction fields as [|f fs IH]; intros xs N.
  - split; intros F; inversion F; constructor.
  - cbn in N. split; intros F; inversion F; subst; constructor; try (apply IH; tauto); apply E; auto.
Qed.
Print Assumptions C99_others.

(** A tuple given to a contract that returns it is read back as it was given: if its addresses are canonical it comes back as the
    same tuple, so every struct is filled, or refused, alike. *)
Theorem C99_echo : forall l t s fields, canonically_means (CTuple t) (WTuple l) -> proper (WTuple l) ->
  exists b t', hex_to_bytes (skipn 2 (value_answer (WTuple l))) = Ok b /\ decode_clarity_type b = Ok (CTuple t')
  /\ derive_fields s fields t' = derive_fields s fields t.
Proof.
  intros l t s fields C P. destruct (answer_read _ P) as [_ (c & B & D & G)]. rewrite (canonical_unique _ _ _ G C) in D.
  exists (wser (WTuple l)), t. auto.
Qed.
Print Assumptions C99_echo.

(** Fields of integers, responses with integers, booleans and bytes tell the value on the wire: two answers read alike have the same
    value there. *)
Theorem C99_tells : forall l l' k ft x, telling ft = true -> holds l k ft x -> holds l' k ft x -> exists w, In (k, w) l /\ In (k, w) l'.
Proof.
  intros l l' k ft x T A B. destruct ft; try discriminate T; destruct x; cbn in A, B; try contradiction; eauto.
Qed.
Print Assumptions C99_tells.

(** Finding: an optional integer tells nothing when it is absent: the answer may have held a value of any other type, even the other
    kind of integer.  And a string field holds a Clarity string in its quotation marks, not the string. *)
Theorem C99_options_refuted : exists l l' k, proper (WTuple l) /\ proper (WTuple l') /\ In (k, WSome (WUInt 7)) l /\ In (k, WNone) l'
  /\ holds l k FOptI128 (VOptI None) /\ holds l' k FOptI128 (VOptI None).
Proof.
  exists [(str "a", WSome (WUInt 7))], [(str "a", WNone)], (str "a").
  split; [unfold proper; repeat split; try reflexivity; try discriminate; apply utf8_valid_iff; reflexivity|].
  split; [unfold proper; repeat split; try reflexivity; try discriminate; apply utf8_valid_iff; reflexivity|].
  split; [left; reflexivity|]. split; [left; reflexivity|]. split; eexists; (split; [left; reflexivity | discriminate]).
Qed.
Print Assumptions C99_options_refuted.

Theorem C99_strings_refuted : forall k s x, holds [(k, WAscii s)] k FString (VString x) <-> x = x22 :: s ++ [x22].
Proof.
  intros k s x. cbn [holds]. split.
  - intros (w & [E|[]] & c & M & S). injection E as <-. destruct c; try contradiction. cbn in M, S. congruence.
  - intros ->. exists (WAscii s). split; [left; reflexivity|]. exists (CAscii s). split; reflexivity.
Qed.
Print Assumptions C99_strings_refuted.

(** A tuple with an owner, a nested tuple, an optional and a response. *)
Definition ex_answer : list (bytes * wval) :=
  [(str "data", WTuple [(str "on", WTrue); (str "raw", WBuf [x01; x02])]); (str "id", WUInt 5); (str "limit", WSome (WUInt 9));
   (str "owner", WStd x16 (repeat x01 20)); (str "res", WOk (WInt (-3))); (str "tags", WList [WAscii (str "a"); WNone])].
Example C99_ex : proper (WTuple ex_answer) /\ keyed (WTuple ex_answer)
  /\ holds_all ex_answer
       [(str "id", FU128); (str "owner", FString); (str "data", FStruct (str "Inner") [(str "raw", FVecU8); (str "on", FBool)]);
        (str "limit", FOptU128); (str "res", FI128Resp); (str "tags", FVecString)]
       [VU128 5; VString sample_addr; VStruct [VBytes [x01; x02]; VBool true]; VOptU (Some 9); VI128 (-3);
        VStrings [str """a"""; str "none"]].
Proof.
  split; [|split].
  - unfold proper. repeat split; try reflexivity; try discriminate; try (apply utf8_valid_iff; reflexivity).
    + apply Forall_forall. intros c [<- | []]; reflexivity.
    + right. right. left. reflexivity.
  - unfold keyed. cbn. repeat split; repeat constructor; cbn; intuition discriminate.
  - split; [right; left; reflexivity|]. split.
    { exists (WStd x16 (repeat x01 20)). split; [do 3 right; left; reflexivity|]. exists (CPrinStd sample_addr). split; [|reflexivity].
      exact sample_address. }
    split.
    { exists [(str "on", WTrue); (str "raw", WBuf [x01; x02])]. split; [left; reflexivity|].
      split; [right; left; reflexivity|]. split; [left; reflexivity | exact I]. }
    split; [do 2 right; left; reflexivity|]. split; [do 4 right; left; reflexivity|]. split; [|exact I].
    exists [WAscii (str "a"); WNone]. split; [do 5 right; left; reflexivity|].
    split; [exists (CAscii (str "a")); split; reflexivity|]. split; [exists CNone; split; [exact I | reflexivity] | exact I].
Qed.
