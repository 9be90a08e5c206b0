(** Proofs about Base58Check. *)

From Coq Require Import Lia ZifyBool ZifyNat ZifyN Strings.String.
From Verif Require Import Base BaseFacts Utf8 Utf8Facts SpecUtf8 NumFacts SpecText SpecAddr Sha2 Hash HashFacts
     C32Facts AddrFacts B58 B58Facts.
Local Open Scope N_scope.

Lemma all_zero_value b : value 256 (map b2n b) = 0 <-> Forall (eq x00) b.
Proof.
  split.
  - intros V. apply value0_repeat in V. rewrite V. apply Forall_forall. intros x X.
    apply repeat_spec in X. auto.
  - intros F. assert (b = repeat x00 (length b)) as ->.
    { induction F as [|x b <- _ IH]; [reflexivity|]. cbn [length repeat]. congruence. }
    rewrite map_b2n_zeros. apply value_repeat0.
Qed.

Lemma base58check_encode_text {E} h v : ~ Forall (eq x00) (v :: h ++ addr_sum v h) ->
  exists s, @base58check_encode E h v = Ok s /\ base58check_text h v s.
Proof.
  intros NZ. apply b58_encode_numeral. right. rewrite all_zero_value. exact NZ.
Qed.

Lemma app_minus4 {A} (l m : list A) : length m = 4%nat -> (length (l ++ m) - 4)%nat = length l.
Proof. intros H. rewrite app_length. lia. Qed.

Lemma base58check_decode_text h v s : base58check_text h v s -> base58check_decode s = Ok (h, v).
Proof.
  intros T. unfold base58check_decode. rewrite (numeral58_decode _ _ T). cbn [bind].
  change (v :: h ++ addr_sum v h) with ((v :: h) ++ addr_sum v h).
  pose proof (addr_sum_length v h) as L4.
  rewrite (app_minus4 (v :: h) _ L4).
  destruct (Nat.ltb_spec (length ((v :: h) ++ addr_sum v h)) 4) as [C|_];
    [rewrite app_length, L4 in C; lia|].
  destruct (Nat.ltb_spec (length (v :: h)) 1) as [C|_]; [cbn in C; lia|].
  rewrite firstn_app_exact, skipn_app_exact. cbn [skipn].
  change (firstn 4 (dsha256 (v :: h))) with (addr_sum v h). rewrite bytes_eqb_refl. reflexivity.
Qed.

(** Everything [base58check_decode] does, in terms of what [b58_decode] returned. *)
Lemma base58check_decode_cases s buff : b58_decode s = Ok buff ->
  ((length buff <= 4)%nat /\ base58check_decode s = Panic (if Nat.eqb (length buff) 4 then PIndex else POverflow))
  \/ exists v h sum, buff = v :: h ++ sum /\ length sum = 4%nat
     /\ base58check_decode s =
        if bytes_eqb sum (addr_sum v h) then Ok (h, v)
        else Err (B58BadChecksum sum (sha256 (sha256 (v :: h)))).
Proof.
  intros D. unfold base58check_decode. rewrite D. cbn [bind].
  destruct (Nat.ltb_spec (length buff) 4) as [C|C]; [left; split; [lia|]; destruct (Nat.eqb_spec (length buff) 4); [lia|reflexivity]|].
  destruct (Nat.ltb_spec (length buff - 4) 1) as [C1|C1];
    [left; split; [lia|]; destruct (Nat.eqb_spec (length buff) 4); [reflexivity|lia]|].
  right. set (k := (length buff - 4)%nat) in *.
  destruct buff as [|v r]; [cbn in C; lia|].
  pose proof (firstn_skipn k (v :: r)) as FS.
  assert (L : length (skipn k (v :: r)) = 4%nat) by (rewrite skipn_length; unfold k; lia).
  destruct k as [|k']; [lia|]. cbn [firstn skipn] in *.
  exists v, (firstn k' r), (skipn k' r).
  split; [rewrite firstn_skipn; reflexivity|]. split; [exact L|]. reflexivity.
Qed.

Lemma base58check_decode_iff s h v : utf8 s ->
  (base58check_decode s = Ok (h, v) <-> base58check_text h v s).
Proof.
  intros U. split; [|apply base58check_decode_text]. intros H.
  destruct (b58_decode s) as [buff| | |] eqn:D;
    try (unfold base58check_decode in H; rewrite D in H; discriminate).
  destruct (base58check_decode_cases s buff D) as [(_ & P)|(v' & h' & sm & E & L & R)];
    [congruence|].
  rewrite R in H. destruct (bytes_eqb_spec sm (addr_sum v' h')) as [Q|]; [|discriminate].
  injection H as -> ->. subst buff. rewrite Q in D. apply b58_decode_ok_iff in D; assumption.
Qed.

Lemma base58check_text_unique h v s s' : base58check_text h v s -> base58check_text h v s' -> s = s'.
Proof. apply numeral58_unique. Qed.
