(** Proofs about C32.v. *)

From Coq Require Import Strings.String.
From Coq Require Import Lia ZifyBool ZifyNat ZifyN.
From Verif Require Import Base BaseFacts Utf8 Utf8Facts NumFacts SpecText Sha2 Hash HashFacts C32.
Local Open Scope N_scope.

(** ** The alphabet *)

(** Character of a digit, as the specification writes it. *)
Definition c32a (d : N) : byte := nth (N.to_nat d) crockford x00.

Lemma c32_char_ok {E} d : d < 32 -> @c32_char E d = Ok (c32a d).
Proof.
  intros H. unfold c32_char, index, c32a. change c32_alphabet with crockford.
  rewrite (nth_error_nth' _ x00) by (change (length crockford) with 32%nat; lia). reflexivity.
Qed.

Lemma c32_char_panic {E} d : 32 <= d -> @c32_char E d = Panic PIndex.
Proof.
  intros H. unfold c32_char, index. change c32_alphabet with crockford.
  destruct (nth_error crockford (N.to_nat d)) eqn:X; [|reflexivity].
  assert (nth_error crockford (N.to_nat d) <> None) as Y by congruence.
  apply nth_error_Some in Y. change (length crockford) with 32%nat in Y. lia.
Qed.

Definition digits32 : list N := map N.of_nat (seq 0 32).
Lemma digits32_in d : d < 32 -> In d digits32.
Proof. intros H. apply in_map_iff. exists (N.to_nat d). rewrite in_seq. lia. Qed.

Lemma forall32 (f : N -> bool) : forallb f digits32 = true -> forall d, d < 32 -> f d = true.
Proof. rewrite forallb_forall. intros H d Hd. apply H, digits32_in, Hd. Qed.

(** Value of a digit character in the decoding table. *)
Definition c32v (c : byte) : Z := nth (N.to_nat (b2n c)) c32_byte_map (-1)%Z.

Lemma c32v_c32a d : d < 32 -> c32v (c32a d) = Z.of_N d.
Proof.
  intros H. apply Z.eqb_eq. revert d H.
  apply (forall32 (fun d => Z.eqb (c32v (c32a d)) (Z.of_N d))). vm_compute. reflexivity.
Qed.

Lemma c32a_inj a b : a < 32 -> b < 32 -> c32a a = c32a b -> a = b.
Proof. intros Ha Hb H. apply (f_equal c32v) in H. rewrite !c32v_c32a in H by assumption. lia. Qed.

Lemma c32a_ascii d : d < 32 -> b2n (c32a d) <? 128 = true.
Proof.
  revert d. apply (forall32 (fun d => b2n (c32a d) <? 128)). vm_compute. reflexivity.
Qed.

Lemma map_c32a_ascii ds : Forall (fun d => d < 32) ds -> is_ascii (map c32a ds) = true.
Proof.
  induction 1 as [|d ds H _ IH]; [reflexivity|]. cbn [map is_ascii forallb].
  rewrite c32a_ascii by exact H. exact IH.
Qed.

Lemma map_c32a_inj a b : Forall (fun d => d < 32) a -> Forall (fun d => d < 32) b ->
  map c32a a = map c32a b -> a = b.
Proof.
  revert b. induction a as [|x a IH]; intros [|y b] Fa Fb H; try discriminate; [reflexivity|].
  inv Fa. inv Fb. injection H as Hx H. apply c32a_inj in Hx; try assumption. subst.
  f_equal. apply IH; assumption.
Qed.

(** ** Little-endian regrouping: encoding *)

Definition lev (base : N) (ds : list N) : N := value base (rev ds).

Lemma lev_snoc base ds d : lev base (ds ++ [d]) = lev base ds + d * base ^ N.of_nat (length ds).
Proof. unfold lev. rewrite rev_app_distr. cbn [rev app]. rewrite value_cons, rev_length. lia. Qed.

Lemma lev_app base a b : lev base (a ++ b) = lev base a + lev base b * base ^ N.of_nat (length a).
Proof. unfold lev. rewrite rev_app_distr, value_app, rev_length. lia. Qed.

Lemma lev_cons base d ds : lev base (d :: ds) = d + base * lev base ds.
Proof.
  change (d :: ds) with ([d] ++ ds). rewrite lev_app.
  replace (lev base [d]) with d by reflexivity. change (N.of_nat (length [d])) with 1.
  rewrite N.pow_1_r. lia.
Qed.

Lemma enc_drain_ok fuel : forall buff bits acc,
  bits <= N.of_nat fuel -> buff < 2 ^ bits ->
  exists buff' bits' ds,
    c32_enc_drain fuel buff bits acc = Ok (buff', bits', acc ++ map c32a ds)
    /\ bits' < 5 /\ buff' < 2 ^ bits' /\ Forall (fun d => d < 32) ds
    /\ bits = 5 * lenN ds + bits'
    /\ buff = lev 32 ds + buff' * 32 ^ lenN ds.
Proof.
  induction fuel as [|f IH]; intros buff bits acc L B; cbn [c32_enc_drain].
  - destruct (N.ltb_spec bits 5); [|lia].
    exists buff, bits, []. rewrite app_nil_r. cbn. repeat split; auto; lia.
  - destruct (N.ltb_spec bits 5).
    + exists buff, bits, []. rewrite app_nil_r. cbn. repeat split; auto; lia.
    + change 31 with (N.ones 5). rewrite N.land_ones, N.shiftr_div_pow2.
      change (2 ^ 5) with 32.
      assert (D : buff mod 32 < 32) by (apply N.mod_lt; lia).
      rewrite c32_char_ok by exact D. cbn [bind].
      destruct (IH (buff / 32) (bits - 5) (acc ++ [c32a (buff mod 32)])) as
          (buff' & bits' & ds & E & H1 & H2 & H3 & H4 & H5); [lia| |].
      { apply N.div_lt_upper_bound; [lia|]. change 32 with (2 ^ 5).
        rewrite <- N.pow_add_r. replace (5 + (bits - 5)) with bits by lia. exact B. }
      exists buff', bits', (buff mod 32 :: ds). rewrite E, <- app_assoc. cbn [app map].
      rewrite lenN_cons. repeat split; auto; try lia.
      rewrite lev_cons, N.pow_add_r, N.pow_1_r.
      rewrite (N.div_mod buff 32) at 1 by lia. rewrite H5. lia.
Qed.

Lemma enc_loop_ok data : forall buff bits acc,
  bits < 5 -> buff < 2 ^ bits ->
  exists buff' bits' ds,
    c32_enc_loop data buff bits acc = Ok (buff', bits', acc ++ map c32a ds)
    /\ bits' < 5 /\ buff' < 2 ^ bits' /\ Forall (fun d => d < 32) ds
    /\ 8 * lenN data + bits = 5 * lenN ds + bits'
    /\ buff + 2 ^ bits * lev 256 (map b2n data) = lev 32 ds + buff' * 32 ^ lenN ds.
Proof.
  induction data as [|b data IH]; intros buff bits acc L B; cbn [c32_enc_loop].
  - exists buff, bits, []. rewrite app_nil_r. cbn. repeat split; auto; lia.
  - pose proof (b2n_lt b) as Hb.
    assert (S : N.shiftl (b2n b) bits mod 2 ^ 32 = N.shiftl (b2n b) bits).
    { apply N.mod_small. rewrite N.shiftl_mul_pow2.
      assert (2 ^ bits <= 2 ^ 5) by (apply N.pow_le_mono_r; lia).
      change (2 ^ 5) with 32 in *. change (2 ^ 32) with 4294967296. nia. }
    rewrite S, lor_shiftl by exact B.
    destruct (enc_drain_ok (N.to_nat (bits + 8)) (buff + b2n b * 2 ^ bits) (bits + 8) acc)
      as (buff1 & bits1 & ds1 & E1 & A1 & A2 & A3 & A4 & A5); [lia| |].
    { rewrite N.pow_add_r. change (2 ^ 8) with 256. nia. }
    rewrite E1. cbn [bind].
    destruct (IH buff1 bits1 (acc ++ map c32a ds1) A1 A2)
      as (buff2 & bits2 & ds2 & E2 & B1 & B2 & B3 & B4 & B5).
    exists buff2, bits2, (ds1 ++ ds2). rewrite E2, map_app, app_assoc.
    rewrite !lenN_app, lenN_cons. repeat split; auto; try lia.
    { apply Forall_app. auto. }
    cbn [map]. rewrite lev_cons, lev_app.
    assert (P : 2 ^ bits * 256 = 32 ^ lenN ds1 * 2 ^ bits1).
    { change 256 with (2 ^ 8). change 32 with (2 ^ 5). rewrite <- N.pow_mul_r, <- !N.pow_add_r.
      f_equal. lia. }
    change (N.of_nat (length ds1)) with (lenN ds1). rewrite N.pow_add_r.
    transitivity ((buff + b2n b * 2 ^ bits) + (2 ^ bits * 256) * lev 256 (map b2n data)); [lia|].
    rewrite P, A5.
    transitivity (lev 32 ds1 + 32 ^ lenN ds1 * (buff1 + 2 ^ bits1 * lev 256 (map b2n data))); [lia|].
    rewrite B5. lia.
Qed.

(** ** Leading characters *)

Lemma drop_lead_c32a ds : Forall (fun d => d < 32) ds ->
  drop_lead (c32a 0) (map c32a ds) = map c32a (strip0 ds).
Proof.
  induction 1 as [|d ds H _ IH]; [reflexivity|]. cbn [map drop_lead].
  destruct (byte_eqb_spec (c32a d) (c32a 0)) as [E|E].
  - apply c32a_inj in E; [|assumption|lia]. subst. exact IH.
  - destruct d; [congruence|reflexivity].
Qed.

Lemma drop_lead_x00 bs : map b2n (drop_lead x00 bs) = strip0 (map b2n bs).
Proof.
  induction bs as [|b bs IH]; [reflexivity|]. cbn [map drop_lead].
  destruct (byte_eqb_spec b x00) as [->|E]; [exact IH|].
  cbn [map]. destruct (b2n b) eqn:X; [|reflexivity].
  exfalso. apply E. apply b2n_inj. rewrite X. reflexivity.
Qed.

Lemma push_leading_spec data c v :
  push_leading x00 data c v = v ++ repeat c (lead0 (map b2n data)).
Proof.
  revert v. induction data as [|b data IH]; intros v; cbn [push_leading map lead0 repeat].
  - symmetry. apply app_nil_r.
  - destruct (byte_eqb_spec b x00) as [->|E].
    + rewrite IH, <- app_assoc. reflexivity.
    + destruct (b2n b) eqn:X; [|symmetry; apply app_nil_r].
      exfalso. apply E. apply b2n_inj. rewrite X. reflexivity.
Qed.

Lemma rev_repeat {A} (x : A) k : rev (repeat x k) = repeat x k.
Proof.
  induction k as [|k IH]; [reflexivity|]. cbn [repeat rev]. rewrite IH. symmetry. apply repeat_cons.
Qed.

(** ** c32_encode *)

Lemma map_map_c32a_repeat k : map c32a (repeat 0 k) = repeat (c32a 0) k.
Proof. induction k as [|k IH]; cbn [repeat map]; congruence. Qed.

Lemma c32_encode_digits b :
  exists ds, c32_encode b = Ok (map c32a ds) /\ Forall (fun d => d < 32) ds
             /\ value 32 ds = value 256 (map b2n b) /\ lead0 ds = lead0 (map b2n b).
Proof.
  unfold c32_encode.
  destruct (enc_loop_ok (rev b) 0 0 [] ltac:(lia) ltac:(cbn; lia))
    as (buff & bits & ds & E & B1 & B2 & B3 & B4 & B5).
  rewrite E. cbn [bind app].
  assert (X : exists ds1,
    (if 0 <? bits then let* c := c32_char (N.land buff 31) in Ok (map c32a ds ++ [c])
     else Ok (map c32a ds)) = (Ok (map c32a ds1) : res c32_err bytes)
    /\ Forall (fun d => d < 32) ds1 /\ lev 32 ds1 = value 256 (map b2n b)).
  { change (2 ^ 0) with 1 in B5. rewrite N.mul_1_l, N.add_0_l in B5.
    assert (V : lev 256 (map b2n (rev b)) = value 256 (map b2n b)).
    { unfold lev. rewrite map_rev, rev_involutive. reflexivity. }
    destruct (N.ltb_spec 0 bits).
    - assert (buff < 32).
      { eapply N.lt_le_trans; [exact B2|]. change 32 with (2 ^ 5). apply N.pow_le_mono_r; lia. }
      change 31 with (N.ones 5). rewrite N.land_ones, N.mod_small by assumption.
      rewrite c32_char_ok by assumption. cbn [bind].
      exists (ds ++ [buff]). rewrite map_app. split; [reflexivity|]. split.
      + apply Forall_app. split; [assumption|]. constructor; auto.
      + rewrite lev_snoc. change (N.of_nat (length ds)) with (lenN ds). congruence.
    - exists ds. split; [reflexivity|]. split; [assumption|].
      assert (buff = 0) as -> by (replace bits with 0 in B2 by lia; cbn in B2; lia).
      rewrite <- V, B5. lia. }
  destruct X as (ds1 & E1 & F1 & V1).
  rewrite E1. cbn [bind]. rewrite c32_char_ok by lia. cbn [bind].
  unfold pop_trailing. rewrite <- map_rev, drop_lead_c32a by (apply Forall_rev, F1).
  rewrite push_leading_spec, rev_app_distr, rev_involutive, rev_repeat, <- map_map_c32a_repeat.
  rewrite <- map_app.
  set (ds2 := repeat 0 (lead0 (map b2n b)) ++ strip0 (rev ds1)).
  assert (F2 : Forall (fun d => d < 32) ds2).
  { apply Forall_app. split.
    - apply Forall_forall. intros x Hx. apply repeat_spec in Hx. lia.
    - apply strip0_Forall, Forall_rev, F1. }
  exists ds2. repeat split; try assumption.
  - unfold from_utf8_c32. rewrite utf8_valid_ascii by (apply map_c32a_ascii, F2). reflexivity.
  - unfold ds2. rewrite value_zeros, strip0_value. exact V1.
  - unfold ds2. rewrite lead0_app_repeat, strip0_lead0. lia.
Qed.

Lemma c32_encode_numeral b : exists s, c32_encode b = Ok s /\ numeral 32 crockford b s.
Proof.
  destruct (c32_encode_digits b) as (ds & E & F & V & L).
  exists (map c32a ds). split; [exact E|]. exists ds. auto.
Qed.

(** Numerals are unique, for any base 2..256 with an injective alphabet; here base 32. *)
Lemma numeral32_unique b s s' : numeral 32 crockford b s -> numeral 32 crockford b s' -> s = s'.
Proof.
  intros (ds & F & -> & V & L) (ds' & F' & -> & V' & L').
  f_equal. apply (numeral_unique 32); auto; congruence || lia.
Qed.

(** ** c32_decode *)

(** Table classification of the 256 characters. *)
Definition crockford_accept : bytes :=
  str "0123456789ABCDEFGHIJKLMNOPQRSTVWXYZabcdefghijklmnopqrstvwxyz"%string.

Lemma c32v_class c :
  (if (c32v c <? 0)%Z then negb (existsb (byte_eqb c) crockford_accept)
   else (existsb (byte_eqb c) crockford_accept) && (c32v c <? 32)%Z && (b2n c <? 128)
        && byte_eqb (c32a (Z.to_N (c32v c))) (crockford_norm c)) = true.
Proof. revert c. apply all_byte_spec. vm_compute. reflexivity. Qed.

Lemma c32v_ok c : (0 <= c32v c)%Z ->
  crockford_ok c /\ (c32v c < 32)%Z /\ b2n c < 128 /\ c32a (Z.to_N (c32v c)) = crockford_norm c.
Proof.
  intros H. pose proof (c32v_class c) as C. destruct (Z.ltb_spec (c32v c) 0); [lia|].
  apply andb_prop in C. destruct C as [C C4]. apply andb_prop in C. destruct C as [C C3].
  apply andb_prop in C. destruct C as [C1 C2].
  apply existsb_byte_in in C1. apply byte_eqb_eq in C4. repeat split; auto; lia.
Qed.

Lemma c32v_bad c : (c32v c < 0)%Z <-> ~ crockford_ok c.
Proof.
  pose proof (c32v_class c) as C. unfold crockford_ok. fold crockford_accept.
  rewrite <- existsb_byte_in.
  destruct (Z.ltb_spec (c32v c) 0).
  - split; [|lia]. intros _ X. rewrite X in C. discriminate.
  - apply andb_prop in C. destruct C as [C _]. apply andb_prop in C. destruct C as [C _].
    apply andb_prop in C. destruct C as [C _].
    split; [lia|]. intros X. contradiction.
Qed.

Lemma c32_lookup_ok s : Forall crockford_ok s ->
  c32_lookup s = Ok (map (fun c => n2b (Z.to_N (c32v c))) s).
Proof.
  induction 1 as [|c s H _ IH]; [reflexivity|]. cbn [c32_lookup map].
  fold (c32v c). destruct (Z.ltb_spec (c32v c) 0) as [B|B].
  - apply c32v_bad in B. contradiction.
  - apply c32v_ok in B. destruct B as (_ & B & _).
    destruct (Z.ltb_spec (c32v c) 256); [|lia]. rewrite IH. reflexivity.
Qed.

(** The first offending character, in list order. *)
Lemma c32_lookup_err s p c t : s = p ++ c :: t -> Forall crockford_ok p -> ~ crockford_ok c ->
  c32_lookup s = Err (C32BadChar (b2n c)).
Proof.
  intros -> F B. induction F as [|x p H _ IH]; cbn [app c32_lookup].
  - fold (c32v c). apply c32v_bad in B. destruct (Z.ltb_spec (c32v c) 0); [reflexivity|lia].
  - fold (c32v x). destruct (Z.ltb_spec (c32v x) 0) as [X|X].
    + apply c32v_bad in X. contradiction.
    + apply c32v_ok in X. destruct X as (_ & X & _).
      destruct (Z.ltb_spec (c32v x) 256); [|lia]. rewrite IH. reflexivity.
Qed.

Lemma dec_drain_ok fuel : forall carry cbits acc,
  cbits <= N.of_nat fuel -> carry < 2 ^ cbits ->
  exists carry' cbits' bs,
    c32_dec_drain fuel carry cbits acc = Ok (carry', cbits', acc ++ bs)
    /\ cbits' < 8 /\ carry' < 2 ^ cbits'
    /\ cbits = 8 * lenN bs + cbits'
    /\ carry = lev 256 (map b2n bs) + carry' * 256 ^ lenN bs.
Proof.
  induction fuel as [|f IH]; intros carry cbits acc L B; cbn [c32_dec_drain].
  - destruct (N.ltb_spec cbits 8); [|lia].
    exists carry, cbits, []. rewrite app_nil_r. cbn. repeat split; auto; lia.
  - destruct (N.ltb_spec cbits 8).
    + exists carry, cbits, []. rewrite app_nil_r. cbn. repeat split; auto; lia.
    + change 255 with (N.ones 8). rewrite N.land_ones, N.shiftr_div_pow2.
      change (2 ^ 8) with 256. rewrite n2b_mod.
      destruct (IH (carry / 256) (cbits - 8) (acc ++ [n2b carry])) as
          (carry' & cbits' & bs & E & H1 & H2 & H4 & H5); [lia| |].
      { apply N.div_lt_upper_bound; [lia|]. change 256 with (2 ^ 8).
        rewrite <- N.pow_add_r. replace (8 + (cbits - 8)) with cbits by lia. exact B. }
      exists carry', cbits', (n2b carry :: bs). rewrite E, <- app_assoc. cbn [app map].
      rewrite lenN_cons. repeat split; auto; try lia.
      rewrite lev_cons, N.pow_add_r, N.pow_1_r, b2n_n2b.
      rewrite (N.div_mod carry 256) at 1 by lia. rewrite H5. lia.
Qed.

Lemma dec_loop_ok digits : forall carry cbits acc,
  Forall (fun d => b2n d < 32) digits -> cbits < 8 -> carry < 2 ^ cbits ->
  exists carry' cbits' bs,
    c32_dec_loop digits carry cbits acc = Ok (carry', cbits', acc ++ bs)
    /\ cbits' < 8 /\ carry' < 2 ^ cbits'
    /\ 5 * lenN digits + cbits = 8 * lenN bs + cbits'
    /\ carry + 2 ^ cbits * lev 32 (map b2n digits)
       = lev 256 (map b2n bs) + carry' * 256 ^ lenN bs.
Proof.
  induction digits as [|d digits IH]; intros carry cbits acc F L B; cbn [c32_dec_loop].
  - exists carry, cbits, []. rewrite app_nil_r. cbn. repeat split; auto; lia.
  - inv F. rename H1 into Hd. rename H2 into F.
    assert (S : N.shiftl (b2n d) cbits mod 2 ^ 16 = N.shiftl (b2n d) cbits).
    { apply N.mod_small. rewrite N.shiftl_mul_pow2.
      assert (2 ^ cbits <= 2 ^ 8) by (apply N.pow_le_mono_r; lia).
      change (2 ^ 8) with 256 in *. change (2 ^ 16) with 65536. nia. }
    rewrite S, lor_shiftl by exact B.
    destruct (dec_drain_ok (N.to_nat (cbits + 5)) (carry + b2n d * 2 ^ cbits) (cbits + 5) acc)
      as (carry1 & cbits1 & bs1 & E1 & A1 & A2 & A4 & A5); [lia| |].
    { rewrite N.pow_add_r. change (2 ^ 5) with 32. nia. }
    rewrite E1. cbn [bind].
    destruct (IH carry1 cbits1 (acc ++ bs1) F A1 A2)
      as (carry2 & cbits2 & bs2 & E2 & B1 & B2 & B4 & B5).
    exists carry2, cbits2, (bs1 ++ bs2). rewrite E2, app_assoc.
    rewrite !lenN_app, lenN_cons. repeat split; auto; try lia.
    cbn [map]. rewrite lev_cons, map_app, lev_app, map_length.
    assert (P : 2 ^ cbits * 32 = 256 ^ lenN bs1 * 2 ^ cbits1).
    { change 256 with (2 ^ 8). change 32 with (2 ^ 5). rewrite <- N.pow_mul_r, <- !N.pow_add_r.
      f_equal. lia. }
    change (N.of_nat (length bs1)) with (lenN bs1). rewrite N.pow_add_r.
    transitivity ((carry + b2n d * 2 ^ cbits) + (2 ^ cbits * 32) * lev 32 (map b2n digits)); [lia|].
    rewrite P, A5.
    transitivity (lev 256 (map b2n bs1)
                  + 256 ^ lenN bs1 * (carry1 + 2 ^ cbits1 * lev 32 (map b2n digits))); [lia|].
    rewrite B5. lia.
Qed.

Lemma map_b2n_inj a b : map b2n a = map b2n b -> a = b.
Proof.
  revert b. induction a as [|x a IH]; intros [|y b] H; try discriminate; [reflexivity|].
  injection H as Hx H. apply b2n_inj in Hx. f_equal; auto.
Qed.

Lemma map_b2n_bound bs : Forall (fun d => d < 256) (map b2n bs).
Proof. apply Forall_forall. intros x H. apply in_map_iff in H. destruct H as (b & <- & _). apply b2n_lt. Qed.

Lemma crockford_ok_ascii s : Forall crockford_ok s -> is_ascii s = true.
Proof.
  induction 1 as [|c s H _ IH]; [reflexivity|]. cbn [is_ascii forallb]. fold (is_ascii s).
  rewrite IH, andb_true_r.
  assert (0 <= c32v c)%Z as X.
  { destruct (Z.ltb_spec (c32v c) 0) as [B|B]; [apply c32v_bad in B; contradiction|exact B]. }
  apply c32v_ok in X. lia.
Qed.

(** Digit values of an accepted string. *)
Definition c32ds (s : bytes) : list N := map (fun c => Z.to_N (c32v c)) s.

Lemma c32ds_spec s : Forall crockford_ok s ->
  Forall (fun d => d < 32) (c32ds s) /\ map c32a (c32ds s) = map crockford_norm s.
Proof.
  induction 1 as [|c s H _ (IH1 & IH2)]; [split; [constructor|reflexivity]|].
  assert (0 <= c32v c)%Z as X.
  { destruct (Z.ltb_spec (c32v c) 0) as [B|B]; [apply c32v_bad in B; contradiction|exact B]. }
  pose proof (c32v_ok c X) as (_ & X1 & _ & X2). split.
  - constructor; [lia|exact IH1].
  - cbn. f_equal; assumption.
Qed.

Lemma c32_decode_digits s : Forall crockford_ok s ->
  exists b, c32_decode s = Ok b
            /\ value 32 (c32ds s) = value 256 (map b2n b) /\ lead0 (c32ds s) = lead0 (map b2n b).
Proof.
  intros F. unfold c32_decode. rewrite (crockford_ok_ascii s F). cbn [negb].
  rewrite c32_lookup_ok by (apply Forall_rev, F). cbn [bind].
  set (dg := map (fun c => n2b (Z.to_N (c32v c))) (rev s)).
  assert (D : map b2n dg = rev (c32ds s)).
  { unfold dg, c32ds. rewrite map_map, <- map_rev. apply map_ext_in. intros c Hc.
    apply in_rev in Hc. rewrite Forall_forall in F. specialize (F c Hc).
    assert (0 <= c32v c)%Z as X.
    { destruct (Z.ltb_spec (c32v c) 0) as [B|B]; [apply c32v_bad in B; contradiction|exact B]. }
    apply c32v_ok in X. apply b2n_n2b_small. lia. }
  assert (D32 : Forall (fun d => b2n d < 32) dg).
  { pose proof (proj1 (c32ds_spec s F)) as X. apply Forall_rev in X. rewrite <- D in X.
    rewrite Forall_map in X. exact X. }
  destruct (dec_loop_ok dg 0 0 [] D32 ltac:(lia) ltac:(cbn; lia))
    as (carry & cbits & bs & E & B1 & B2 & B4 & B5).
  rewrite E. cbn [bind app].
  assert (X : exists bs1,
    (if 0 <? cbits then (if carry <? 256 then Ok (bs ++ [n2b carry]) else Err C32TryFromInt)
     else Ok bs) = (Ok bs1 : res c32_err bytes)
    /\ lev 256 (map b2n bs1) = value 32 (c32ds s)).
  { change (2 ^ 0) with 1 in B5. rewrite N.mul_1_l, N.add_0_l in B5.
    assert (V : lev 32 (map b2n dg) = value 32 (c32ds s)).
    { unfold lev. rewrite D, rev_involutive. reflexivity. }
    destruct (N.ltb_spec 0 cbits).
    - assert (carry < 256).
      { eapply N.lt_le_trans; [exact B2|]. change 256 with (2 ^ 8). apply N.pow_le_mono_r; lia. }
      destruct (N.ltb_spec carry 256); [|lia].
      exists (bs ++ [n2b carry]). split; [reflexivity|].
      rewrite map_app. cbn [map]. rewrite lev_snoc, b2n_n2b_small by assumption.
      rewrite map_length. change (N.of_nat (length bs)) with (lenN bs). congruence.
    - exists bs. split; [reflexivity|].
      assert (carry = 0) as -> by (replace cbits with 0 in B2 by lia; cbn in B2; lia).
      rewrite <- V, B5. lia. }
  destruct X as (bs1 & E1 & V1).
  rewrite E1. cbn [bind].
  eexists. split; [reflexivity|].
  rewrite push_leading_spec, rev_app_distr, rev_repeat, map_rev, D, rev_involutive.
  unfold pop_trailing. rewrite rev_involutive, map_app, drop_lead_x00, map_rev.
  assert (R : forall k, map b2n (repeat x00 k) = repeat 0 k).
  { induction k as [|k IHk]; [reflexivity|]. cbn. f_equal. exact IHk. }
  rewrite R. split.
  - rewrite value_zeros, strip0_value. symmetry. exact V1.
  - rewrite lead0_app_repeat, strip0_lead0. lia.
Qed.

Lemma is_ascii_spec s : is_ascii s = true <-> ascii s.
Proof.
  unfold is_ascii, ascii. rewrite forallb_forall, Forall_forall.
  split; intros H x Hx; specialize (H x Hx); unfold b2n in *; lia.
Qed.

Definition crockford_ok_dec c : {crockford_ok c} + {~ crockford_ok c} := in_dec byte_dec c _.

(** Every string is accepted, or has a last offending character. *)
Lemma last_bad s : Forall crockford_ok s \/
  exists p c t, s = p ++ c :: t /\ ~ crockford_ok c /\ Forall crockford_ok t.
Proof.
  induction s as [|c s IH]; [left; constructor|].
  destruct IH as [F|(p & c' & t & -> & B & F)].
  - destruct (crockford_ok_dec c) as [O|O]; [left; constructor; assumption|].
    right. exists [], c, s. auto.
  - right. exists (c :: p), c', t. auto.
Qed.

Lemma c32_decode_norm s : Forall crockford_ok s ->
  exists b, c32_decode s = Ok b /\ c32_encode b = Ok (map crockford_norm s).
Proof.
  intros F. destruct (c32_decode_digits s F) as (b & E & V & L).
  exists b. split; [exact E|].
  destruct (c32_encode_digits b) as (ds & E' & F' & V' & L'). rewrite E'.
  destruct (c32ds_spec s F) as (F2 & N2). rewrite <- N2. do 2 f_equal.
  apply (numeral_unique 32); auto; congruence || lia.
Qed.

Lemma c32_decode_bad s p c t : ascii s -> s = p ++ c :: t -> ~ crockford_ok c ->
  Forall crockford_ok t -> c32_decode s = Err (C32BadChar (Byte.to_N c)).
Proof.
  intros A -> B F. apply is_ascii_spec in A. unfold c32_decode. rewrite A. cbn [negb].
  rewrite (c32_lookup_err _ (rev t) c (rev p)); auto.
  - rewrite rev_app_distr. cbn. rewrite <- app_assoc. reflexivity.
  - apply Forall_rev, F.
Qed.

Lemma c32_decode_nonascii s : ~ ascii s -> c32_decode s = Err C32BadInput.
Proof.
  intros A. unfold c32_decode. destruct (is_ascii s) eqn:E; [|reflexivity].
  apply is_ascii_spec in E. contradiction.
Qed.

Lemma c32_norm_c32a d : d < 32 -> crockford_norm (c32a d) = c32a d.
Proof.
  intros H. apply byte_eqb_eq. revert d H.
  apply (forall32 (fun d => byte_eqb (crockford_norm (c32a d)) (c32a d))). vm_compute. reflexivity.
Qed.

Lemma c32a_ok d : d < 32 -> crockford_ok (c32a d).
Proof.
  intros H. assert (0 <= c32v (c32a d))%Z by (rewrite c32v_c32a by exact H; lia).
  apply c32v_ok. assumption.
Qed.

Lemma map_c32a_ok ds : Forall (fun d => d < 32) ds -> Forall crockford_ok (map c32a ds).
Proof. induction 1; cbn [map]; constructor; [apply c32a_ok|]; assumption. Qed.

Lemma map_norm_c32a ds : Forall (fun d => d < 32) ds -> map crockford_norm (map c32a ds) = map c32a ds.
Proof.
  induction 1 as [|d ds H _ IH]; [reflexivity|]. cbn [map]. rewrite c32_norm_c32a by exact H. congruence.
Qed.

Lemma c32ds_c32a ds : Forall (fun d => d < 32) ds -> c32ds (map c32a ds) = ds.
Proof.
  induction 1 as [|d ds H _ IH]; [reflexivity|]. unfold c32ds in *. cbn [map]. rewrite c32v_c32a by exact H.
  rewrite N2Z.id. f_equal. exact IH.
Qed.

Lemma c32_roundtrip b : exists s, c32_encode b = Ok s /\ c32_decode s = Ok b.
Proof.
  destruct (c32_encode_digits b) as (ds & E & F & V & L).
  exists (map c32a ds). split; [exact E|].
  destruct (c32_decode_digits _ (map_c32a_ok ds F)) as (b' & E' & V' & L').
  rewrite E'. f_equal. rewrite c32ds_c32a in V', L' by exact F.
  apply map_b2n_inj. apply (numeral_unique 256); try apply map_b2n_bound; congruence || lia.
Qed.

Lemma c32_encode_inj a b s : c32_encode a = Ok s -> c32_encode b = Ok s -> a = b.
Proof.
  intros Ha Hb. destruct (c32_roundtrip a) as (sa & Ea & Da). destruct (c32_roundtrip b) as (sb & Eb & Db).
  congruence.
Qed.
