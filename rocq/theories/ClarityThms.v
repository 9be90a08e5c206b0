(** Assembly of the theorems about Clarity values (proofs for PropsClarity.v). *)

From Coq Require Import Strings.String.
From Coq Require Import Lia ZifyBool ZifyNat ZifyN.
From Verif Require Import Base BaseFacts Utf8 Utf8Facts Hex HexFacts C32 SpecText SpecAddr Clarity SpecWire AddrFacts
  WireFacts ClarityFacts ClarityTotal ClarityShort.
Local Open Scope N_scope.

(** ** Round trip *)

Lemma roundtrip_canonical c w t : canonically_means c w -> proper w ->
  exists e, encode c = Ok e /\ decode_clarity_type (e ++ t) = Ok c.
Proof.
  intros M P. exists (wser w). split.
  - apply encode_complete; [apply canonical_means; exact M | apply P].
  - apply decode_at; [apply proper_decodable; exact P | exact M].
Qed.

Lemma roundtrip_spelled c w t : means c w -> proper w ->
  exists e c', encode c = Ok e /\ decode_clarity_type (e ++ t) = Ok c' /\ canonically_means c' w.
Proof.
  intros M P. destruct (canonical_exists w) as [c' M']; [apply P|].
  exists (wser w), c'. splits; [|apply decode_at; [apply proper_decodable; exact P | exact M'] | exact M'].
  apply encode_complete; [exact M | apply P].
Qed.

Lemma encode_prefix_free c1 c2 w1 w2 e1 e2 t1 t2 :
  means c1 w1 -> means c2 w2 -> delim w1 -> delim w2 -> encode c1 = Ok e1 -> encode c2 = Ok e2 ->
  e1 ++ t1 = e2 ++ t2 -> w1 = w2 /\ t1 = t2.
Proof.
  intros M1 M2 D1 D2 E1 E2 H.
  destruct (encode_of_means _ _ _ M1 E1) as [_ ->]. destruct (encode_of_means _ _ _ M2 E2) as [_ ->].
  apply wser_prefix; assumption.
Qed.

Lemma encode_prefix_free_proper c1 c2 w1 w2 e1 e2 t1 t2 :
  means c1 w1 -> means c2 w2 -> proper w1 -> proper w2 -> encode c1 = Ok e1 -> encode c2 = Ok e2 ->
  e1 ++ t1 = e2 ++ t2 -> w1 = w2 /\ t1 = t2.
Proof. intros M1 M2 P1 P2. apply encode_prefix_free; auto using proper_delim. Qed.

Lemma decode_canonical b v e : decode_clarity_type b = Ok v -> encode v = Ok e -> exists t, b = e ++ t.
Proof.
  intros D E. apply decode_iff in D. destruct D as (w & t & -> & D & M).
  destruct (encode_of_means _ _ _ (canonical_means _ _ M) E) as [_ ->]. exists t. reflexivity.
Qed.

Lemma decode_exact b v : decode_clarity_type b = Ok v <->
  exists w t, b = wser w ++ t /\ decodable w /\ canonically_means v w.
Proof. exact (decode_iff b v). Qed.

(** ** Identifiers *)

Definition std_types : list cty :=
  [TInt; TUInt; TBuffer; TTrue; TFalse; TPrinStd; TPrinCon; TRespOk; TRespErr; TNone; TSome; TList; TTuple; TAscii].

Lemma decode_as_bad_id t b r : In t std_types -> b <> ty_id t ->
  decode_as t (b :: r) = Err (ClBadIdentifier (ty_id t) b).
Proof.
  intros H N. assert (C : check_id t (b :: r) = Err (ClBadIdentifier (ty_id t) b)).
  { unfold check_id, index. cbn [nth_error bind]. apply byte_eqb_neq in N. rewrite N. reflexivity. }
  unfold std_types in H. cbn [In] in H.
  repeat match type of H with _ \/ _ => destruct H as [<- | H] end; [..|destruct H]; cbn [decode_as];
    unfold dec_int, dec_uint, dec_buffer, dec_true, dec_false, dec_prin_std, dec_prin_con, dec_wrap, dec_none,
      dec_list, dec_tuple, dec_ascii; rewrite C; reflexivity.
Qed.

Lemma decode_as_utf8_tag b r : decode_as TUtf8 (b :: r) = decode_as TUtf8 (x0e :: r).
Proof. reflexivity. Qed.

(** ** Trailing bytes and panics *)

Lemma decode_trailing b t : (exists v, decode_clarity_type b = Ok v) \/ (exists e, decode_clarity_type b = Err e) ->
  decode_clarity_type (b ++ t) = decode_clarity_type b.
Proof. intros H. apply decode_stable. exact H. Qed.

Lemma decode_panic_short b p : decode_clarity_type b = Panic p ->
  exists t, t <> [] /\ ((exists v, decode_clarity_type (b ++ t) = Ok v) \/ (exists e, decode_clarity_type (b ++ t) = Err e)).
Proof.
  intros P. destruct (decode_answers b) as [t S]. exists t. split; [|exact S].
  intros ->. rewrite app_nil_r, P in S. exact (settled_panic _ S).
Qed.

(** ** ASCII *)

Lemma ascii_encode_iff s e : encode (CAscii s) = Ok e <->
  ascii s /\ count s < 2 ^ 32 /\ e = x0d :: big_endian 4 (count s) ++ s.
Proof.
  rewrite encode_iff. split.
  - intros (w & M & F & ->). destruct w; cbn in M; try contradiction. subst. destruct F as [F _]. cbn in F. tauto.
  - intros (A & L & ->). exists (WAscii s). cbn. auto.
Qed.

Lemma ascii_decode_iff b s : decode_as TAscii b = Ok (CAscii s) <->
  utf8 s /\ count s < 2 ^ 32 /\ exists t, b = x0d :: big_endian 4 (count s) ++ s ++ t.
Proof.
  split.
  - intros H. apply dec_ascii_sound in H. destruct H as (w & t & -> & D & M).
    destruct w; cbn in M; try contradiction. subst. destruct D as [L U]. splits; auto.
    exists t. cbn [wser app]. rewrite <- app_assoc. reflexivity.
  - intros (U & L & t & ->). change (decode_as TAscii (ty_id TAscii :: big_endian 4 (count s) ++ s ++ t) = Ok (CAscii s)).
    rewrite decode_as_eq by (cbn; tauto). apply decode_iff. exists (WAscii s), t. splits.
    + cbn [wser app]. rewrite <- app_assoc. reflexivity.
    + cbn. auto.
    + reflexivity.
Qed.

(** ** Names *)

Lemma enc_lps_long s : 128 < count s -> enc_lps s = Err (ClBadStringLength (count s) 128).
Proof.
  intros H. unfold enc_lps. change (lenN s) with (count s). destruct (N.ltb_spec 128 (count s)); [reflexivity | lia].
Qed.

Definition name_verdict (c : cval) (w : wval) : Prop :=
  (wall fits1 w /\ encode c = Ok (wser w)) \/
  (exists s, In s (names w) /\ 128 < count s /\ encode c = Err (ClBadStringLength (count s) 128)).

Lemma names_items l : Forall (fun c => forall w, means c w -> wall roomy1 w -> name_verdict c w) l ->
  forall m, Forall2 means l m -> Forall (wall roomy1) m ->
  (Forall (wall fits1) m /\ enc_list l = Ok (flat_map wser m)) \/
  (exists s, In s (flat_map names m) /\ 128 < count s /\ enc_list l = Err (ClBadStringLength (count s) 128)).
Proof.
  induction 1 as [|c l Hc Hl IH]; intros m M R; inv M; [left; cbn; auto|].
  inv R. cbn [enc_list flat_map]. destruct (Hc _ H1 H2) as [[F E] | (s & I & L & E)].
  - destruct (IH _ H3 H4) as [[F' E'] | (s & I & L & E')].
    + left. rewrite E, E'. auto.
    + right. exists s. rewrite E, E'. splits; auto. apply in_or_app. auto.
  - right. exists s. rewrite E. splits; auto. apply in_or_app. auto.
Qed.

Lemma names_entries l : Forall (fun kv => forall w, means (snd kv) w -> wall roomy1 w -> name_verdict (snd kv) w) l ->
  forall m, Forall2 (fun a b => fst a = fst b /\ means (snd a) (snd b)) l m -> Forall (fun kv => wall roomy1 (snd kv)) m ->
  (Forall (fun kv => wall fits1 (snd kv)) m /\ Forall (fun kv => count (fst kv) <= 128) m
     /\ enc_entries l = Ok (flat_map wentry m)) \/
  (exists s, In s (flat_map (fun kv => fst kv :: names (snd kv)) m) /\ 128 < count s
             /\ enc_entries l = Err (ClBadStringLength (count s) 128)).
Proof.
  induction 1 as [|[k c] l Hc Hl IH]; intros m M R; inv M; [left; cbn; auto|].
  inv R. destruct y as [k' w]. cbn [fst snd] in *. destruct H1 as [<- H1].
  cbn [enc_entries flat_map fst snd]. destruct (N.le_gt_cases (count k) 128) as [K | K].
  - rewrite (proj2 (enc_lps_ok k _) (conj K eq_refl)). cbn [bind].
    destruct (Hc _ H1 H2) as [[F E] | (s & I & L & E)].
    + destruct (IH _ H3 H4) as [(F' & K' & E') | (s & I & L & E')].
      * left. rewrite E, E'. cbn [bind]. splits; [constructor; auto | constructor; auto |].
        unfold wentry at 2. cbn [fst snd]. rewrite <- !app_assoc. reflexivity.
      * right. exists s. rewrite E, E'. splits; auto. right. apply in_or_app. auto.
    + right. exists s. rewrite E. splits; auto. right. apply in_or_app. auto.
  - right. exists k. rewrite (enc_lps_long k K). splits; auto. left. reflexivity.
Qed.

Lemma names_verdict c : forall w, means c w -> wall roomy1 w -> name_verdict c w.
Proof.
  induction c using cval_induction; intros [] M [R W]; cbn [denotes] in M; try contradiction;
    try (left; split; [cbn; auto | apply encode_complete; cbn; auto]; fail).
  - destruct M as [M <-]. unfold name_verdict. cbn [names wser]. destruct (N.le_gt_cases (count n) 128) as [K | K].
    + left. split; [cbn; auto|]. change (x06 :: _) with (wser (WCon ver hash n)).
      apply encode_complete; cbn; auto.
    + right. exists n. splits; [left; reflexivity | exact K|]. cbn [encode].
      rewrite (proj2 (dec_addr_ok _ _ _) M). cbn [bind]. rewrite (enc_lps_long n K). reflexivity.
  - destruct (IHc _ M W) as [[F E] | (s & I & L & E)].
    + left. split; [cbn; auto|]. cbn [encode wser]. rewrite E. reflexivity.
    + right. exists s. splits; auto. cbn [encode]. rewrite E. reflexivity.
  - destruct (IHc _ M W) as [[F E] | (s & I & L & E)].
    + left. split; [cbn; auto|]. cbn [encode wser]. rewrite E. reflexivity.
    + right. exists s. splits; auto. cbn [encode]. rewrite E. reflexivity.
  - destruct (IHc _ M W) as [[F E] | (s & I & L & E)].
    + left. split; [cbn; auto|]. cbn [encode wser]. rewrite E. reflexivity.
    + right. exists s. splits; auto. cbn [encode]. rewrite E. reflexivity.
  - rewrite every2_Forall2 in M. cbn in R, W. rewrite every_Forall in W.
    assert (EL : lenN l = count l0) by (unfold lenN, count; rewrite (Forall2_length _ _ _ M); reflexivity).
    destruct (names_items l H l0 M W) as [[F E] | (s & I & L & E)].
    + left. split; [cbn; rewrite every_Forall; auto|]. rewrite encode_list, EL.
      rewrite (proj2 (enc_len32_ok _ _) (conj R eq_refl)), E. reflexivity.
    + right. exists s. splits; auto. rewrite encode_list, EL.
      rewrite (proj2 (enc_len32_ok _ _) (conj R eq_refl)), E. reflexivity.
  - rewrite every2_Forall2 in M. cbn in R, W. rewrite every_Forall in W.
    assert (EL : lenN l = count l0) by (unfold lenN, count; rewrite (Forall2_length _ _ _ M); reflexivity).
    destruct (names_entries l H l0 M W) as [(F & K & E) | (s & I & L & E)].
    + left. split; [cbn; rewrite !every_Forall; auto|]. rewrite encode_tuple, EL.
      rewrite (proj2 (enc_len32_ok _ _) (conj R eq_refl)), E. reflexivity.
    + right. exists s. splits; auto. rewrite encode_tuple, EL.
      rewrite (proj2 (enc_len32_ok _ _) (conj R eq_refl)), E. reflexivity.
  - subst. unfold name_verdict. cbn [names]. destruct (N.le_gt_cases (count s0) 128) as [K | K].
    + left. split; [cbn; auto|]. apply encode_complete; cbn; auto.
    + right. exists s0. splits; [left; reflexivity | exact K|]. cbn [encode]. apply enc_lps_long; exact K.
  - rewrite every2_Forall2 in M. cbn in R, W. rewrite every_Forall in W.
    assert (EL : lenN l = count l0) by (unfold lenN, count; rewrite (Forall2_length _ _ _ M); reflexivity).
    destruct (names_items l H l0 M W) as [[F E] | (s & I & L & E)].
    + left. split; [cbn; rewrite every_Forall; auto|]. rewrite encode_fnargs, EL.
      rewrite (proj2 (enc_len32_ok _ _) (conj R eq_refl)), E. reflexivity.
    + right. exists s. splits; auto. rewrite encode_fnargs, EL.
      rewrite (proj2 (enc_len32_ok _ _) (conj R eq_refl)), E. reflexivity.
Qed.

Lemma fits_names w : wall fits1 w -> Forall (fun s => count s <= 128) (names w).
Proof.
  induction w using wval_induction; cbn [wall names]; intros [F W]; cbn in F; auto.
  - apply Forall_flat_map. rewrite every_Forall in W. rewrite Forall_forall in *. auto.
  - destruct F as [_ F]. rewrite every_Forall in *. apply Forall_flat_map. rewrite Forall_forall in *.
    intros kv Hk. constructor; auto.
  - apply Forall_flat_map. rewrite every_Forall in W. rewrite Forall_forall in *. auto.
Qed.

Lemma name_limit c w : means c w -> wall roomy1 w ->
  (Forall (fun s => count s <= 128) (names w) -> encode c = Ok (wser w)) /\
  (forall s, In s (names w) -> 128 < count s ->
     exists s', In s' (names w) /\ 128 < count s' /\ encode c = Err (ClBadStringLength (count s') 128)).
Proof.
  intros M R. destruct (names_verdict c w M R) as [[F E] | (s' & I & L & E)]; split.
  - auto.
  - intros s I L. apply fits_names in F. rewrite Forall_forall in F. specialize (F s I). lia.
  - intros F. rewrite Forall_forall in F. specialize (F s' I). lia.
  - intros s _ _. exists s'. auto.
Qed.

(** ** Derived codec methods *)

Lemma codec_methods v e : encode v = Ok e ->
  codec_len v = Ok (count e) /\ codec_is_empty v = Ok false /\
  (exists h, codec_hex v = Ok h /\ h = hex_text e /\ hex_to_bytes h = Ok e /\
             codec_hex_prefixed v = Ok (str "0x"%string ++ h)).
Proof.
  intros E. unfold codec_is_empty, codec_len, codec_hex_prefixed, codec_hex. rewrite E. cbn [bind]. splits; auto.
  - destruct (encode_sound _ _ E) as (w & M & F & ->).
    assert (1 <= length (wser w))%nat.
    { destruct w; cbn [wser]; cbn [length]; rewrite ?app_length, ?big_endian_length; lia. }
    destruct (N.eqb_spec (lenN (wser w)) 0); [unfold lenN in *; lia | reflexivity].
  - exists (bytes_to_hex e). splits; auto; [apply bytes_to_hex_text | apply hex_roundtrip].
Qed.

Lemma codec_methods_err v x : encode v = Err x ->
  codec_len v = Err x /\ codec_is_empty v = Err x /\ codec_hex v = Err x /\ codec_hex_prefixed v = Err x.
Proof.
  intros E. unfold codec_is_empty, codec_len, codec_hex_prefixed, codec_hex. rewrite E. auto.
Qed.

(** ** Integers *)

Lemma int_exact z : (- 2 ^ 127 <= z < 2 ^ 127)%Z ->
  encode (CInt z) = Ok (x00 :: twos_complement z) /\
  (forall t, decode_as TInt (x00 :: twos_complement z ++ t) = Ok (CInt z)).
Proof.
  intros R. split; [apply (encode_complete (CInt z) (WInt z)); cbn; auto|].
  intros t. change x00 with (ty_id TInt). rewrite decode_as_eq by (cbn; auto).
  apply (decode_at (WInt z) (CInt z) t); [exact R | reflexivity].
Qed.

Lemma uint_exact n : n < 2 ^ 128 ->
  encode (CUInt n) = Ok (x01 :: big_endian 16 n) /\
  (forall t, decode_as TUInt (x01 :: big_endian 16 n ++ t) = Ok (CUInt n)).
Proof.
  intros R. split; [apply (encode_complete (CUInt n) (WUInt n)); cbn; auto|].
  intros t. change x01 with (ty_id TUInt). rewrite decode_as_eq by (cbn; auto).
  apply (decode_at (WUInt n) (CUInt n) t); [exact R | reflexivity].
Qed.

Lemma int_patterns s : length s = 16%nat ->
  (exists z, (- 2 ^ 127 <= z < 2 ^ 127)%Z /\ encode (CInt z) = Ok (x00 :: s) /\
     forall z', (- 2 ^ 127 <= z' < 2 ^ 127)%Z -> encode (CInt z') = Ok (x00 :: s) -> z' = z) /\
  (exists n, n < 2 ^ 128 /\ encode (CUInt n) = Ok (x01 :: s) /\
     forall n', n' < 2 ^ 128 -> encode (CUInt n') = Ok (x01 :: s) -> n' = n).
Proof.
  intros L. pose proof (be_val_bound s) as B. rewrite L in B. change (256 ^ N.of_nat 16) with (2 ^ 128) in B.
  split.
  - exists (i128_of_u128 (be_val s)). splits.
    + apply i128_of_u128_range. exact B.
    + apply i128_of_u128_range. exact B.
    + cbn [encode]. rewrite (u128_i128 _ B). rewrite <- L, be_bytes_be_val. reflexivity.
    + intros z' R E. cbn [encode] in E. apply ok_inj in E. apply cons_tl in E.
      rewrite <- (i128_u128 z' R). f_equal.
      rewrite <- E, be_val_be_bytes_small by apply u128_of_i128_bound. reflexivity.
  - exists (be_val s). splits.
    + exact B.
    + cbn [encode]. rewrite <- L, be_bytes_be_val. reflexivity.
    + intros n' R E. cbn [encode] in E. apply ok_inj in E. apply cons_tl in E.
      rewrite <- E, be_val_be_bytes_small by exact R. reflexivity.
Qed.

(** ** Casts *)

Lemma built_as_type t v : built_as t v <-> type_of v = t.
Proof.
  split.
  - destruct t; cbn; intros H; repeat match goal with H : exists _, _ |- _ => destruct H end; subst; reflexivity.
  - intros <-. destruct v; cbn; eauto.
Qed.

Lemma cast_exact t v : (built_as t v -> cast t v = Ok v) /\ (~ built_as t v -> cast t v = Err ClBadDowncast).
Proof.
  unfold cast. rewrite built_as_type. destruct (cty_eq_dec (type_of v) t); split; intros; congruence.
Qed.

Lemma cast_inner_exact t x :
  cast_inner t (CRespOk x) = Some (cast t x) /\ cast_inner t (CRespErr x) = Some (cast t x)
  /\ cast_inner t (CSome x) = Some (cast t x).
Proof. auto. Qed.

(** ** Function arguments *)

Lemma fnargs_roundtrip cs ws t : Forall2 canonically_means cs ws -> Forall proper ws -> count ws < 2 ^ 32 ->
  exists e, encode (CFnArgs cs) = Ok e /\ e = big_endian 4 (count ws) ++ flat_map wser ws
            /\ decode_as TFnArgs (e ++ t) = Ok (CFnArgs cs).
Proof.
  intros M P L. exists (big_endian 4 (count ws) ++ flat_map wser ws). splits; auto.
  - apply (encode_complete (CFnArgs cs) (WArgs ws)).
    + cbn. rewrite every2_Forall2. induction M; constructor; auto. apply canonical_means. auto.
      apply IHM; [inv P; auto|]. unfold count in *. cbn [length] in L. lia.
    + cbn. rewrite every_Forall. split; [exact L|]. rewrite Forall_forall in *. intros w Hw. apply (P w Hw).
  - cbn [decode_as]. unfold dec_fnargs. rewrite <- app_assoc.
    rewrite (proj2 (sub_slice_ok 0 4 _ (big_endian 4 (count ws)))).
    2:{ exists [], (flat_map wser ws ++ t). repeat split. }
    cbn [bind]. rewrite (proj2 (drop_slice_ok 4 _ (flat_map wser ws ++ t))).
    2:{ exists (big_endian 4 (count ws)). split; reflexivity. }
    cbn [bind]. rewrite big_endian_be, be_val_be_bytes_small by exact L.
    rewrite dec_items_complete with (cs := cs); [reflexivity | | | exact M |].
    + rewrite Forall_forall in *. intros w Hw c0 t0 M0. apply decode_at; [apply proper_decodable; auto | exact M0].
    + rewrite Forall_forall in *. intros w Hw. apply (P w Hw).
    + rewrite app_length. pose proof (flat_len_ge wser ws) as G.
      assert (Forall (fun x => 1 <= length (wser x))%nat ws) as G'.
      { rewrite Forall_forall in *. intros w Hw. apply decodable_nonempty, proper_decodable. auto. }
      specialize (G G'). lia.
Qed.

(** ** Tuples *)

Definition tup_op_run (t : Clarity.entries) (o : tup_op) : Clarity.entries :=
  match o with
  | OpInsert k v => tuple_insert k v t
  | OpRemove k => snd (tuple_remove k t)
  | OpWrite k v => match tuple_write k v t with Some t' => t' | None => t end
  end.

Lemma get_insert k k' v t : tuple_get k (tuple_insert k' v t) =
  match tuple_get k t with Some x => Some x | None => if bytes_eqb k' k then Some v else None end.
Proof.
  unfold tuple_insert. induction t as [|[k0 x] t IH]; cbn; [reflexivity|]. destruct (bytes_eqb k0 k); [reflexivity | exact IH].
Qed.

Lemma remove_returns k t : fst (tuple_remove k t) = tuple_get k t.
Proof.
  induction t as [|[k0 x] t IH]; cbn; [reflexivity|]. destruct (bytes_eqb k0 k); [reflexivity|].
  destruct (tuple_remove k t). exact IH.
Qed.

Lemma get_remove_other k k' t : k <> k' -> tuple_get k' (snd (tuple_remove k t)) = tuple_get k' t.
Proof.
  intros N. induction t as [|[k0 x] t IH]; cbn; [reflexivity|]. destruct (bytes_eqb_spec k0 k) as [-> | N'].
  - cbn. destruct (bytes_eqb_spec k k'); [contradiction | reflexivity].
  - destruct (tuple_remove k t) as [o r]. cbn in *. rewrite IH. reflexivity.
Qed.

Lemma get_none k t : tuple_get k t = None <-> ~ In k (tuple_keys t).
Proof.
  induction t as [|[k0 x] t IH]; cbn; [tauto|]. destruct (bytes_eqb_spec k0 k) as [-> | N].
  - split; [discriminate | tauto].
  - rewrite IH. split; [intros H [E|I]; [congruence | tauto] | tauto].
Qed.

Lemma remove_keys k t : forall x, In x (tuple_keys (snd (tuple_remove k t))) -> In x (tuple_keys t).
Proof.
  induction t as [|[k0 v] t IH]; cbn; [auto|]. intros x. destruct (bytes_eqb k0 k); [cbn; auto|].
  destruct (tuple_remove k t) as [o r]. cbn in *. intros [E | I]; auto.
Qed.

Lemma remove_nodup k t : NoDup (tuple_keys t) ->
  NoDup (tuple_keys (snd (tuple_remove k t))) /\ tuple_get k (snd (tuple_remove k t)) = None.
Proof.
  induction t as [|[k0 v] t IH]; cbn; [auto|]. intros N. inv N. destruct (bytes_eqb_spec k0 k) as [-> | N].
  - cbn. split; [assumption|]. apply get_none. assumption.
  - destruct (IH H2) as [N' G]. pose proof (remove_keys k t) as K. destruct (tuple_remove k t) as [o r]. cbn in *. split.
    + constructor; [|exact N']. intros I. apply H1. apply K. exact I.
    + destruct (bytes_eqb_spec k0 k); [contradiction | exact G].
Qed.

Lemma write_spec k x t : 
  (tuple_get k t = None -> tuple_write k x t = None) /\
  (forall y, tuple_get k t = Some y -> exists t', tuple_write k x t = Some t' /\ tuple_get k t' = Some x
     /\ (forall k', k' <> k -> tuple_get k' t' = tuple_get k' t) /\ tuple_keys t' = tuple_keys t).
Proof.
  induction t as [|[k0 v] t [IH1 IH2]]; cbn; [split; [auto | discriminate]|].
  destruct (bytes_eqb_spec k0 k) as [-> | N].
  - split; [discriminate|]. intros y _. exists ((k, x) :: t). cbn. rewrite bytes_eqb_refl. splits; auto.
    intros k' N. destruct (bytes_eqb_spec k k'); congruence.
  - split; [intros G; rewrite (IH1 G); reflexivity|].
    intros y G. destruct (IH2 y G) as (t' & -> & G' & O & K). exists ((k0, v) :: t'). cbn.
    destruct (bytes_eqb_spec k0 k); [contradiction|]. splits; auto.
    + intros k' N'. rewrite O by exact N'. reflexivity.
    + unfold tuple_keys in *. congruence.
Qed.

Lemma fm_eqb k k' : (if list_eq_dec Byte.byte_eq_dec k' k then true else false) = bytes_eqb k k'.
Proof.
  destruct (list_eq_dec Byte.byte_eq_dec k' k) as [->|N]; [symmetry; apply bytes_eqb_refl|].
  symmetry. apply bytes_eqb_neq. congruence.
Qed.

Lemma tuple_map_law os : forall t m, NoDup (tuple_keys t) -> (forall k, tuple_get k t = m k) -> fresh_inserts m os ->
  NoDup (tuple_keys (fold_left tup_op_run os t)) /\
  forall k, tuple_get k (fold_left tup_op_run os t) = fold_left fm_op os m k.
Proof.
  induction os as [|o os IH]; intros t m N G F; [auto|]. cbn [fold_left fresh_inserts] in *. destruct F as [F F'].
  apply (IH (tup_op_run t o) (fm_op m o)); [| |exact F'].
  - destruct o; cbn [tup_op_run fm_op].
    + unfold tuple_insert, tuple_keys. rewrite map_app. cbn. apply NoDup_Add with (a := k) (l := map fst t).
      * apply Add_app with (l2 := []) || (rewrite <- (app_nil_r (map fst t)) at 1; apply Add_app).
      * split; [exact N|]. rewrite <- G in F. apply get_none in F. exact F.
    + apply remove_nodup. exact N.
    + destruct (write_spec k v t) as [W1 W2]. destruct (tuple_get k t) as [y|] eqn:E.
      * destruct (W2 y eq_refl) as (t' & -> & _ & _ & K). rewrite K. exact N.
      * rewrite (W1 eq_refl). exact N.
  - intros k0. destruct o; cbn [tup_op_run fm_op].
    + rewrite get_insert. unfold fm_set. rewrite <- !G.
      destruct (list_eq_dec Byte.byte_eq_dec k0 k) as [-> | N0].
      * rewrite <- G in F. rewrite F, bytes_eqb_refl. reflexivity.
      * destruct (tuple_get k0 t); [reflexivity|]. destruct (bytes_eqb_spec k k0); congruence.
    + unfold fm_del. destruct (list_eq_dec Byte.byte_eq_dec k0 k) as [-> | N0].
      * apply remove_nodup. exact N.
      * rewrite get_remove_other by congruence. apply G.
    + destruct (write_spec k v t) as [W1 W2]. rewrite <- (G k). destruct (tuple_get k t) as [y|] eqn:E.
      * destruct (W2 y eq_refl) as (t' & -> & W & O & _). unfold fm_set.
        destruct (list_eq_dec Byte.byte_eq_dec k0 k) as [-> | N0]; [exact W | rewrite O by exact N0; apply G].
      * rewrite (W1 eq_refl). apply G.
Qed.

(** ** Identifiers as literals *)

Definition sip_ids : list (cty * byte) :=
  [(TInt, x00); (TUInt, x01); (TBuffer, x02); (TTrue, x03); (TFalse, x04); (TPrinStd, x05); (TPrinCon, x06);
   (TRespOk, x07); (TRespErr, x08); (TNone, x09); (TSome, x0a); (TList, x0b); (TTuple, x0c); (TAscii, x0d)].

Lemma bad_identifier t i b r : In (t, i) sip_ids -> b <> i -> decode_as t (b :: r) = Err (ClBadIdentifier i b).
Proof.
  intros H N. assert (E : In t std_types /\ ty_id t = i).
  { unfold sip_ids in H. cbn [In] in H.
    repeat match type of H with _ \/ _ => destruct H as [H | H] end; [..|destruct H];
      injection H as <- <-; split; try reflexivity; unfold std_types; cbn [In]; tauto. }
  destruct E as [I <-]. apply decode_as_bad_id; assumption.
Qed.

Lemma own_identifier t i r : In (t, i) ((TUtf8, x0e) :: sip_ids) -> decode_as t (i :: r) = decode_clarity_type (i :: r).
Proof.
  intros H. assert (E : ty_id t = i /\ In t [TInt; TUInt; TBuffer; TTrue; TFalse; TPrinStd; TPrinCon; TRespOk; TRespErr; TNone;
    TSome; TList; TTuple; TAscii; TUtf8]).
  { unfold sip_ids in H. cbn [In] in H.
    repeat match type of H with _ \/ _ => destruct H as [H | H] end; [..|destruct H];
      injection H as <- <-; (split; [reflexivity | cbn [In]; tauto]). }
  destruct E as [<- I]. apply decode_as_eq. exact I.
Qed.

Lemma utf8_any_tag b r : decode_as TUtf8 (b :: r) = decode_clarity_type (x0e :: r).
Proof. rewrite decode_as_utf8_tag. apply own_identifier. left. reflexivity. Qed.

Lemma fnargs_spelled cs ws t : Forall2 means cs ws -> Forall proper ws -> count ws < 2 ^ 32 ->
  exists e cs', encode (CFnArgs cs) = Ok e /\ e = big_endian 4 (count ws) ++ flat_map wser ws
            /\ decode_as TFnArgs (e ++ t) = Ok (CFnArgs cs') /\ Forall2 canonically_means cs' ws.
Proof.
  intros M P L.
  assert (exists cs', Forall2 canonically_means cs' ws) as [cs' M'].
  { clear M L. induction P as [|w ws Pw P [cs' IH]]; [exists []; constructor|].
    destruct (canonical_exists w) as [c Hc]; [apply Pw|]. exists (c :: cs'). constructor; assumption. }
  destruct (fnargs_roundtrip cs' ws t M' P L) as (e & _ & -> & D).
  exists (big_endian 4 (count ws) ++ flat_map wser ws), cs'. splits; auto.
  apply (encode_complete (CFnArgs cs) (WArgs ws)).
  - cbn. rewrite every2_Forall2. exact M.
  - cbn. rewrite every_Forall. split; [exact L|]. rewrite Forall_forall in *. intros w Hw. apply (P w Hw).
Qed.

(** ** Order of tuple entries *)

Lemma same_keys (a : list (bytes * cval)) (w : list (bytes * wval)) :
  Forall2 (fun x y => fst x = fst y /\ means (snd x) (snd y)) a w -> map fst a = map fst w.
Proof. induction 1 as [|x y a b [H _] F IH]; cbn [map]; [reflexivity|]. rewrite H, IH. reflexivity. Qed.

Lemma tuple_order l m wl wm e : means (CTuple l) wl -> means (CTuple m) wm -> delim wl -> delim wm ->
  encode (CTuple l) = Ok e -> encode (CTuple m) = Ok e -> map fst l = map fst m.
Proof.
  intros Ml Mm Dl Dm El Em.
  destruct (encode_prefix_free _ _ _ _ _ _ [] [] Ml Mm Dl Dm El Em eq_refl) as [-> _].
  destruct wm as [| | | | | | | | | | | | w | | | |]; cbn in Ml, Mm; try contradiction. rewrite every2_Forall2 in Ml, Mm.
  rewrite (same_keys _ _ Ml), (same_keys _ _ Mm). reflexivity.
Qed.
