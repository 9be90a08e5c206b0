(** Lemmas behind the wallet, derived struct and node client theorems. *)

From Coq Require Import Strings.String.
From Coq Require Import Lia ZifyBool ZifyNat ZifyN.
From Verif Require Import Base BaseFacts Hex HexFacts Hash C32 HashFacts AddrFacts SpecText SpecAddr Clarity SpecWire WireFacts
  ClarityFacts SpecShow ShowFacts Tx SpecTx TxTotal TxFacts Signer Builder SpecSign NumFacts SignFacts AuthThms Wallet Derive F64 Rpc SpecJson SpecF64 F64Thms SpecClient.
Local Open Scope N_scope.

(** ** Wallet *)

Lemma map_get_insert {A} k k' (v : A) m : map_get k (map_insert k' v m) = if k =? k' then Some v else map_get k m.
Proof.
  induction m as [|[j x] m IH]; cbn [map_insert map_get]; [reflexivity|].
  destruct (N.eqb_spec k' j) as [->|N]; cbn [map_get].
  - destruct (k =? j); reflexivity.
  - rewrite IH. destruct (N.eqb_spec k j) as [->|]; [|reflexivity]. destruct (N.eqb_spec j k'); [congruence | reflexivity].
Qed.

Lemma wrun_app {H} (w : wallet H) l o : wrun w (l ++ [o]) = wstep (wrun w l) o.
Proof. unfold wrun. rewrite fold_left_app. reflexivity. Qed.
Lemma stored_app {H} (l : list (wop H)) o i : stored (l ++ [o]) i =
  match o with Store j a => if i =? j then Some a else stored l i | Look _ => stored l i end.
Proof.
  induction l as [|p l IH]; cbn [app stored].
  - destruct o; [reflexivity|]. destruct (i =? i0); reflexivity.
  - rewrite IH. destruct o as [j|j a]; [reflexivity|]. destruct (i =? j); reflexivity.
Qed.

(** The accounts held by a wallet: the stored ones, or children of the root. *)
Lemma wrun_inv {H} root (l : list (wop H)) :
  let w := wrun {| w_ext := root; w_accounts := [] |} l in
  w_ext w = root /\ forall i, match map_get i (w_accounts w) with
    | Some a => looked_up root l i = Ok a
    | None => stored l i = None
    end.
Proof.
  induction l as [|o l IH] using rev_ind; [cbn; auto|]. rewrite wrun_app. cbv zeta in *.
  set (w := wrun {| w_ext := root; w_accounts := [] |} l) in *. destruct IH as [X IH].
  destruct o as [j|j a]; cbn [wstep].
  - unfold get_account. destruct (map_get j (w_accounts w)) as [a|] eqn:G.
    + cbn [fst]. split; [exact X|]. intros i. specialize (IH i). unfold looked_up in *. rewrite stored_app. exact IH.
    + unfold account_derive. destruct (derive_child H (w_ext w) j) as [e|x] eqn:D; cbn [fst].
      * split; [exact X|]. intros i. specialize (IH i). unfold looked_up in *. rewrite stored_app. exact IH.
      * cbn [set_account w_ext w_accounts]. split; [exact X|]. intros i. rewrite map_get_insert. destruct (N.eqb_spec i j) as [->|N].
        -- specialize (IH j). rewrite G in IH. unfold looked_up. rewrite stored_app, IH, <- X, D. reflexivity.
        -- specialize (IH i). unfold looked_up in *. rewrite stored_app. exact IH.
  - cbn [set_account w_ext w_accounts]. split; [exact X|]. intros i. rewrite map_get_insert. unfold looked_up. rewrite stored_app.
    destruct (i =? j); [reflexivity|]. exact (IH i).
Qed.

Lemma wallet_cache {H} phrase (w : wallet H) root l i : from_secret_key phrase = Ok w -> from_mnemonic H phrase = inr root ->
  snd (get_account (wrun w l) i) = looked_up root l i.
Proof.
  unfold from_secret_key. intros F M. rewrite M in F. okinv F. destruct (wrun_inv root l) as [X I].
  specialize (I i). unfold get_account. destruct (map_get i _) as [a|].
  - cbn [snd]. auto.
  - unfold looked_up, account_derive. rewrite I, X. destruct (derive_child H root i); reflexivity.
Qed.

Lemma stored_filter {H} (l : list (wop H)) i : stored (filter is_store l) i = stored l i.
Proof.
  induction l as [|[j|j a] l IH]; cbn [filter is_store stored]; [reflexivity | rewrite IH; destruct (stored l i); reflexivity|].
  rewrite IH. reflexivity.
Qed.

Lemma wallet_root {H} (w : wallet H) l : w_ext (wrun w l) = w_ext w.
Proof.
  induction l as [|o l IH] using rev_ind; [reflexivity|]. rewrite wrun_app, <- IH.
  destruct o as [j|j a]; [|reflexivity]. cbn [wstep]. unfold get_account. destruct (map_get j _); [reflexivity|].
  destruct (account_derive _ _); reflexivity.
Qed.

Lemma failed_lookup {H} (w : wallet H) i e : snd (get_account w i) = Err e -> fst (get_account w i) = w.
Proof.
  unfold get_account. destruct (map_get i _); [discriminate|]. destruct (account_derive _ _); cbn; [discriminate | auto..].
Qed.

Lemma get_account_settled {H} (w : wallet H) i : settled (snd (get_account w i)).
Proof.
  unfold get_account, account_derive. destruct (map_get i _); cbn; auto. destruct (derive_child _ _ _); cbn; auto.
Qed.

Lemma from_secret_key_cases {H} phrase : @from_secret_key H phrase =
  match from_mnemonic H phrase with inr x => Ok {| w_ext := x; w_accounts := [] |} | inl e => Err (WHd e) end.
Proof. reflexivity. Qed.

Lemma version_code_byte v : version_byte v = address_code v.
Proof. destruct v; reflexivity. Qed.
Lemma address_code_stacks v : stacks_version (address_code v).
Proof. unfold stacks_version. destruct v; cbn; tauto. Qed.
Lemma address_code_inj v v' : address_code v = address_code v' -> v = v'.
Proof. destruct v, v'; (reflexivity || discriminate). Qed.

Lemma account_address {H} (a : account H) v :
  exists s, get_address a v = Ok s /\ address_text (hash20 (xpub_bytes H (acc_ext a))) (address_code v) s
    /\ c32_address_decode s = Ok (hash20 (xpub_bytes H (acc_ext a)), address_code v).
Proof.
  unfold get_address. rewrite version_code_byte. change hash_p2pkh with hash20.
  destruct (c32_address_ok (hash20 (xpub_bytes H (acc_ext a))) (address_code v) (address_code_stacks v)) as (s & A & B & C).
  exists s. rewrite A. auto.
Qed.

Lemma account_address_determines {H} (a a' : account H) v v' s : get_address a v = Ok s -> get_address a' v' = Ok s ->
  v = v' /\ (xpub_bytes H (acc_ext a) = xpub_bytes H (acc_ext a')
             \/ clash hash20 (xpub_bytes H (acc_ext a)) (xpub_bytes H (acc_ext a'))).
Proof.
  intros A A'. destruct (account_address a v) as (t & B & _ & C). destruct (account_address a' v') as (t' & B' & _ & C').
  rewrite A in B. okinv B. rewrite A' in B'. okinv B'. rewrite C in C'. okinv C'.
  apply pair_equal_spec in C'. destruct C' as [C' V]. split; [apply address_code_inj; exact V|].
  destruct (list_eq_dec byte_eq_dec (xpub_bytes H (acc_ext a)) (xpub_bytes H (acc_ext a'))); [left; assumption | right; split; assumption].
Qed.

(** ** Account keys and transactions *)

Lemma secret_iff {H : hd} b r : @secret_from_slice H b = Ok r <-> valid_key b /\ r = b.
Proof.
  unfold secret_from_slice, valid_key. rewrite <- scalar_be. change secp_n with group_order.
  destruct (Nat.eqb_spec (length b) 32); cbn [andb]; [|split; [discriminate | intros [[? _] _]; contradiction]].
  destruct (N.ltb_spec 0 (scalar b)); cbn [andb]; [|split; [discriminate | intros [[_ ?] _]; lia]].
  destruct (N.ltb_spec (scalar b) group_order); [|split; [discriminate | intros [[_ ?] _]; lia]].
  split; [intros X; okinv X; auto | intros [_ ->]; reflexivity].
Qed.

Lemma secret_refused {H} b e : @secret_from_slice H b = Err e <-> ~ valid_key b /\ e = WSecp SecpInvalidSecretKey.
Proof.
  split.
  - intros X. split.
    + intros V. rewrite (proj2 (secret_iff b b) (conj V eq_refl)) in X. discriminate.
    + unfold secret_from_slice in X. destruct (_ && _); congruence.
  - intros [V ->]. unfold secret_from_slice. destruct (_ && _) eqn:C; [|reflexivity]. destruct V. apply (secret_iff (H := H) b b).
    unfold secret_from_slice. rewrite C. reflexivity.
Qed.

Lemma public_refused {H : hd} b e : @public_from_slice H b = Err e <-> point_ok H b = false /\ e = WSecp SecpInvalidPublicKey.
Proof.
  unfold public_from_slice. destruct (point_ok H b); split; [discriminate | intros [X _]; discriminate X | |];
    [intros X; injection X as <-; auto | intros [_ ->]; reflexivity].
Qed.

Lemma keys_refused H (a : account H) (w : wallet H) :
  (forall e, account_private_key a = Err e <-> ~ valid_key (xprv_bytes H (acc_ext a)) /\ e = WSecp SecpInvalidSecretKey)
  /\ (forall e, account_public_key a = Err e <-> point_ok H (xpub_bytes H (acc_ext a)) = false /\ e = WSecp SecpInvalidPublicKey)
  /\ (forall e, wallet_private_key w = Err e <-> ~ valid_key (xprv_bytes H (w_ext w)) /\ e = WSecp SecpInvalidSecretKey)
  /\ (forall e, wallet_public_key w = Err e <-> point_ok H (xpub_bytes H (w_ext w)) = false /\ e = WSecp SecpInvalidPublicKey).
Proof. splits; intros e; first [apply secret_refused | apply public_refused]. Qed.

Lemma account_keys {H} E (a : account H) : hd_correct E H ->
  exists sk, account_private_key a = Ok sk /\ valid_key sk /\ account_public_key a = Ok (pubkey_of E sk)
    /\ pubkey_of E sk = xpub_bytes H (acc_ext a).
Proof.
  intros C. exists (xprv_bytes H (acc_ext a)). pose proof (hd_key E H C (acc_ext a)) as K. splits; [|exact K| |].
  - apply secret_iff. auto.
  - unfold account_public_key, public_from_slice. rewrite (hd_pub E H C), (hd_point E H C). reflexivity.
  - apply (hd_pub E H C).
Qed.

Lemma wallet_keys {H} E (w : wallet H) : hd_correct E H ->
  exists sk, wallet_private_key w = Ok sk /\ valid_key sk /\ wallet_public_key w = Ok (pubkey_of E sk)
    /\ pubkey_of E sk = xpub_bytes H (w_ext w).
Proof.
  intros C. exists (xprv_bytes H (w_ext w)). pose proof (hd_key E H C (w_ext w)) as K. splits; [|exact K| |].
  - apply secret_iff. auto.
  - unfold wallet_public_key, public_from_slice. rewrite (hd_pub E H C), (hd_point E H C). reflexivity.
  - apply (hd_pub E H C).
Qed.

Lemma account_transfer {H} {X} E (a : account H) v s sk b : hd_correct E H -> ecdsa_correct E ->
  get_address a v = Ok s -> account_private_key a = Ok sk -> st_sender b = sk -> st_sponsored b = false ->
  exists t c, @build_transfer X E b = Ok t /\ origin_of t = SStd c /\ address_text (std_signer c) (address_code v) s
    /\ forall h, initial_hash t = Ok h -> exists t' g, tx_sign E t sk = Ok t' /\ same_but_signatures t t' /\ tx_verify_origin E t' = Ok g.
Proof.
  intros C EC A P S N. destruct (account_keys E a C) as (sk' & P' & V & _ & K). rewrite P in P'. okinv P'.
  destruct (account_address a v) as (s' & A' & T & _). rewrite A in A'. okinv A'. rewrite <- K in T.
  rewrite build_transfer_cases, N. eexists _, _. splits; [reflexivity | reflexivity | exact T|].
  intros h Hh. eapply unsigned_signs; eauto.
Qed.

(** ** Structs derived from tuples *)

Lemma under_get k t v : under k t v <-> tuple_get k t = Some v.
Proof.
  split.
  - intros (a & b & -> & N). induction a as [|[j x] a IH]; cbn [app tuple_get].
    + rewrite bytes_eqb_refl. reflexivity.
    + cbn in N. rewrite IH by tauto. destruct (bytes_eqb_spec j k); [subst; tauto | reflexivity].
  - induction t as [|[j x] t IH]; cbn [tuple_get]; [discriminate|]. destruct (bytes_eqb_spec j k) as [->|N].
    + intros E. injection E as ->. exists [], t. auto.
    + intros E. apply IH in E. destruct E as (a & b & -> & I). exists ((j, x) :: a), b. cbn. split; [reflexivity|]. intuition.
Qed.
Lemma missing_get k t : missing k t <-> tuple_get k t = None.
Proof. unfold missing. symmetry. apply ClarityThms.get_none. Qed.
Lemma under_fun k t v v' : under k t v -> under k t v' -> v = v'.
Proof. rewrite !under_get. congruence. Qed.
Lemma under_missing k t v : under k t v -> missing k t -> False.
Proof. rewrite under_get, missing_get. congruence. Qed.

Lemma fills_all_cons t k f fields xs : fills_all t ((k, f) :: fields) xs <->
  exists x r, xs = x :: r /\ fills t k f x /\ fills_all t fields r.
Proof.
  unfold fills_all. destruct xs as [|x r]; cbn [every2 fst snd].
  - split; [contradiction | intros (x & r & E & _); discriminate].
  - split; [intros [A B]; eauto|]. intros (y & s & E & A & B). injection E as -> ->. auto.
Qed.

(** Fields of nested structs are read by the same function. *)
Lemma derive_struct s k name fields t : derive_field s k (FStruct name fields) t =
  (let* v := extract k s t in
   let* tv := de_cast TTuple (str "Tuple"%string) k name v in
   proj (as_tuple tv) (fun t' => let* fs := derive_fields name fields t' in Ok (VStruct fs))).
Proof.
  cbn [derive_field]. destruct (extract k s t) as [v| | |]; [|reflexivity..]. cbn [bind].
  destruct (de_cast TTuple (str "Tuple"%string) k name v) as [tv| | |]; [|reflexivity..]. cbn [bind].
  destruct (as_tuple tv) as [t'|]; [|reflexivity]. cbn [proj]. f_equal.
  induction fields as [|[k' f] r IH]; [reflexivity|]. cbn [derive_fields]. rewrite <- IH. reflexivity.
Qed.

Fixpoint fty_induction (P : fty -> Prop) (leaf : forall ft, (forall n fs, ft <> FStruct n fs) -> P ft)
  (node : forall n fs, Forall (fun f => P (snd f)) fs -> P (FStruct n fs)) (ft : fty) : P ft.
Proof.
  destruct ft as [| | | | | | | | | | |n fs]; [apply leaf; discriminate ..|]. apply node.
  induction fs as [|[k f] fs IH]; constructor; [apply fty_induction; assumption | exact IH].
Defined.

(** The three ways a field can end, exclusive of each other. *)
Definition field_outcome (s : bytes) (t : entries) (k : bytes) (ft : fty) (r : res de_err fval) : Prop :=
  match r with
  | Ok x => fills t k ft x
  | Err e => fails s t k ft e
  | _ => False
  end.

Lemma shows_self v : shows v (display v).
Proof. apply shows_display. reflexivity. Qed.
Lemma shows_all l : every2 shows l (map display l).
Proof.
  apply (every2_map shows display l); [|reflexivity]. apply Forall_forall. intros. apply shows_display.
Qed.

Lemma cast_eq ty v : cast ty v = if cty_eq_dec (type_of v) ty then Ok v else Err ClBadDowncast.
Proof. unfold cast. destruct (cty_eq_dec (type_of v) ty); reflexivity. Qed.

Ltac not_under := let x := fresh "x" in intros x ?; congruence.

Lemma field_outcome_holds ft : forall s t k, field_outcome s t k ft (derive_field s k ft t).
Proof.
  induction ft as [ft L|name fields IH] using fty_induction; intros s t k.
  - destruct (tuple_get k t) as [v|] eqn:G.
    + pose proof (proj2 (under_get k t v) G) as U.
      destruct ft; try (exfalso; eapply L; reflexivity); cbn [derive_field field_outcome]; unfold extract; rewrite G; cbn [bind].
      * unfold if_chain. destruct v; cbn; try (eapply fail_match; [cbn; tauto | exact U | cbn; tauto]). exact U.
      * unfold de_cast. rewrite cast_eq. destruct v as [| | | | | | |w| | | | | | | | |]; cbn; try (eapply fail_response; [cbn; tauto | exact U | congruence]).
        destruct w; cbn; try (eapply fail_int; [exact U | congruence]). exact U.
      * unfold if_chain. destruct v; cbn; try (eapply fail_match; [cbn; tauto | exact U | cbn; tauto]). exact U.
      * unfold de_cast. rewrite cast_eq. destruct v as [| | | | | | |w| | | | | | | | |]; cbn; try (eapply fail_response; [cbn; tauto | exact U | congruence]).
        destruct w; cbn; try (eapply fail_uint; [exact U | congruence]). exact U.
      * unfold if_chain. destruct v; cbn; try (eapply fail_match; [cbn; tauto | exact U | cbn; tauto]); exact U.
      * cbn. exists v. split; [exact U | apply shows_self].
      * unfold if_chain. destruct v; cbn; try (eapply fail_match; [cbn; tauto | exact U | cbn; tauto]). exact U.
      * unfold de_cast. rewrite cast_eq. destruct v; cbn; try (eapply fail_list; [exact U | congruence]).
        eexists. split; [exact U | apply shows_all].
      * unfold derive_option. rewrite cast_eq. destruct v as [| | | | | | | | | |w| | | | | |]; cbn; try (eexists; split; [exact U | congruence]).
        rewrite cast_eq. destruct w; cbn; try (eexists; split; [exact U | congruence]). exact U.
      * unfold derive_option. rewrite cast_eq. destruct v as [| | | | | | | | | |w| | | | | |]; cbn; try (eexists; split; [exact U | congruence]).
        rewrite cast_eq. destruct w; cbn; try (eexists; split; [exact U | congruence]). exact U.
      * unfold de_cast. rewrite cast_eq. destruct v; cbn; try (intros w W; pose proof (under_fun _ _ _ _ U W); congruence).
        eexists. split; [exact U | apply shows_self].
    + pose proof (proj2 (missing_get k t) G) as U.
      destruct ft; try (exfalso; eapply L; reflexivity); cbn [derive_field field_outcome]; unfold extract; rewrite G; cbn [bind];
        try (apply fail_missing; [discriminate | exact U]).
      cbn. intros v V. exact (under_missing _ _ _ V U).
  - rewrite derive_struct. unfold extract. destruct (tuple_get k t) as [v|] eqn:G.
    + pose proof (proj2 (under_get k t v) G) as U. cbn [bind]. unfold de_cast. rewrite cast_eq.
      destruct v; try (cbn; eapply fail_tuple; [exact U | congruence]). cbn [type_of cty_eq_dec bind as_tuple proj].
      destruct (cty_eq_dec TTuple TTuple) as [_|N]; [|congruence]. cbn [bind as_tuple proj].
      assert (K : forall before xs, fills_all l before xs -> forall after, fields = before ++ after ->
        match derive_fields name after l with
        | Ok ys => fills_all l after ys
        | Err e => fails s t k (FStruct name fields) e
        | _ => False
        end).
      { intros before xs B after. revert before xs B. induction after as [|[k' f] after IHa]; intros before xs B E; cbn [derive_fields].
        - exact I.
        - assert (O : field_outcome name l k' f (derive_field name k' f l)).
          { rewrite Forall_forall in IH. apply (IH (k', f)). rewrite E. apply in_or_app. right. left. reflexivity. }
          destruct (derive_field name k' f l) as [x|e| |]; cbn [bind field_outcome] in O |- *; try contradiction.
          + specialize (IHa (before ++ [(k', f)]) (xs ++ [x])). rewrite <- app_assoc in IHa.
            assert (F : fills_all l (before ++ [(k', f)]) (xs ++ [x])).
            { clear -B O. unfold fills_all in *. rewrite every2_Forall2 in *. apply Forall2_app; [exact B|]. constructor; [exact O | constructor]. }
            specialize (IHa F E). destruct (derive_fields name after l); cbn [bind]; auto.
            apply fills_all_cons. eauto.
          + subst fields. eapply fail_nested; eassumption. }
      specialize (K [] [] I fields eq_refl). destruct (derive_fields name fields l) as [ys|e| |]; cbn [bind field_outcome]; auto.
      cbn [fills]. eauto.
    + cbn. apply fail_missing; [discriminate | apply missing_get, G].
Qed.

Lemma fields_outcome s t fields : match derive_fields s fields t with
  | Ok xs => fills_all t fields xs
  | Err e => fails_all s t fields e
  | _ => False
  end.
Proof.
  induction fields as [|[k f] r IH]; cbn [derive_fields]; [exact I|].
  pose proof (field_outcome_holds f s t k) as O. destruct (derive_field s k f t) as [x|e| |]; cbn [bind field_outcome] in *; try contradiction.
  - destruct (derive_fields s r t) as [xs|e| |]; cbn [bind]; auto.
    + apply fills_all_cons. eauto.
    + destruct IH as (before & k' & ft & after & ys & -> & B & F). exists ((k, f) :: before), k', ft, after, (x :: ys). splits; auto.
      apply fills_all_cons. eauto.
  - exists [], k, f, r, []. splits; auto. exact I.
Qed.

Lemma shows_fun v s s' : shows v s -> shows v s' -> s = s'.
Proof. rewrite !shows_display. congruence. Qed.
Lemma shows_map l ss : every2 shows l ss -> ss = map display l.
Proof. apply (every2_map shows display l). apply Forall_forall. intros. apply shows_display. Qed.

Ltac get_under :=
  repeat match goal with
  | U : under _ _ _ |- _ => apply under_get in U
  | U : missing _ _ |- _ => apply missing_get in U
  end.

Lemma fills_derives ft : forall s t k x, fills t k ft x -> derive_field s k ft t = Ok x.
Proof.
  induction ft as [ft L|name fields IH] using fty_induction; intros s t k x F.
  - pose proof (field_outcome_holds ft s t k) as O.
    destruct ft; try (exfalso; eapply L; reflexivity); destruct x; cbn in F; try contradiction; cbn [derive_field] in *; unfold extract in *.
    + get_under. rewrite F. reflexivity.
    + get_under. rewrite F. reflexivity.
    + get_under. rewrite F. reflexivity.
    + get_under. rewrite F. reflexivity.
    + get_under. rewrite F. destruct b; reflexivity.
    + destruct F as (v & U & S). get_under. rewrite U. cbn. apply shows_display in S. subst. reflexivity.
    + get_under. rewrite F. reflexivity.
    + destruct F as (l0 & U & S). get_under. rewrite U. cbn. apply shows_map in S. subst. reflexivity.
    + destruct o; [get_under; rewrite F; reflexivity|]. destruct F as (v & U & N). get_under. rewrite U. cbn. do 2 f_equal.
      unfold derive_option. rewrite cast_eq. destruct v; try reflexivity. cbn. rewrite cast_eq. destruct v; try reflexivity. congruence.
    + destruct o; [get_under; rewrite F; reflexivity|]. destruct F as (v & U & N). get_under. rewrite U. cbn. do 2 f_equal.
      unfold derive_option. rewrite cast_eq. destruct v; try reflexivity. cbn. rewrite cast_eq. destruct v; try reflexivity. congruence.
    + destruct o as [txt|].
      * destruct F as (v & U & S). get_under. rewrite U. cbn. apply shows_display in S. subst. reflexivity.
      * destruct (tuple_get k t) as [v|] eqn:G; [|reflexivity]. cbn [bind]. unfold de_cast. rewrite cast_eq.
        destruct v; try reflexivity. exfalso. apply (F v). apply under_get. exact G.
  - destruct x; cbn [fills] in F; try contradiction. destruct F as (t' & U & F). rewrite derive_struct. unfold extract. get_under.
    rewrite U. cbn [bind]. unfold de_cast. rewrite cast_eq. cbn [type_of].
    destruct (cty_eq_dec TTuple TTuple) as [_|N]; [|congruence]. cbn [bind as_tuple proj].
    replace (derive_fields name fields t') with (@Ok de_err _ l); [reflexivity|]. symmetry. clear U.
    change (fills_all t' fields l) in F. revert l F. induction IH as [|[k' f] r Hf _ IHr]; intros l F.
    + destruct l; [reflexivity | contradiction].
    + apply fills_all_cons in F. destruct F as (y & ys & -> & Y & F). cbn [derive_fields]. cbn [snd] in Hf. rewrite (Hf _ _ _ _ Y).
      cbn [bind]. rewrite (IHr _ F). reflexivity.
Qed.

Lemma fills_all_derives s t fields : forall xs, fills_all t fields xs -> derive_fields s fields t = Ok xs.
Proof.
  induction fields as [|[k f] r IH]; intros xs F.
  - destruct xs; [reflexivity | contradiction].
  - apply fills_all_cons in F. destruct F as (y & ys & -> & Y & F). cbn [derive_fields]. rewrite (fills_derives _ s _ _ _ Y).
    cbn [bind]. rewrite (IH _ F). reflexivity.
Qed.

Lemma first_fails s t before k ft after xs e : fills_all t before xs -> derive_field s k ft t = Err e ->
  derive_fields s (before ++ (k, ft) :: after) t = Err e.
Proof.
  revert xs. induction before as [|[k' f] r IH]; intros xs F D; cbn [app derive_fields].
  - rewrite D. reflexivity.
  - apply fills_all_cons in F. destruct F as (y & ys & -> & Y & F). rewrite (fills_derives _ s _ _ _ Y). cbn [bind].
    rewrite (IH _ F D). reflexivity.
Qed.

Lemma fails_derives s t k ft e : fails s t k ft e -> derive_field s k ft t = Err e.
Proof.
  induction 1 as [s t k ft N M|s t k ft v I U N|s t k ft v I U N|s t k v U N|s t k v U N|s t k v U N|s t k name fields v U N
                 |s t k name before k' ft after t' xs e U F _ IH]; get_under.
  - destruct ft; try rewrite derive_struct; cbn [derive_field]; unfold extract; rewrite M; try reflexivity. exfalso. apply N. reflexivity.
  - cbn in I. destruct I as [<-|[<-|[<-|[<-|[]]]]]; cbn [derive_field]; unfold extract, if_chain; rewrite U; destruct v; try reflexivity;
      exfalso; apply N; exact I.
  - cbn in I. destruct I as [<-|[<-|[]]]; cbn [derive_field]; unfold extract, de_cast; rewrite U; cbn [bind]; rewrite cast_eq; destruct v;
      try reflexivity; exfalso; eapply N; reflexivity.
  - cbn [derive_field]; unfold extract; rewrite U. cbn. unfold de_cast. rewrite cast_eq. destruct v; try reflexivity. exfalso; eapply N; reflexivity.
  - cbn [derive_field]; unfold extract; rewrite U. cbn. unfold de_cast. rewrite cast_eq. destruct v; try reflexivity. exfalso; eapply N; reflexivity.
  - cbn [derive_field]; unfold extract; rewrite U. cbn [bind]. unfold de_cast. rewrite cast_eq. destruct v; try reflexivity. exfalso; eapply N; reflexivity.
  - rewrite derive_struct; unfold extract; rewrite U. cbn [bind]. unfold de_cast. rewrite cast_eq. destruct v; try reflexivity. exfalso; eapply N; reflexivity.
  - rewrite derive_struct; unfold extract; rewrite U. cbn [bind]. unfold de_cast. rewrite cast_eq. cbn [type_of].
    destruct (cty_eq_dec TTuple TTuple) as [_|N]; [|congruence]. cbn [bind as_tuple proj]. rewrite (first_fails _ _ _ _ _ _ _ _ F IH). reflexivity.
Qed.

Lemma derive_ok s t fields xs : derive_fields s fields t = Ok xs <-> fills_all t fields xs.
Proof.
  split; [|apply fills_all_derives]. intros D. pose proof (fields_outcome s t fields) as O. rewrite D in O. exact O.
Qed.
Lemma derive_err s t fields e : derive_fields s fields t = Err e <-> fails_all s t fields e.
Proof.
  split.
  - intros D. pose proof (fields_outcome s t fields) as O. rewrite D in O. exact O.
  - intros (before & k & ft & after & xs & -> & F & N). eapply first_fails; [exact F | apply fails_derives, N].
Qed.
Lemma derive_settled s t fields : settled (derive_fields s fields t).
Proof. pose proof (fields_outcome s t fields) as O. destruct (derive_fields s fields t); try contradiction; auto. Qed.

(** ** Node responses *)

Lemma jcount_in k l : jcount k l = 0 <-> ~ In k (map fst l).
Proof.
  induction l as [|[j v] l IH]; cbn [jcount map In fst]; [tauto|]. destruct (bytes_eqb_spec j k) as [->|N].
  - split; [lia | intros H; exfalso; apply H; auto].
  - rewrite IH. intuition.
Qed.
Lemma jget_member l k v : jget k l = Some v <-> member l k v.
Proof.
  unfold jget. induction l as [|[j x] l IH]; cbn [jcount jfind].
  - split; [discriminate|]. intros (a & b & E & _). destruct a; discriminate.
  - destruct (bytes_eqb_spec j k) as [->|N].
    + split.
      * destruct (N.eqb_spec (1 + jcount k l) 1) as [C|]; [|discriminate]. intros E. injection E as ->.
        exists [], l. splits; auto. apply jcount_in. lia.
      * intros (a & b & E & A & B). destruct a as [|[k' y] a]; [|cbn in E; injection E as -> -> ->; exfalso; apply A; left; reflexivity].
        cbn in E. injection E as -> ->. apply jcount_in in B. rewrite B. reflexivity.
    + rewrite IH. split.
      * intros (a & b & -> & A & B). exists ((j, x) :: a), b. splits; auto. cbn. intros [E|E]; auto.
      * intros (a & b & E & A & B). destruct a as [|[k' y] a]; cbn in E; injection E as -> -> ->; [contradiction|].
        exists a, b. splits; auto. intros I. apply A. right. exact I.
Qed.
Lemma jfields_iff l ks : forall vs, jfields ks l = Some vs <-> Forall2 (member l) ks vs.
Proof.
  induction ks as [|k ks IH]; intros vs; cbn [jfields].
  - split; [intros E; injection E as <-; constructor | intros F; inv F; reflexivity].
  - split.
    + destruct (jget k l) eqn:G; [|discriminate]. destruct (jfields ks l) eqn:F; [|discriminate]. intros E. injection E as <-.
      constructor; [apply jget_member, G | apply IH; reflexivity].
    + intros F. inv F. apply jget_member in H1. apply IH in H3. rewrite H1, H3. reflexivity.
Qed.
Lemma struct_iff ks j vs : struct_of ks j = Some vs <-> record_of ks j vs.
Proof.
  unfold record_of. destruct j; cbn [struct_of]; try (split; [discriminate | intros [(? & E & _)|[E _]]; discriminate]).
  - destruct (Nat.eqb_spec (length l) (length ks)).
    + split; [intros E; injection E as ->; auto | intros [(? & E & _)|[E _]]; [discriminate|]; injection E as ->; reflexivity].
    + split; [discriminate | intros [(? & E & _)|[E ?]]; [discriminate|]; injection E as ->; contradiction].
  - rewrite jfields_iff. split; [eauto | intros [(l' & E & F)|[E _]]; [injection E as ->; exact F | discriminate]].
Qed.
Lemma record_length ks j vs : record_of ks j vs -> length vs = length ks.
Proof. intros [(l & _ & F)|[_ E]]; [symmetry; eapply Forall2_length; exact F | exact E]. Qed.

Lemma as_str_iff j s : as_str j = Some s <-> j = JStr s.
Proof. destruct j; cbn; split; intros E; try discriminate; injection E as ->; reflexivity. Qed.
Lemma as_bool_iff j b : as_bool j = Some b <-> j = JBool b.
Proof. destruct j; cbn; split; intros E; try discriminate; injection E as ->; reflexivity. Qed.
Lemma as_uint_iff bits j n : as_uint bits j = Some n <-> j = number n /\ n < 2 ^ bits.
Proof.
  unfold number. destruct j as [| |z| | | |]; cbn [as_uint]; try (split; [discriminate | intros [E _]; discriminate]).
  pose proof (N2Z.inj_pow 2 bits) as P. change (Z.of_N 2) with 2%Z in P.
  destruct (Z.leb_spec 0 z); cbn [andb]; [|split; [discriminate | intros [E _]; injection E; lia]].
  destruct (Z.ltb_spec z (2 ^ Z.of_N bits)).
  - split; [intros E; injection E as <-; split; [f_equal; lia | lia] | intros [E L]; injection E as ->; f_equal; lia].
  - split; [discriminate | intros [E L]; injection E as ->; lia].
Qed.
Lemma as_f64_iff j x : as_f64 j = Some x <-> rate_of j x.
Proof.
  destruct j; cbn [as_f64]; try (split; [discriminate|intros []]; fail).
  - rewrite <- rate_int_iff. split; [intros E; now injection E|now intros ->].
  - apply float_iff.
Qed.

Ltac open_parse :=
  repeat match goal with
  | H : match ?x with _ => _ end = Some _ |- _ => destruct x eqn:?; try discriminate H
  end.
Ltac known :=
  repeat match goal with
  | H : struct_of _ _ = Some _ |- _ => apply struct_iff in H
  | H : as_str _ = Some _ |- _ => apply as_str_iff in H; subst
  | H : as_bool _ = Some _ |- _ => apply as_bool_iff in H; subst
  | H : as_uint _ _ = Some _ |- _ => apply as_uint_iff in H; destruct H as [-> ?]
  | H : as_f64 _ = Some _ |- _ => apply as_f64_iff in H
  | H : Some _ = Some _ |- _ => injection H as <-
  end.
Lemma uint_number bits n : n < 2 ^ bits -> as_uint bits (number n) = Some n.
Proof. intros. apply as_uint_iff. auto. Qed.

Lemma parse_info_iff j i : parse_info j = Some i <-> info_json j i.
Proof.
  unfold parse_info, info_json. cbn [map]. split.
  - intros H. open_parse. known. cbn. splits; assumption.
  - intros (R & A & B & C & D & E & F). apply struct_iff in R. rewrite R. rewrite !uint_number by assumption. cbn [as_str]. destruct i; reflexivity.
Qed.
Lemma parse_address_iff j a : parse_address j = Some a <-> address_json j a.
Proof.
  unfold parse_address, address_json. cbn [map]. split.
  - intros H. open_parse. known. cbn. splits; assumption.
  - intros (R & A & B). apply struct_iff in R. rewrite R. rewrite !uint_number by assumption. cbn [as_str]. destruct a; reflexivity.
Qed.
Lemma parse_estimate_iff j e : parse_estimate j = Some e <-> estimate_json j e.
Proof.
  unfold parse_estimate, estimate_json. cbn [map]. split.
  - intros H. open_parse. known. cbn [fe_fee fe_rate]. eexists. splits; eassumption.
  - intros (r & R & A & B). apply struct_iff in R. rewrite R. rewrite !uint_number by assumption.
    rewrite (proj2 (as_f64_iff _ _) B). destruct e; reflexivity.
Qed.
Lemma parse_estimates_iff l : forall es, parse_estimates l = Some es <-> Forall2 estimate_json l es.
Proof.
  induction l as [|j l IH]; intros es; cbn [parse_estimates].
  - split; [intros E; injection E as <-; constructor | intros F; inv F; reflexivity].
  - split.
    + intros H. open_parse. known. constructor; [apply parse_estimate_iff; assumption | apply IH; reflexivity].
    + intros F. inv F. apply parse_estimate_iff in H1. apply IH in H3. rewrite H1, H3. reflexivity.
Qed.
Lemma parse_fee_iff j es : parse_fee_ok j = Some es <-> fees_json j es.
Proof.
  unfold parse_fee_ok, fees_json. split.
  - intros H. open_parse. subst. known. eexists. split; [eassumption | apply parse_estimates_iff; assumption].
  - intros (l & R & F). apply struct_iff in R. rewrite R. apply parse_estimates_iff, F.
Qed.
Lemma parse_broadcast_iff j e : parse_broadcast_err j = Some e <-> rejection_json j e.
Proof.
  unfold parse_broadcast_err, rejection_json. cbn [map]. split.
  - intros H. open_parse. known. cbn. assumption.
  - intros R. apply struct_iff in R. rewrite R. destruct e; reflexivity.
Qed.
Lemma parse_ro_ok_iff j r : parse_ro_ok j = Some r <-> exists o s, r = ROk o s /\ result_json j o s.
Proof.
  unfold parse_ro_ok, result_json. cbn [map]. split.
  - intros H. open_parse. known. eauto.
  - intros (o & s & -> & R). apply struct_iff in R. rewrite R. reflexivity.
Qed.
Lemma parse_ro_err_iff j r : parse_ro_err j = Some r <-> exists o s, r = RErr o s /\ cause_json j o s.
Proof.
  unfold parse_ro_err, cause_json. cbn [map]. split.
  - intros H. open_parse. known. eauto.
  - intros (o & s & -> & R). apply struct_iff in R. rewrite R. reflexivity.
Qed.
Lemma parse_read_only_iff j r : parse_read_only j = Some r <-> read_only_json j r.
Proof.
  unfold parse_read_only. destruct (parse_ro_ok j) as [x|] eqn:P.
  - apply parse_ro_ok_iff in P. destruct P as (o & s & -> & R). split.
    + intros E. injection E as <-. exact R.
    + destruct r as [o' s'|o' s']; cbn [read_only_json].
      * intros R'. apply struct_iff in R, R'. rewrite R in R'. injection R' as -> ->. reflexivity.
      * intros [_ N]. destruct (N _ _ R).
  - rewrite parse_ro_err_iff. assert (N : forall o s, ~ result_json j o s).
    { intros o s R. assert (X : parse_ro_ok j = Some (ROk o s)) by (apply parse_ro_ok_iff; eauto). congruence. }
    split.
    + intros (o & s & -> & R). cbn. auto.
    + destruct r as [o' s'|o' s']; cbn [read_only_json]; [intros R; destruct (N _ _ R)|]. intros [R _]. eauto.
Qed.

Lemma into_json_read {A B} (p : json -> option A) P (k : A -> B) r : (forall j a, p j = Some a <-> P j a) ->
  read_as P k r (let* a := into_json p r in Ok (k a)).
Proof.
  intros I. unfold read_as, into_json. destruct (rs_json r) as [j|]; cbn [io bind].
  - destruct (p j) as [a|] eqn:E; cbn [io bind].
    + left. exists j, a. splits; auto. apply I, E.
    + right. split; [|reflexivity]. intros j' a F. injection F as <-. rewrite <- I. congruence.
  - right. split; [discriminate | reflexivity].
Qed.
Lemma into_json_plain {A} (p : json -> option A) P r : (forall j a, p j = Some a <-> P j a) ->
  read_as P (fun a => a) r (into_json p r).
Proof.
  intros I. pose proof (into_json_read p P (fun a => a) r I) as R. destruct (into_json p r); exact R.
Qed.
Lemma call_result {A} http rq (p : json -> option A) P : (forall j a, p j = Some a <-> P j a) ->
  plain_result P (http rq) (call http rq p).
Proof.
  intros I. unfold plain_result, call. destruct (http rq); try reflexivity. apply into_json_plain, I.
Qed.
(** The readings determine the results. *)
Lemma read_as_fun {A B} (P : json -> A -> Prop) (k : A -> B) r x y : (forall j a b, P j a -> P j b -> a = b) ->
  read_as P k r x -> read_as P k r y -> x = y.
Proof.
  intros F [(j & a & J & X & ->)|[N ->]] [(j' & a' & J' & X' & ->)|[N' ->]].
  - rewrite J in J'. injection J' as <-. rewrite (F _ _ _ X X'). reflexivity.
  - destruct (N' _ _ J X).
  - destruct (N _ _ J' X').
  - reflexivity.
Qed.
Lemma iff_fun {A} (p : json -> option A) P : (forall j a, p j = Some a <-> P j a) -> forall j a b, P j a -> P j b -> a = b.
Proof. intros I j a b. rewrite <- !I. congruence. Qed.

(** ** Methods *)

Lemma info_result http url : plain_result info_json (http (get (url ++ str "/v2/info"%string))) (info http url).
Proof. apply (call_result http _ _ _ parse_info_iff). Qed.
Lemma address_result http url addr :
  plain_result address_json (http (get (url ++ str "/v2/accounts/"%string ++ addr))) (address_info_of http url addr).
Proof. apply (call_result http _ _ _ parse_address_iff). Qed.

Lemma broadcast_sends http url t w : tx_means t w -> fits_tx w ->
  broadcast_result (http (post_bytes (url ++ str "/v2/transactions"%string) (ser_tx w))) (broadcast http url t).
Proof.
  intros M F. unfold broadcast, broadcast_request.
  rewrite (proj2 (tx_iff t (ser_tx w)) (ex_intro _ w (conj M (conj F eq_refl)))). cbn [map_err bind].
  change {| rq_post := true; rq_url := _; rq_headers := _; rq_body := BBytes (ser_tx w) |}
    with (post_bytes (url ++ str "/v2/transactions"%string) (ser_tx w)).
  destruct (http _); cbn [broadcast_result]; [|apply into_json_read, parse_broadcast_iff | reflexivity].
  unfold read_text, io. destruct (rs_text r); reflexivity.
Qed.

Lemma not_encodable t : (forall w, tx_means t w -> ~ fits_tx w) -> exists e, enc_tx t = Err e.
Proof.
  intros N. destruct (enc_tx_settled t) as [[e H]|H]; [|exact H]. apply tx_iff in H. destruct H as (w & M & F & _). destruct (N _ M F).
Qed.

Lemma broadcast_refuses t : (forall w, tx_means t w -> ~ fits_tx w) ->
  exists e, forall http url, broadcast http url t = Err (RClarity e).
Proof.
  intros N. destruct (not_encodable t N) as [e H]. exists e. intros. unfold broadcast, broadcast_request. rewrite H. reflexivity.
Qed.

Lemma estimate_asks http url t w : tx_means t w -> fits_tx w ->
  estimate_result (http (post_json (url ++ str "/v2/fees/transaction"%string) (fee_question w))) (estimate_fee http url t).
Proof.
  intros M F. unfold estimate_fee, estimate_request.
  rewrite (proj2 (payload_iff (tx_payload t) (ser_payload (w_payload w)))).
  2:{ exists (w_payload w). splits; [apply M | apply F | reflexivity]. }
  rewrite (proj2 (tx_iff t (ser_tx w)) (ex_intro _ w (conj M (conj F eq_refl)))). cbn [map_err bind].
  rewrite bytes_to_hex_text.
  change {| rq_post := true; rq_url := _; rq_headers := _; rq_body := _ |}
    with (post_json (url ++ str "/v2/fees/transaction"%string) (fee_question w)).
  destruct (http _); cbn [estimate_result]; [apply into_json_read, parse_fee_iff | | reflexivity].
  unfold read_text, io. destruct (rs_text r); reflexivity.
Qed.

Lemma estimate_refuses t : (forall w, tx_means t w -> ~ fits_tx w) ->
  exists e, forall http url, estimate_fee http url t = Err (RClarity e).
Proof.
  intros N. destruct (not_encodable t N) as [e H]. unfold estimate_fee, estimate_request.
  destruct (enc_payload_settled (tx_payload t)) as [[p P]|[p P]]; rewrite P; cbn [map_err bind]; [exists e; rewrite H | exists p]; reflexivity.
Qed.

Lemma hex_args_ok args : forall ws, Forall2 means args ws -> Forall (wall fits1) ws ->
  hex_args args = Ok (map (fun w => hex_text (wser w)) ws).
Proof.
  induction args as [|a args IH]; intros ws M F; inv M; [reflexivity|]. inv F. cbn [hex_args map]. unfold codec_hex.
  rewrite (encode_complete a y H1 H2). cbn [bind]. rewrite (IH _ H3 H4), bytes_to_hex_text. reflexivity.
Qed.
Lemma hex_args_settled args : settled (hex_args args).
Proof.
  induction args as [|a args IH]; cbn [hex_args]; auto. unfold codec_hex. apply settled_bind; [|intros; apply settled_bind; auto].
  apply settled_bind; [apply encode_settled | auto].
Qed.
Lemma hex_args_means args hs : hex_args args = Ok hs -> exists ws, Forall2 means args ws /\ Forall (wall fits1) ws.
Proof.
  revert hs. induction args as [|a args IH]; intros hs H; cbn [hex_args] in H.
  - exists []. auto.
  - rewrite bind_ok in H. destruct H as (h & A & H). rewrite bind_ok in H. destruct H as (t & B & H).
    unfold codec_hex in A. rewrite bind_ok in A. destruct A as (e & A & _). apply encode_iff in A. destruct A as (w & M & F & _).
    apply IH in B. destruct B as (ws & Ms & Fs). exists (w :: ws). auto.
Qed.

Lemma read_only_asks http url addr name fname args sender ws : Forall2 means args ws -> Forall (wall fits1) ws ->
  plain_result read_only_json
    (http (post_json (url ++ str "/v2/contracts/call-read/"%string ++ addr ++ str "/"%string ++ name ++ str "/"%string ++ fname)
             (call_question sender ws)))
    (read_only http url addr name fname args sender).
Proof.
  intros M F. unfold read_only, read_only_request. rewrite (hex_args_ok args ws M F). cbn [map_err bind]. rewrite map_map.
  change {| rq_post := true; rq_url := _; rq_headers := _; rq_body := _ |}
    with (post_json (url ++ str "/v2/contracts/call-read/"%string ++ addr ++ str "/"%string ++ name ++ str "/"%string ++ fname)
             (call_question sender ws)).
  destruct (http _); cbn [plain_result]; [apply into_json_plain, parse_read_only_iff | reflexivity..].
Qed.
Lemma read_only_refuses args : (forall ws, Forall2 means args ws -> ~ Forall (wall fits1) ws) ->
  exists e, forall http url addr name fname sender, read_only http url addr name fname args sender = Err (RClarity e).
Proof.
  intros N. destruct (hex_args_settled args) as [[hs H]|[e H]].
  - apply hex_args_means in H. destruct H as (ws & M & F). destruct (N _ M F).
  - exists e. intros. unfold read_only, read_only_request. rewrite H. reflexivity.
Qed.

Lemma results_determined :
  (forall o x y, broadcast_result o x -> broadcast_result o y -> x = y)
  /\ (forall o x y, estimate_result o x -> estimate_result o y -> x = y)
  /\ (forall o x y, plain_result read_only_json o x -> plain_result read_only_json o y -> x = y)
  /\ (forall o x y, plain_result info_json o x -> plain_result info_json o y -> x = y)
  /\ (forall o x y, plain_result address_json o x -> plain_result address_json o y -> x = y).
Proof.
  unfold broadcast_result, estimate_result, plain_result, read_text. splits; intros [r|c r|] x y; try congruence.
  - apply read_as_fun, (iff_fun _ _ parse_broadcast_iff).
  - apply read_as_fun, (iff_fun _ _ parse_fee_iff).
  - apply read_as_fun, (iff_fun _ _ parse_read_only_iff).
  - apply read_as_fun, (iff_fun _ _ parse_info_iff).
  - apply read_as_fun, (iff_fun _ _ parse_address_iff).
Qed.

Lemma account_call {H} E (a : account H) v s sk b t : hd_correct E H -> ecdsa_correct E ->
  get_address a v = Ok s -> account_private_key a = Ok sk -> cc_sender b = sk -> build_call E b = Ok t ->
  exists c, origin_of t = SStd c /\ address_text (std_signer c) (address_code v) s
    /\ forall h, initial_hash t = Ok h -> exists t' g, tx_sign E t sk = Ok t' /\ same_but_signatures t t' /\ tx_verify_origin E t' = Ok g.
Proof.
  intros C EC A P S B. destruct (account_keys E a C) as (sk' & P' & V & _ & K). rewrite P in P'. apply ok_inj in P'. subst sk'.
  destruct (account_address a v) as (s' & A' & T & _). rewrite A in A'. apply ok_inj in A'. subst s'. rewrite <- K in T.
  destruct (build_call_cases E b) as [(h & w & _ & _ & D)|[(h & w & _ & _ & D)|[_ (e & _ & D)]]]; rewrite D in B; try discriminate.
  destruct (cc_sponsored b); [discriminate|]. apply ok_inj in B. subst t. rewrite S. eexists. splits; [reflexivity | exact T|].
  intros h' Hh. eapply unsigned_signs; eauto.
Qed.
