(** Proofs about types of the user's own. *)

From Coq Require Import Strings.String Lia.
From Verif Require Import Base BaseFacts Sha2 HashFacts SpecText SpecAddr Hash C32 Clarity SpecWire ClarityFacts Tx SpecTx TxFacts TxThms WireFacts Signer SpecSign SignThms HistThms PlanThms AuthThms TxWire SpecBind BindThms SpecFault FaultThms AddrFacts TextThms AddrFacts HexFacts Builder SpecShow Rpc SpecClient Own SpecOwn.
Local Open Scope string_scope.
Local Open Scope list_scope.
Local Open Scope N_scope.

(** ** Values *)

Fixpoint oenc_all (l : list oval) : res cl_err bytes :=
  match l with
  | [] => Ok []
  | x :: r => let* e := oencode x in let* t := oenc_all r in Ok (e ++ t)
  end.
Fixpoint oenc_entries (l : list (bytes * oval)) : res cl_err bytes :=
  match l with
  | [] => Ok []
  | (k, x) :: r => let* ke := enc_lps k in let* e := oencode x in let* t := oenc_entries r in Ok (ke ++ e ++ t)
  end.
Lemma oencode_list l : oencode (OList l) = let* n := enc_len32 (count l) in let* e := oenc_all l in Ok (x0b :: n ++ e).
Proof. reflexivity. Qed.
Lemma oencode_args l : oencode (OFnArgs l) = let* n := enc_len32 (count l) in let* e := oenc_all l in Ok (n ++ e).
Proof. reflexivity. Qed.
Lemma oencode_tuple l : oencode (OTuple l) = let* n := enc_len32 (count l) in let* e := oenc_entries l in Ok (x0c :: n ++ e).
Proof. reflexivity. Qed.

Fixpoint oval_all (P : oval -> Prop) (L : forall v, P (OLib v)) (O : forall o, P (OOwn o))
  (A : forall v, P v -> P (ORespOk v)) (B : forall v, P v -> P (ORespErr v)) (C : forall v, P v -> P (OSome v))
  (Li : forall l, Forall P l -> P (OList l)) (T : forall l, Forall (fun kv => P (snd kv)) l -> P (OTuple l))
  (F : forall l, Forall P l -> P (OFnArgs l)) (v : oval) : P v :=
  let go := oval_all P L O A B C Li T F in
  match v with
  | OLib v => L v
  | OOwn o => O o
  | ORespOk v => A v (go v)
  | ORespErr v => B v (go v)
  | OSome v => C v (go v)
  | OList l => Li l ((fix all l : Forall P l := match l with [] => Forall_nil _ | x :: r => Forall_cons x (go x) (all r) end) l)
  | OTuple l => T l ((fix all l : Forall (fun kv => P (snd kv)) l :=
                        match l with [] => Forall_nil _ | x :: r => Forall_cons x (go (snd x)) (all r) end) l)
  | OFnArgs l => F l ((fix all l : Forall P l := match l with [] => Forall_nil _ | x :: r => Forall_cons x (go x) (all r) end) l)
  end.

Lemma enc_all_ok l bs : Forall (fun v => forall e, own_ser v e -> oencode v = Ok e) l -> Forall2 own_ser l bs -> oenc_all l = Ok (concat bs).
Proof.
  intros F H. induction H as [|v b l bs A B IH]; [reflexivity|]. inversion F as [|x y F1 F2]; subst.
  cbn [oenc_all concat]. rewrite (F1 b A). cbn [bind]. rewrite (IH F2). reflexivity.
Qed.
Lemma enc_entries_ok l bs : Forall (fun kv => forall e, own_ser (snd kv) e -> oencode (snd kv) = Ok e) l ->
  Forall2 (fun kv b => count (fst kv) <= 128 /\ exists c, own_ser (snd kv) c /\ b = ser_name (fst kv) ++ c) l bs ->
  oenc_entries l = Ok (concat bs).
Proof.
  intros F H. induction H as [|[k v] b l bs A B IH]; [reflexivity|]. inversion F as [|x y F1 F2]; subst.
  destruct A as (A & c & S & ->). cbn [fst snd] in *.
  cbn [oenc_entries concat]. rewrite (enc_lps_short _ A). cbn [bind]. rewrite (F1 c S). cbn [bind]. rewrite (IH F2).
  cbn [bind]. now rewrite <- app_assoc.
Qed.

Lemma own_ser_encode v : forall e, own_ser v e -> oencode v = Ok e.
Proof.
  induction v as [v|o|v IH|v IH|v IH|l IH|l IH|l IH] using oval_all; intros e H; inversion H as [v' w M F E1 E2|b E1|v' b S E1 E2|v' b S E1 E2|v' b S E1 E2|l' bs K S E1 E2|l' bs K S E1 E2|l' bs K S E1 E2]; subst; clear H.
  - cbn [oencode]. apply encode_iff. eauto.
  - reflexivity.
  - cbn [oencode]. rewrite (IH _ S). reflexivity.
  - cbn [oencode]. rewrite (IH _ S). reflexivity.
  - cbn [oencode]. rewrite (IH _ S). reflexivity.
  - rewrite oencode_list, (enc_len32_small _ K), (enc_all_ok _ _ IH S). reflexivity.
  - rewrite oencode_tuple, (enc_len32_small _ K), (enc_entries_ok _ _ IH S). reflexivity.
  - rewrite oencode_args, (enc_len32_small _ K), (enc_all_ok _ _ IH S). reflexivity.
Qed.

Lemma enc_all_stop l v r e : Forall encodes l -> oencode v = e -> no_bytes e -> oenc_all (l ++ v :: r) = e.
Proof.
  intros F S N. induction F as [|x l [b X] F IH]; cbn [app oenc_all].
  - rewrite S. destruct e; [now destruct (N a)|reflexivity|reflexivity|reflexivity].
  - rewrite (own_ser_encode _ _ X). cbn [bind]. rewrite IH. destruct e; [now destruct (N a)|reflexivity|reflexivity|reflexivity].
Qed.
Lemma enc_entries_stop l k v r e : Forall (fun kv => count (fst kv) <= 128 /\ encodes (snd kv)) l ->
  (let* _ := enc_lps k in oencode v) = e -> no_bytes e -> oenc_entries (l ++ (k, v) :: r) = e.
Proof.
  intros F S N. induction F as [|[k' x] l [K [b X]] F IH]; cbn [app oenc_entries].
  - destruct (enc_lps k) as [a|a|p|]; cbn [bind] in *; auto. rewrite S. destruct e; [now destruct (N a0)|reflexivity|reflexivity|reflexivity].
  - cbn [fst snd] in *. rewrite (enc_lps_short _ K), (own_ser_encode _ _ X). cbn [bind]. rewrite IH. destruct e; [now destruct (N a)|reflexivity|reflexivity|reflexivity].
Qed.

Lemma fails_no_bytes v e : own_fails v e -> no_bytes e.
Proof. induction 1; auto; intros b; discriminate. Qed.

Lemma own_fails_encode v e : own_fails v e -> oencode v = e.
Proof.
  induction 1 as [v e M|e N|v e F IH|v e F IH|v e F IH|l L|l v r e K C F IH|l L|l v r e K C F IH|l L|l k v r e K C T|l k v r e K C T F IH];
    try (assert (N := fails_no_bytes _ _ F)).
  - cbn [oencode]. apply encode_refused. exact M.
  - reflexivity.
  - cbn [oencode]. rewrite IH. destruct e; [now destruct (N a)|reflexivity|reflexivity|reflexivity].
  - cbn [oencode]. rewrite IH. destruct e; [now destruct (N a)|reflexivity|reflexivity|reflexivity].
  - cbn [oencode]. rewrite IH. destruct e; [now destruct (N a)|reflexivity|reflexivity|reflexivity].
  - rewrite oencode_list, (enc_len32_big _ L). reflexivity.
  - rewrite oencode_list, (enc_len32_small _ K), (enc_all_stop _ _ _ _ C IH N). destruct e; [now destruct (N a)|reflexivity|reflexivity|reflexivity].
  - rewrite oencode_args, (enc_len32_big _ L). reflexivity.
  - rewrite oencode_args, (enc_len32_small _ K), (enc_all_stop _ _ _ _ C IH N). destruct e; [now destruct (N a)|reflexivity|reflexivity|reflexivity].
  - rewrite oencode_tuple, (enc_len32_big _ L). reflexivity.
  - rewrite oencode_tuple, (enc_len32_small _ K), (enc_entries_stop l k v r (Err e) C); [reflexivity| |discriminate].
    rewrite (enc_lps_long _ _ T). reflexivity.
  - rewrite oencode_tuple, (enc_len32_small _ K), (enc_entries_stop l k v r e C); [|rewrite (enc_lps_short _ T); exact IH|exact N].
    destruct e; [now destruct (N a)|reflexivity|reflexivity|reflexivity].
Qed.

(** All parts have bytes, or there is a first without. *)
Lemma first_stop l : Forall (fun v => encodes v \/ exists r, own_fails v r) l ->
  (exists bs, Forall2 own_ser l bs) \/ exists p v r e, l = p ++ v :: r /\ Forall encodes p /\ own_fails v e.
Proof.
  induction 1 as [|v l H F IH]; [left; exists []; constructor|]. destruct H as [[b H]|[e H]].
  - destruct IH as [[bs IH]|(p & x & r & e & -> & P & X)]; [left; exists (b :: bs); now constructor|].
    right. exists (v :: p), x, r, e. refine (conj eq_refl (conj _ X)). constructor; [now exists b|exact P].
  - right. exists [], v, l, e. auto.
Qed.
Lemma first_entry_stop l : Forall (fun kv => encodes (snd kv) \/ exists r, own_fails (snd kv) r) l ->
  (exists bs, Forall2 (fun kv b => count (fst kv) <= 128 /\ exists c, own_ser (snd kv) c /\ b = ser_name (fst kv) ++ c) l bs)
  \/ exists p k v r, l = p ++ (k, v) :: r /\ Forall (fun kv => count (fst kv) <= 128 /\ encodes (snd kv)) p
      /\ ((exists e, too_long k e) \/ count k <= 128 /\ exists e, own_fails v e).
Proof.
  induction 1 as [|[k v] l H F IH]; [left; exists []; constructor|]. cbn [fst snd] in *.
  destruct (N.le_gt_cases (count k) 128) as [K|K].
  - destruct H as [[b H]|[e H]].
    + destruct IH as [[bs IH]|(p & k' & x & r & -> & P & X)].
      * left. exists ((ser_name k ++ b) :: bs). constructor; [|exact IH]. split; [exact K|]. exists b. auto.
      * right. exists ((k, v) :: p), k', x, r. refine (conj eq_refl (conj _ X)). constructor; [|exact P]. split; [exact K|now exists b].
    + right. exists [], k, v, l. refine (conj eq_refl (conj (Forall_nil _) _)). right. split; [exact K|eauto].
  - right. exists [], k, v, l. refine (conj eq_refl (conj (Forall_nil _) _)). left. eexists. split; [exact K|reflexivity].
Qed.

Lemma own_or_fails v : encodes v \/ exists r, own_fails v r.
Proof.
  induction v as [v|o|v IH|v IH|v IH|l IH|l IH|l IH] using oval_all.
  - destruct (encode_settled v) as [[e H]|[e H]].
    + left. apply encode_iff in H. destruct H as (w & M & F & _). exists (wser w). now constructor.
    + right. exists (Err e). constructor. now apply encode_refused.
  - destruct o as [b|e|p|]; [left; exists b; constructor|right..]; eexists; constructor; intros b; discriminate.
  - destruct IH as [[b H]|[r H]]; [left|right]; eexists; constructor; eassumption.
  - destruct IH as [[b H]|[r H]]; [left|right]; eexists; constructor; eassumption.
  - destruct IH as [[b H]|[r H]]; [left|right]; eexists; constructor; eassumption.
  - destruct (N.lt_ge_cases (count l) (2 ^ 32)) as [K|K]; [|right; eexists; now apply ob_long_list].
    destruct (first_stop l IH) as [[bs H]|(p & v & r & e & -> & P & X)]; [left|right].
    + eexists. apply os_list; eassumption.
    + exists e. now apply ob_list.
  - destruct (N.lt_ge_cases (count l) (2 ^ 32)) as [K|K]; [|right; eexists; now apply ob_long_tuple].
    destruct (first_entry_stop l IH) as [[bs H]|(p & k & v & r & -> & P & [[e X]|[Y [e X]]])]; [left|right|right].
    + eexists. apply os_tuple; eassumption.
    + exists (Err e). now apply ob_key.
    + exists e. now apply ob_tuple.
  - destruct (N.lt_ge_cases (count l) (2 ^ 32)) as [K|K]; [|right; eexists; now apply ob_long_args].
    destruct (first_stop l IH) as [[bs H]|(p & v & r & e & -> & P & X)]; [left|right].
    + eexists. apply os_args; eassumption.
    + exists e. now apply ob_args.
Qed.

Lemma oencode_iff v e : oencode v = Ok e <-> own_ser v e.
Proof.
  split; [|apply own_ser_encode]. intros H. destruct (own_or_fails v) as [[b S]|[r S]].
  - rewrite (own_ser_encode _ _ S) in H. now injection H as ->.
  - assert (N := fails_no_bytes _ _ S). apply own_fails_encode in S. rewrite S in H. now destruct (N e).
Qed.
Lemma oencode_fails v r : no_bytes r -> (oencode v = r <-> own_fails v r).
Proof.
  intros N. split; [|apply own_fails_encode]. intros H. destruct (own_or_fails v) as [[b S]|[r' S]].
  - rewrite (own_ser_encode _ _ S) in H. now destruct (N b).
  - assert (X := own_fails_encode _ _ S). congruence.
Qed.

(** ** Transactions *)

Lemma oconds_body_iff l : forall e, enc_oconds_body l = Ok e <-> exists cs, l = map Ok cs /\ e = concat cs.
Proof.
  induction l as [|c l IH]; intros e; cbn [enc_oconds_body]; split.
  - intros H. okinv H. exists []. auto.
  - intros (cs & E & ->). destruct cs; [reflexivity|discriminate].
  - intros H. rewrite bind_ok in H. destruct H as (a & A & H). rewrite bind_ok in H. destruct H as (b & B & H). okinv H.
    apply IH in B. destruct B as (cs & -> & ->). exists (a :: cs). auto.
  - intros (cs & E & ->). destruct cs as [|a cs]; [discriminate|]. injection E as -> ->. cbn [bind].
    rewrite (proj2 (IH _) (ex_intro _ cs (conj eq_refl eq_refl))). reflexivity.
Qed.
Lemma oconds_iff l e : enc_oconds l = Ok e <-> exists cs, l = map Ok cs /\ count cs < 2 ^ 32 /\ e = big_endian 4 (count cs) ++ concat cs.
Proof.
  unfold enc_oconds. change @lenN with @count. split.
  - intros H. rewrite bind_ok in H. destruct H as (a & A & H). rewrite bind_ok in H. destruct H as (b & B & H). okinv H.
    apply enc_len32_ok in A. destruct A as [A ->]. apply oconds_body_iff in B. destruct B as (cs & -> & ->).
    exists cs. unfold count in *. rewrite map_length in *. auto.
  - intros (cs & -> & K & ->). assert (L : count (map Ok cs : list own) = count cs) by (unfold count; now rewrite map_length).
    rewrite L, (enc_len32_small _ K). cbn [bind].
    rewrite (proj2 (oconds_body_iff (map Ok cs) _) (ex_intro _ cs (conj eq_refl eq_refl))). reflexivity.
Qed.

Lemma otx_iff t e : enc_otx t = Ok e <->
  exists cs p, own_parts t cs p /\ fits_auth (auth_wire (o_auth t)) /\ count cs < 2 ^ 32 /\ e = own_text (auth_wire (o_auth t)) t cs p.
Proof.
  unfold enc_otx, own_parts. split.
  - intros H. rewrite bind_ok in H. destruct H as (a & A & H). rewrite bind_ok in H. destruct H as (c & C & H).
    rewrite bind_ok in H. destruct H as (p & P & H). okinv H.
    apply auth_iff in A. destruct A as [A ->]. apply oconds_iff in C. destruct C as (cs & M & K & ->).
    exists cs, p. splits; auto. unfold own_text.
    rewrite (big_endian_be 4 (chain_code _)), <- ?app_assoc.
    destruct (o_ver t), (o_chain t), (o_anchor t), (o_pcmode t); reflexivity.
  - intros (cs & p & [M P] & FA & K & ->).
    rewrite (proj2 (auth_iff (o_auth t) _) (conj FA eq_refl)). cbn [bind].
    rewrite (proj2 (oconds_iff (o_conds t) _) (ex_intro _ _ (conj M (conj K eq_refl)))). cbn [bind]. rewrite P. cbn [bind].
    unfold own_text. rewrite (big_endian_be 4 (chain_code _)), <- ?app_assoc.
    destruct (o_ver t), (o_chain t), (o_anchor t), (o_pcmode t); reflexivity.
Qed.

Lemma map_ok_or (l : list own) : (exists cs, l = map Ok cs) \/ exists cs r t, l = map Ok cs ++ r :: t /\ no_bytes r.
Proof.
  induction l as [|r l IH]; [left; now exists []|]. destruct r as [b|e|p|].
  - destruct IH as [[cs ->]|(cs & r & t & -> & N)]; [left; now exists (b :: cs)|right; exists (b :: cs), r, t; auto].
  - right. exists [], (Err e), l. split; [reflexivity|intros b; discriminate].
  - right. exists [], (Panic p), l. split; [reflexivity|intros b; discriminate].
  - right. exists [], NoFuel, l. split; [reflexivity|intros b; discriminate].
Qed.
Lemma oconds_stop cs (r : own) l : no_bytes r -> enc_oconds_body (map Ok cs ++ r :: l) = r.
Proof.
  intros N. induction cs as [|c cs IH]; cbn [map app enc_oconds_body bind].
  - destruct r; [now destruct (N a)|reflexivity|reflexivity|reflexivity].
  - rewrite IH. destruct r; [now destruct (N a)|reflexivity|reflexivity|reflexivity].
Qed.
Lemma count_map_ok (cs : list bytes) : count (map Ok cs : list own) = count cs.
Proof. unfold count. now rewrite map_length. Qed.

Lemma otx_fails_enc t r : otx_fails t r -> enc_otx t = r.
Proof.
  unfold enc_otx, enc_oconds. change @lenN with @count. intros H.
  destruct H as [t H|t H K|t cs r l H K C N|t cs r H K C P N]; destruct (auth_verdict (o_auth t)) as [[V A]|[V [a A]]]; try contradiction; rewrite A; cbn [bind].
  - reflexivity.
  - rewrite (enc_len32_big _ K). reflexivity.
  - rewrite (enc_len32_small _ K). cbn [bind]. rewrite C, (oconds_stop _ _ _ N). destruct r; [now destruct (N a0)|reflexivity|reflexivity|reflexivity].
  - rewrite (enc_len32_small _ K). cbn [bind]. rewrite C, (proj2 (oconds_body_iff _ _) (ex_intro _ cs (conj eq_refl eq_refl))). cbn [bind].
    rewrite P. destruct r; [now destruct (N a0)|reflexivity|reflexivity|reflexivity].
Qed.
Lemma otx_fails_no t r : otx_fails t r -> no_bytes r.
Proof. destruct 1; auto; intros b; discriminate. Qed.
Lemma otx_settles t : (exists e, enc_otx t = Ok e) \/ exists r, otx_fails t r.
Proof.
  destruct (auth_verdict (o_auth t)) as [[V A]|[V [a A]]]; [right; eexists; now apply of_auth|].
  destruct (N.lt_ge_cases (count (o_conds t)) (2 ^ 32)) as [K|K]; [|right; eexists; now apply of_count].
  destruct (map_ok_or (o_conds t)) as [[cs C]|(cs & r & l & C & N)]; [|right; exists r; eapply of_cond; eassumption].
  assert (D : (exists p, o_payload t = Ok p) \/ no_bytes (o_payload t)).
  { destruct (o_payload t); [left; eauto|right; intros b; discriminate..]. }
  destruct D as [[p D]|D]; [|right; eexists; eapply of_payload; eauto]. left. eexists. apply otx_iff. exists cs, p.
  split; [split; assumption|]. split; [|split; [|reflexivity]].
  - apply auth_iff in A. apply A.
  - rewrite <- count_map_ok, <- C. exact K.
Qed.
Lemma otx_refused t r : no_bytes r -> (enc_otx t = r <-> otx_fails t r).
Proof.
  intros N. split; [|apply otx_fails_enc]. intros H. destruct (otx_settles t) as [[e S]|[r' S]].
  - rewrite S in H. now destruct (N e).
  - assert (X := otx_fails_enc _ _ S). congruence.
Qed.

(** ** The hash that is signed *)

Lemma cleared_fits a : fits_auth (clear_auth a).
Proof. destruct a as [[]|[] ?]; repeat split; reflexivity. Qed.

Lemma o_hash_iff t h : o_initial_hash t = Ok h <->
  exists cs p, own_parts t cs p /\ count cs < 2 ^ 32 /\ h = sha512_256 (own_cleared t cs p).
Proof.
  unfold o_initial_hash, otx_hash. set (u := o_with_auth t (auth_reset (o_auth t))).
  assert (X : forall cs p, own_text (auth_wire (o_auth u)) u cs p = own_cleared t cs p).
  { intros cs p. unfold own_cleared, u, own_text. cbn [o_with_auth o_auth o_ver o_chain o_anchor o_pcmode]. now rewrite reset_wire. }
  assert (F : fits_auth (auth_wire (o_auth u))).
  { unfold u. cbn [o_with_auth o_auth]. rewrite reset_wire. apply cleared_fits. }
  split.
  - intros H. rewrite bind_ok in H. destruct H as (e & A & H). okinv H. destruct (enc_otx u) as [b| | |] eqn:B; try discriminate. okinv A.
    apply otx_iff in B. destruct B as (cs & p & O & _ & K & ->). exists cs, p. splits; auto. unfold sighash. now rewrite X.
  - intros (cs & p & O & K & ->).
    assert (enc_otx u = Ok (own_cleared t cs p)) as ->. { apply otx_iff. exists cs, p. splits; auto. }
    reflexivity.
Qed.
Lemma o_hash_length t h : o_initial_hash t = Ok h -> length h = 32%nat.
Proof. intros H. apply o_hash_iff in H. destruct H as (cs & p & _ & _ & ->). apply sha512_256_length. Qed.

Lemma parts_fun t cs p ds q : own_parts t cs p -> own_parts t ds q -> cs = ds /\ p = q.
Proof.
  intros [A B] [C D]. rewrite A in C. rewrite B in D. injection D as ->. split; [|reflexivity]. revert ds C. clear.
  induction cs as [|c cs IH]; intros [|d ds] E; try discriminate; [reflexivity|]. injection E as -> E. f_equal. auto.
Qed.

Lemma o_hash_auth t a : same_origin (o_auth t) a -> o_initial_hash (o_with_auth t a) = o_initial_hash t.
Proof.
  intros O. unfold o_initial_hash, otx_hash. f_equal. f_equal.
  assert (auth_reset (o_auth t) = auth_reset a) as E.
  { apply auth_wire_inj. rewrite !reset_wire. apply auth_identity. exact O. }
  unfold o_with_auth. cbn [o_ver o_chain o_auth o_anchor o_pcmode o_conds o_payload]. now rewrite E.
Qed.

Lemma clear_wf_auth a : wf_auth a -> wf_auth (clear_auth a).
Proof.
  intros W. assert (forall s, wf_spend s -> wf_spend (clear_spend s)) as S.
  { intros [] X; cbn [wf_spend clear_spend] in *.
    - destruct X as (I & L & _). splits; auto; try reflexivity.
    - destruct X as (I & L & _ & _ & _ & _ & R). splits; auto; try reflexivity. }
  destruct a as [o|o s]; cbn [clear_auth wf_auth] in *; [auto|]. destruct W as [W _]. split; [auto|].
  cbn [wf_spend]. splits; try reflexivity. left. reflexivity.
Qed.
Lemma codes_inj t u : version_code (o_ver t) = version_code (o_ver u) -> chain_code (o_chain t) = chain_code (o_chain u) ->
  anchor_code (o_anchor t) = anchor_code (o_anchor u) -> pcmode_code (o_pcmode t) = pcmode_code (o_pcmode u) -> same_head t u.
Proof.
  unfold same_head. intros A B C D.
  destruct (o_ver t), (o_ver u); try discriminate; destruct (o_chain t), (o_chain u); try discriminate;
  destruct (o_anchor t), (o_anchor u); try discriminate; destruct (o_pcmode t), (o_pcmode u); try discriminate; auto.
Qed.
Lemma chain_small c : chain_code c < 256 ^ N.of_nat 4. Proof. destruct c; reflexivity. Qed.

Lemma text_inj a b t u cs p ds q : wf_auth a -> wf_auth b -> count cs < 2 ^ 32 -> count ds < 2 ^ 32 ->
  own_text a t cs p = own_text b u ds q ->
  same_head t u /\ a = b /\ count cs = count ds /\ concat cs ++ p = concat ds ++ q.
Proof.
  unfold own_text. intros W V K L H. apply cons_both in H. destruct H as [A H].
  apply (fixed_prefix 4) in H; try apply chain_small. destruct H as [B H].
  apply auth_prefix in H; auto. destruct H as [-> H]. apply cons_both in H. destruct H as [C H]. apply cons_both in H. destruct H as [D H].
  apply (fixed_prefix 4) in H; auto. destruct H as [E H]. splits; auto. now apply codes_inj.
Qed.

Lemma own_commits t u cs p ds q h : own_parts t cs p -> own_parts u ds q -> wf_auth (auth_wire (o_auth t)) -> wf_auth (auth_wire (o_auth u)) ->
  o_initial_hash t = Ok h -> o_initial_hash u = Ok h ->
  (same_head t u /\ same_origin (o_auth t) (o_auth u) /\ count cs = count ds /\ concat cs ++ p = concat ds ++ q)
  \/ collision (own_cleared t cs p) (own_cleared u ds q).
Proof.
  intros A B W V H K. apply o_hash_iff in H, K. destruct H as (cs' & p' & A' & Kc & ->), K as (ds' & q' & B' & Kd & K).
  destruct (parts_fun _ _ _ _ _ A A') as [<- <-]. destruct (parts_fun _ _ _ _ _ B B') as [<- <-].
  destruct (bytes_dec (own_cleared t cs p) (own_cleared u ds q)) as [E|E]; [left|right; split; auto].
  apply text_inj in E; auto using clear_wf_auth. destruct E as (E1 & E2 & E3 & E4). splits; auto. now apply auth_identity.
Qed.

Lemma delimited K : self_delimiting K -> forall cs ds p q, Forall K cs -> Forall K ds -> count cs = count ds ->
  concat cs ++ p = concat ds ++ q -> cs = ds /\ p = q.
Proof.
  intros S cs. induction cs as [|c cs IH]; intros [|d ds] p q F G L H; try discriminate; [auto|].
  inversion F as [|? ? F1 F2]; subst. inversion G as [|? ? G1 G2]; subst. cbn [concat] in H. rewrite <- !app_assoc in H.
  pose proof (S _ _ _ _ F1 G1 H) as ->. apply app_inv_head in H.
  destruct (IH ds p q F2 G2) as [-> ->]; auto. unfold count in *. cbn [length] in L. lia.
Qed.
Lemma library_delimits : self_delimiting (fun b => exists w, wf_cond w /\ b = ser_cond w).
Proof. intros a b x y (w & W & ->) (v & V & ->) H. apply cond_prefix in H; auto. now destruct H as [-> _]. Qed.

(** ** Lifting the signer *)

Definition put (c : list own) (p : own) (t : tx) : otx :=
  {| o_ver := tx_ver t; o_chain := tx_chain t; o_auth := tx_auth t; o_anchor := tx_anchor t; o_pcmode := tx_pcmode t;
     o_conds := c; o_payload := p |}.
Definition lift (c : list own) (p : own) (s : signer) : osigner :=
  {| os_tx := put c p (sg_tx s); os_hash := sg_hash s; os_origin_signed := sg_origin_signed s;
     os_oversign := sg_oversign s; os_overlap := sg_overlap s |}.
Definition shadow (t : otx) : tx :=
  {| tx_ver := o_ver t; tx_chain := o_chain t; tx_auth := o_auth t; tx_anchor := o_anchor t; tx_pcmode := o_pcmode t;
     tx_conds := []; tx_payload := PTransfer CTrue 0 [] |}.
Definition shade (s : osigner) : signer :=
  {| sg_tx := shadow (os_tx s); sg_hash := os_hash s; sg_origin_signed := os_origin_signed s;
     sg_oversign := os_oversign s; sg_overlap := os_overlap s |}.
Lemma lift_shade s : lift (o_conds (os_tx s)) (o_payload (os_tx s)) (shade s) = s.
Proof. destruct s as [[] ? ? ? ?]. reflexivity. Qed.

Lemma operform_lift c p E s o : operform E (lift c p s) o = let '(s', r) := perform E s o in (lift c p s', r).
Proof.
  destruct o as [sk|sk|pk]; cbn [operform perform].
  - unfold o_sign_origin, sign_origin. cbn [lift os_overlap os_origin_signed os_oversign os_tx os_hash put o_auth].
    destruct (sg_overlap s && sg_origin_signed s); [reflexivity|].
    destruct (if sg_oversign s then _ else _) as [[]| | |]; try reflexivity.
    unfold o_sign_next_origin, sign_next_origin. cbn [put o_auth].
    destruct (sign_and_append E _ _ _ _) as [o' [h|e|pp|]]; reflexivity.
  - unfold o_sign_sponsor, sign_sponsor. cbn [lift os_overlap os_origin_signed os_oversign os_tx os_hash put o_auth].
    destruct (let* sp := _ in _) as [[]| | |]; try reflexivity.
    unfold o_sign_next_sponsor, sign_next_sponsor. cbn [put o_auth]. destruct (tx_auth (sg_tx s)) as [o|o q]; [reflexivity|].
    destruct (sign_and_append E _ _ _ _) as [o' [h|e|pp|]]; reflexivity.
  - unfold o_append_origin, append_origin. cbn [lift os_overlap os_origin_signed os_oversign os_tx os_hash put o_auth].
    destruct (sg_overlap s && sg_origin_signed s); [reflexivity|].
    unfold o_append_next_origin, append_next_origin. cbn [put o_auth].
    destruct (sc_mode _); try reflexivity; destruct (modify _ _) as [o' r]; reflexivity.
Qed.
Lemma operform_all_lift c p E l : forall s, operform_all E (lift c p s) l = lift c p (perform_all E s l).
Proof.
  induction l as [|o l IH]; intros s; [reflexivity|]. unfold operform_all, perform_all in *. cbn [fold_left].
  rewrite operform_lift. destruct (perform E s o) as [s' r]. cbn [fst]. apply IH.
Qed.
Lemma osucceeds_lift c p E s l s' : succeeds E s l s' -> osucceeds E (lift c p s) l (lift c p s').
Proof.
  induction 1 as [s|s o s1 l s' P S IH]; [constructor|]. econstructor; [|exact IH]. rewrite operform_lift, P. reflexivity.
Qed.
Lemma put_terms c p t u : same_but_signatures t u -> own_same_terms (put c p t) (put c p u).
Proof. intros (A & B & C & D & _ & _ & F). unfold own_same_terms, same_head. cbn [put o_ver o_chain o_anchor o_pcmode o_conds o_payload o_auth]. splits; auto. Qed.

Lemma own_history E s l : own_same_terms (os_tx s) (os_tx (operform_all E s l)).
Proof.
  rewrite <- (lift_shade s) at 2. rewrite operform_all_lift.
  assert (X := put_terms (o_conds (os_tx s)) (o_payload (os_tx s)) _ _ (history_same E l (shade s))).
  replace (put (o_conds (os_tx s)) (o_payload (os_tx s)) (sg_tx (shade s))) with (os_tx s) in X; [exact X|].
  destruct s as [[] ? ? ? ?]. reflexivity.
Qed.

Lemma o_verify_iff E t h h' : o_initial_hash t = Ok h -> typed (own_origin t) ->
  (o_verify_origin E t = Ok h' <-> satisfied E x04 h (own_origin t) h').
Proof.
  intros H T. unfold o_verify_origin, auth_verify_origin. rewrite H. cbn [bind].
  assert (auth_origin (o_auth t) = own_origin t) as -> by (unfold own_origin; now destruct (o_auth t)). apply verify_iff. exact T.
Qed.

Lemma own_new t h : o_initial_hash t = Ok h ->
  osigner_new t = Ok (lift (o_conds t) (o_payload t)
    {| sg_tx := shadow t; sg_hash := h; sg_origin_signed := false; sg_oversign := true; sg_overlap := true |}).
Proof. intros H. unfold osigner_new. rewrite H. destruct t. reflexivity. Qed.

Lemma own_origin_plan E t l h : ecdsa_correct E -> plan E (own_origin t) l -> o_initial_hash t = Ok h ->
  exists s s', osigner_new t = Ok s /\ osucceeds E s (map step_op l) s'
    /\ own_same_terms t (os_tx s') /\ o_verify_origin E (os_tx s') = Ok (os_hash s').
Proof.
  intros C P H. set (s := {| sg_tx := shadow t; sg_hash := h; sg_origin_signed := false; sg_oversign := true; sg_overlap := true |}).
  assert (O : origin_of (sg_tx s) = own_origin t) by reflexivity.
  destruct (run_origin E l s C) as (o' & h' & Sa & T & Ty & Su); [rewrite O; exact P | reflexivity|].
  exists (lift (o_conds t) (o_payload t) s). eexists. split; [now apply own_new|]. split; [apply osucceeds_lift; exact Su|].
  cbn [with_tx lift os_tx os_hash sg_tx sg_hash]. split.
  - assert (X := put_terms (o_conds t) (o_payload t) _ _ (but_sig_origin _ _ T)).
    assert (Y : put (o_conds t) (o_payload t) (sg_tx s) = t) by (clear; destruct t; reflexivity). rewrite Y in X. exact X.
  - apply (o_verify_iff E _ h).
    + rewrite <- H. apply (o_hash_auth t). apply origin_with. cbn [s sg_tx shadow tx_auth]. rewrite O in T.
      apply T.
    + unfold own_origin. cbn. destruct (o_auth t); exact Ty.
    + unfold own_origin. cbn. destruct (o_auth t); exact Sa.
Qed.

Lemma terms_trans t u v : own_same_terms t u -> own_same_terms u v -> own_same_terms t v.
Proof.
  intros ((A1 & A2 & A3 & A4) & A5 & A6 & A7) ((B1 & B2 & B3 & B4) & B5 & B6 & B7).
  assert (X : forall a b c, same_terms a b -> same_terms b c -> same_terms a c).
  { intros a b c (I & F & N) (J & G & M). split; [|split; congruence]. destruct a, b, c; cbn in *; try contradiction; intuition congruence. }
  unfold own_same_terms, same_head. splits; try congruence.
  destruct (o_auth t), (o_auth u), (o_auth v); try contradiction; [eauto|]. destruct A7, B7. split; eauto.
Qed.

Lemma own_sponsored_flow E t o p q l sks h : ecdsa_correct E -> o_auth t = ASponsored o q -> plan E o l -> plan E p (map Sign sks) ->
  o_initial_hash t = Ok h ->
  exists s s1 s2 s3, osigner_new t = Ok s /\ osucceeds E s (map step_op l) s1
    /\ osigner_new_sponsor E (os_tx s1) p = Ok s2 /\ osucceeds E s2 (map SignSponsor sks) s3
    /\ own_same_terms (o_with_auth t (ASponsored o p)) (os_tx s3)
    /\ auth_verify E (o_auth (os_tx s3)) h = Ok tt /\ o_initial_hash (os_tx s3) = Ok h.
Proof.
  intros C A P Q H. set (c := o_conds t). set (pl := o_payload t).
  set (s := {| sg_tx := shadow t; sg_hash := h; sg_origin_signed := false; sg_oversign := true; sg_overlap := true |}).
  assert (origin_of (sg_tx s) = o) as O by (unfold origin_of; cbn; rewrite A; reflexivity).
  destruct (run_origin E l s C) as (o' & h' & Sa & T & Ty & Su); [rewrite O; exact P | reflexivity|].
  rewrite O in T. cbn [s sg_hash] in Sa.
  cbn [s with_tx sg_tx sg_hash sg_origin_signed] in Su. change (tx_auth (shadow t)) with (o_auth t) in Su. rewrite A in Su. cbn [auth_with_origin] in Su.
  set (s1 := with_tx s (tx_with_auth (shadow t) (ASponsored o' q)) h' false) in *.
  assert (forall x, o_initial_hash (o_with_auth t (ASponsored o' x)) = Ok h) as Hx.
  { intros x. rewrite <- H. apply o_hash_auth. rewrite A. apply T. }
  assert (o_verify_origin E (o_with_auth t (ASponsored o' p)) = Ok h') as V.
  { apply (o_verify_iff E _ h); [apply Hx | exact Ty | exact Sa]. }
  set (s2 := {| sg_tx := tx_with_auth (shadow t) (ASponsored o' p); sg_hash := h'; sg_origin_signed := true; sg_oversign := true; sg_overlap := true |}).
  destruct (run_sponsor E sks s2 o' p C Q eq_refl) as (p' & h2 & b & Sp & Tp & Typ & Sup).
  exists (lift c pl s), (lift c pl s1), (lift c pl s2). eexists. splits.
  - now apply own_new.
  - apply osucceeds_lift. exact Su.
  - unfold osigner_new_sponsor. change (os_tx (lift c pl s1)) with (o_with_auth t (ASponsored o' q)).
    change (o_auth (o_with_auth t (ASponsored o' q))) with (ASponsored o' q). cbn [is_sponsored negb auth_set_sponsor bind].
    change (o_with_auth (o_with_auth t (ASponsored o' q)) (ASponsored o' p)) with (o_with_auth t (ASponsored o' p)).
    rewrite V. cbn [bind]. unfold osigner_new. rewrite Hx. reflexivity.
  - apply osucceeds_lift. exact Sup.
  - apply (terms_trans _ (o_with_auth t (ASponsored o' p))).
    + unfold own_same_terms, same_head. cbn [o_with_auth o_ver o_chain o_anchor o_pcmode o_conds o_payload o_auth]. splits; auto using terms_refl.
    + exact (put_terms c pl _ _ (but_sig_sponsor (sg_tx s2) o' p p' eq_refl Tp)).
  - cbn [with_tx lift os_tx put o_auth sg_tx tx_with_auth tx_auth]. apply auth_verify_iff.
    + intros a b' X. inversion X; subst. auto.
    + right. exists o', p', h', h2. auto.
  - exact (Hx p').
Qed.

Lemma own_sponsored_one E t o p l sks h : ecdsa_correct E -> o_auth t = ASponsored o p -> plan E o l -> plan E p (map Sign sks) ->
  o_initial_hash t = Ok h ->
  exists s s', osigner_new t = Ok s /\ osucceeds E s (map step_op l ++ map SignSponsor sks) s'
    /\ own_same_terms t (os_tx s') /\ auth_verify E (o_auth (os_tx s')) h = Ok tt /\ o_initial_hash (os_tx s') = Ok h.
Proof.
  intros C A P Q H. set (c := o_conds t). set (pl := o_payload t).
  set (s := {| sg_tx := shadow t; sg_hash := h; sg_origin_signed := false; sg_oversign := true; sg_overlap := true |}).
  assert (origin_of (sg_tx s) = o) as O by (unfold origin_of; cbn; rewrite A; reflexivity).
  destruct (run_origin E l s C) as (o' & h' & Sa & T & Ty & Su); [rewrite O; exact P | reflexivity|].
  rewrite O in T. cbn [s sg_hash] in Sa.
  cbn [s with_tx sg_tx sg_hash sg_origin_signed] in Su. change (tx_auth (shadow t)) with (o_auth t) in Su. rewrite A in Su. cbn [auth_with_origin] in Su.
  set (s1 := with_tx s (tx_with_auth (shadow t) (ASponsored o' p)) h' false) in *.
  destruct (run_sponsor E sks s1 o' p C Q eq_refl) as (p' & h2 & b & Sp & Tp & Typ & Sup).
  exists (lift c pl s). eexists. splits.
  - now apply own_new.
  - apply osucceeds_lift. eapply succeeds_app; [exact Su | exact Sup].
  - apply (terms_trans _ (o_with_auth t (ASponsored o' p))).
    + unfold own_same_terms, same_head. cbn [o_with_auth o_ver o_chain o_anchor o_pcmode o_conds o_payload o_auth]. rewrite A. splits; auto using terms_refl.
    + exact (put_terms c pl _ _ (but_sig_sponsor (sg_tx s1) o' p p' eq_refl Tp)).
  - cbn [with_tx lift os_tx put o_auth sg_tx tx_with_auth tx_auth]. apply auth_verify_iff.
    + intros a b' X. inversion X; subst. auto.
    + right. exists o', p', h', h2. auto.
  - change (o_initial_hash (o_with_auth t (ASponsored o' p')) = Ok h). rewrite <- H. apply o_hash_auth. rewrite A. apply T.
Qed.

Lemma own_fee t n : let u := o_set_fee t n in
  same_head t u /\ o_conds u = o_conds t /\ o_payload u = o_payload t /\ o_initial_hash u = o_initial_hash t
  /\ own_origin u = set_terms (own_origin t) n (nonce_of (own_origin t))
  /\ forall o p, o_auth t = ASponsored o p -> exists o', o_auth u = ASponsored o' p.
Proof.
  cbn zeta. split; [repeat split|]. split; [reflexivity|]. split; [reflexivity|]. split.
  - apply o_hash_auth. destruct (o_auth t) as [[]|[] ?]; repeat split.
  - unfold own_origin, o_set_fee. cbn [o_with_auth o_auth]. destruct (o_auth t) as [[]|[] ?]; (split; [reflexivity|]); intros o p H; inversion H; eexists; reflexivity.
Qed.
Lemma own_nonce t n : let u := o_set_nonce t n in
  same_head t u /\ o_conds u = o_conds t /\ o_payload u = o_payload t /\ o_initial_hash u = o_initial_hash t
  /\ own_origin u = set_terms (own_origin t) (fee_of (own_origin t)) n
  /\ forall o p, o_auth t = ASponsored o p -> exists o', o_auth u = ASponsored o' p.
Proof.
  cbn zeta. split; [repeat split|]. split; [reflexivity|]. split; [reflexivity|]. split.
  - apply o_hash_auth. destruct (o_auth t) as [[]|[] ?]; repeat split.
  - unfold own_origin, o_set_nonce. cbn [o_with_auth o_auth]. destruct (o_auth t) as [[]|[] ?]; (split; [reflexivity|]); intros o p H; inversion H; eexists; reflexivity.
Qed.

(** ** Moved signatures *)

Lemma own_terms_small t : wf_auth (auth_wire (o_auth t)) -> fee_of (own_origin t) < 2 ^ 64 /\ nonce_of (own_origin t) < 2 ^ 64.
Proof. unfold own_origin. destruct (o_auth t); cbn [auth_wire wf_auth]; intros W; apply wf_terms; tauto. Qed.

Lemma own_tampering E t u cs p ds q h k g g' : ecdsa_correct E -> binds_digest E -> typed (own_origin t) ->
  own_parts t cs p -> own_parts u ds q -> wf_auth (auth_wire (o_auth t)) -> wf_auth (auth_wire (o_auth u)) ->
  o_initial_hash t = Ok h -> o_initial_hash u = Ok k ->
  same_signatures (own_origin t) (own_origin u) -> has_signature (own_origin t) ->
  o_verify_origin E t = Ok g -> o_verify_origin E u = Ok g' ->
  (same_head t u /\ same_kind (o_auth t) (o_auth u) /\ own_origin t = own_origin u /\ count cs = count ds /\ concat cs ++ p = concat ds ++ q)
  \/ collision (own_cleared t cs p) (own_cleared u ds q)
  \/ collision (first_message h x04 (own_origin t)) (first_message k x04 (own_origin u))
  \/ digest_clash (first_digest h x04 (own_origin t)) (first_digest k x04 (own_origin u))
  \/ key_swap E x04 h (own_origin t) k (own_origin u).
Proof.
  intros EC B T M N W V H K S P X Y.
  assert (typed (own_origin u)) as Tu.
  { destruct S as [_ S]. destruct (own_origin t), (own_origin u); cbn in *; try contradiction; congruence. }
  apply (o_verify_iff E t h g H T) in X. apply (o_verify_iff E u k g' K Tu) in Y.
  destruct (moved E x04 h _ g k _ g' EC B T S P X Y) as [D|[D|D]]; [|right; right; right; left; exact D|right; right; right; right; exact D].
  destruct (own_terms_small t W) as [Bf Bn]. destruct (own_terms_small u V) as [Bf' Bn'].
  unfold first_digest, digest in D. destruct (sha_eq _ _ D) as [Z|Z]; [|right; right; left; exact Z].
  apply message_text_inj in Z; auto; [|now rewrite (o_hash_length _ _ H), (o_hash_length _ _ K)]. destruct Z as (-> & _ & F & Nn).
  destruct (own_commits t u cs p ds q k M N W V H K) as [(A & O & L & R)|Z]; [left|right; left; exact Z].
  splits; auto. { destruct (o_auth t), (o_auth u); cbn in O |- *; auto. } apply same_signatures_eq; auto.
Qed.

(** The sponsor's signatures commit to what it saw: bytes, origin and the origin's signatures. *)
Lemma own_sponsor_tampering E t u cs b ds c h k o p o' p' : ecdsa_correct E -> binds_digest E ->
  o_auth t = ASponsored o p -> o_auth u = ASponsored o' p' -> typed o -> typed p -> typed o' ->
  own_parts t cs b -> own_parts u ds c -> wf_auth (auth_wire (o_auth t)) -> wf_auth (auth_wire (o_auth u)) ->
  o_initial_hash t = Ok h -> o_initial_hash u = Ok k ->
  same_signatures p p' -> has_signature p -> length (signatures o) = length (signatures o') ->
  auth_verify E (o_auth t) h = Ok tt -> auth_verify E (o_auth u) k = Ok tt ->
  let h1 := hash_after x04 (fee_of o) (nonce_of o) h (signatures o) in
  let k1 := hash_after x04 (fee_of o') (nonce_of o') k (signatures o') in
  (same_head t u /\ count cs = count ds /\ concat cs ++ b = concat ds ++ c
   /\ p = p' /\ same_identity o o' /\ signatures o = signatures o'
   /\ (signatures o <> [] -> fee_of o = fee_of o' /\ nonce_of o = nonce_of o'))
  \/ collision (own_cleared t cs b) (own_cleared u ds c)
  \/ chain_collision x04 (fee_of o) (nonce_of o) h (signatures o) (fee_of o') (nonce_of o') k (signatures o')
  \/ collision (first_message h1 x05 p) (first_message k1 x05 p')
  \/ digest_clash (first_digest h1 x05 p) (first_digest k1 x05 p')
  \/ key_swap E x05 h1 p k1 p'.
Proof.
  intros EC B At Au To Tp To' M N W V H K S P L X Y h1 k1.
  assert (typed p') as Tp'.
  { destruct S as [_ S]. destruct p, p'; cbn in *; try contradiction; congruence. }
  rewrite At in X. rewrite Au in Y. apply sponsored_verify_iff in X; auto. apply sponsored_verify_iff in Y; auto.
  destruct X as (x1 & x2 & X1 & X2), Y as (y1 & y2 & Y1 & Y2).
  apply satisfied_hash in X1, Y1. fold h1 in X1. fold k1 in Y1. subst x1 y1.
  destruct (moved E x05 h1 p x2 k1 p' y2 EC B Tp S P X2 Y2) as [D|[D|D]]; [|right; right; right; right; left; exact D|right; right; right; right; right; exact D].
  pose proof (o_hash_length _ _ H) as Lh. pose proof (o_hash_length _ _ K) as Lk.
  assert (length h1 = 32%nat) as Lh1 by (apply hash_after_length; exact Lh).
  assert (length k1 = 32%nat) as Lk1 by (apply hash_after_length; exact Lk).
  destruct (own_terms_small t W) as [Bf Bn]. destruct (own_terms_small u V) as [Bf' Bn'].
  unfold own_origin in Bf, Bn, Bf', Bn'. rewrite At in Bf, Bn. rewrite Au in Bf', Bn'.
  assert (fee_of p < 2 ^ 64 /\ nonce_of p < 2 ^ 64) as [Cf Cn] by (rewrite At in W; apply wf_terms; cbn in W; tauto).
  assert (fee_of p' < 2 ^ 64 /\ nonce_of p' < 2 ^ 64) as [Cf' Cn'] by (rewrite Au in V; apply wf_terms; cbn in V; tauto).
  apply sha_eq in D. destruct D as [D|D]; [|right; right; right; left; exact D].
  apply message_text_inj in D; auto; [|congruence]. destruct D as (D & _ & Fe & No).
  destruct (chain_commits x04 _ _ _ _ h k _ _ Lh Lk Bf Bf' Bn Bn' L D) as [(Sg & Hk & Te)|C]; [|right; right; left; exact C].
  subst k. destruct (own_commits t u cs b ds c h M N W V H K) as [(Hd & Or & Co & R)|C]; [|right; left; exact C].
  left. rewrite At, Au in Or. splits; auto. apply same_signatures_eq; auto.
Qed.

(** ** The library's own types *)

Lemma own_of_put t : own_of t = put (map enc_condition (tx_conds t)) (enc_payload (tx_payload t)) t.
Proof. reflexivity. Qed.
Lemma conds_body_own l : enc_oconds_body (map enc_condition l) = enc_conditions_body l.
Proof. induction l as [|c l IH]; [reflexivity|]. cbn [map enc_oconds_body enc_conditions_body]. rewrite IH. reflexivity. Qed.
Lemma enc_own_of t : enc_otx (own_of t) = enc_tx t.
Proof.
  unfold enc_otx, enc_tx, enc_oconds, enc_conditions. cbn [own_of o_auth o_conds o_payload o_ver o_chain o_anchor o_pcmode].
  rewrite conds_body_own. unfold lenN. rewrite map_length. reflexivity.
Qed.
Lemma own_of_auth t a : o_with_auth (own_of t) a = own_of (tx_with_auth t a).
Proof. reflexivity. Qed.
Lemma hash_own_of t : o_initial_hash (own_of t) = initial_hash t.
Proof. unfold o_initial_hash, initial_hash, otx_hash, tx_hash. rewrite own_of_auth, enc_own_of. reflexivity. Qed.
Lemma verify_own_of E t : o_verify_origin E (own_of t) = tx_verify_origin E t.
Proof. unfold o_verify_origin, tx_verify_origin. rewrite hash_own_of. reflexivity. Qed.
Lemma new_own_of t : osigner_new (own_of t) = let* s := signer_new t in Ok (own_signer s).
Proof. unfold osigner_new, signer_new. rewrite hash_own_of. destruct (initial_hash t); reflexivity. Qed.
Lemma new_sponsor_own_of E t p : osigner_new_sponsor E (own_of t) p = let* s := signer_new_sponsor E t p in Ok (own_signer s).
Proof.
  unfold osigner_new_sponsor, signer_new_sponsor. change (o_auth (own_of t)) with (tx_auth t).
  destruct (negb (is_sponsored (tx_auth t))); [reflexivity|]. destruct (auth_set_sponsor (tx_auth t) p) as [a [|e|q|]]; try reflexivity.
  cbn [bind]. rewrite own_of_auth, verify_own_of, new_own_of. destruct (tx_verify_origin _ _); try reflexivity. cbn [bind].
  unfold signer_new. destruct (initial_hash _); reflexivity.
Qed.
Lemma perform_own E s o : operform E (own_signer s) o = let '(s', r) := perform E s o in (own_signer s', r).
Proof.
  change (own_signer s) with (lift (map enc_condition (tx_conds (sg_tx s))) (enc_payload (tx_payload (sg_tx s))) s).
  rewrite operform_lift. assert (S := perform_same E s o). destruct (perform E s o) as [s' r]. cbn [fst] in S.
  destruct S as (_ & _ & _ & _ & Cc & Pp & _). rewrite Cc, Pp. reflexivity.
Qed.
Lemma sign_own_of E t sk : otx_sign E (own_of t) sk = let* u := tx_sign E t sk in Ok (own_of u).
Proof.
  unfold otx_sign, tx_sign. rewrite new_own_of. destruct (signer_new t) as [s|e|q|]; try reflexivity. cbn [bind].
  change (o_sign_origin E (own_signer s) sk) with (operform E (own_signer s) (SignOrigin sk)). rewrite perform_own. cbn [perform].
  destruct (sign_origin E s sk) as [s' [|e|q|]]; reflexivity.
Qed.

Lemma oencode_lib l : oenc_all (map OLib l) = enc_list l.
Proof. induction l as [|v l IH]; [reflexivity|]. cbn [map oenc_all oencode enc_list]. rewrite IH. reflexivity. Qed.
Lemma oencode_lib_entries l : oenc_entries (map (fun kv => (fst kv, OLib (snd kv))) l) = enc_entries l.
Proof. induction l as [|[k v] l IH]; [reflexivity|]. cbn [map fst snd oenc_entries oencode enc_entries]. rewrite IH. reflexivity. Qed.

(** ** Payloads, conditions, builders, requests *)

Lemma otransfer_iff r n m e : enc_otransfer r n m = Ok e <->
  exists b f, own_ser r b /\ memo_field m f /\ e = x00 :: b ++ big_endian 8 n ++ f.
Proof.
  unfold enc_otransfer. change @lenN with @count. split.
  - destruct (34 <? count m) eqn:L; [discriminate|]. apply N.ltb_ge in L. intros H. cbv zeta in H. apply bind_ok in H. destruct H as (b & A & H). okinv H.
    apply oencode_iff in A. exists b, (m ++ repeat x00 (34 - length m)). split; [exact A|]. split; [now apply memo_field_iff|].
    rewrite big_endian_be. reflexivity.
  - intros (b & f & A & M & ->). apply memo_field_iff in M. destruct M as [L ->]. apply N.ltb_ge in L. rewrite L.
    apply oencode_iff in A. rewrite A. cbn [bind]. rewrite big_endian_be. reflexivity.
Qed.
Lemma ocall_iff a c f l e : enc_ocall a c f l = Ok e <->
  count c <= 128 /\ count f <= 128 /\ exists b, own_ser (OFnArgs l) b
    /\ e = x02 :: addr_version a :: addr_hash a ++ ser_name c ++ ser_name f ++ b.
Proof.
  unfold enc_ocall. split.
  - intros H. apply bind_ok in H. destruct H as (x & X & H). apply bind_ok in H. destruct H as (y & Y & H).
    apply bind_ok in H. destruct H as (z & Z & H). okinv H. apply enc_lps_ok in X, Y. destruct X as [X ->], Y as [Y ->].
    apply oencode_iff in Z. splits; auto. exists z. split; [exact Z|]. reflexivity.
  - intros (C & F & b & B & ->). rewrite (enc_lps_short _ C), (enc_lps_short _ F). cbn [bind]. apply oencode_iff in B. rewrite B. reflexivity.
Qed.
Lemma onft_iff a n k i e : enc_ocond_nft a n k i = Ok e <->
  exists v w x b, a = OLib v /\ is_principal w /\ means v w /\ wall fits1 w /\ asset_means i x /\ fits_asset x /\ own_ser n b
    /\ e = x02 :: ser_who w ++ ser_asset x ++ b ++ [cond_code_code k].
Proof.
  unfold enc_ocond_nft. split.
  - intros H. apply bind_ok in H. destruct H as (p & P & H). apply bind_ok in H. destruct H as (q & Q & H).
    apply bind_ok in H. destruct H as (b & B & H). okinv H. destruct a as [v| | | | | | |]; try discriminate. cbn [enc_ocond_addr] in P.
    apply cond_addr_iff in P. destruct P as (w & I & M & F & ->). apply asset_iff in Q. destruct Q as (x & X & Y & ->).
    apply oencode_iff in B. exists v, w, x, b. splits; auto.
  - intros (v & w & x & b & -> & I & M & F & X & Y & B & ->). cbn [enc_ocond_addr].
    rewrite (proj2 (cond_addr_iff v _) (ex_intro _ w (conj I (conj M (conj F eq_refl))))). cbn [bind].
    rewrite (proj2 (asset_iff i _) (ex_intro _ x (conj X (conj Y eq_refl)))). cbn [bind]. apply oencode_iff in B. rewrite B. cbn [bind].
    rewrite code_byte. reflexivity.
Qed.

Lemma obuild_transfer_cases {X} E b : @obuild_transfer X E b =
  if ot_sponsored b then Panic PUnimplemented
  else Ok (own_unsigned (ot_network b) (pubkey_of E (ot_sender b)) (ot_fee b) (ot_nonce b) (ot_anchor b) (ot_pcmode b) (ot_conds b)
             (enc_otransfer (ot_recipient b) (ot_amount b) (ot_memo b))).
Proof. unfold obuild_transfer, own_unsigned. cbn [std_new bind]. destruct (ot_sponsored b); reflexivity. Qed.
Lemma obuild_call_ok E b h v : address_spelling h v (oc_address b) -> length h = 20%nat -> obuild_call E b =
  if oc_sponsored b then Panic PUnimplemented
  else Ok (own_unsigned (oc_network b) (pubkey_of E (oc_sender b)) (oc_fee b) (oc_nonce b) (oc_anchor b) (oc_pcmode b) (oc_conds b)
             (enc_ocall {| addr_hash := h; addr_version := v |} (oc_contract b) (oc_fname b) (oc_args b))).
Proof.
  intros S L. unfold obuild_call. pose proof (address_from_str_cases (oc_address b)) as A.
  apply c32_address_decode_iff in S. rewrite S in A. rewrite L in A. cbn in A. rewrite A. cbn [map_err bind std_new]. unfold own_unsigned.
  destruct (oc_sponsored b); reflexivity.
Qed.
Lemma obuild_call_bad E b e : bad_address (oc_address b) e -> obuild_call E b = Err (ClC32 e).
Proof.
  intros B. apply address_refused in B. unfold obuild_call. pose proof (address_from_str_cases (oc_address b)) as A. rewrite B in A.
  rewrite A. reflexivity.
Qed.

Lemma own_plan n pk E sk fee nonce an mode c p : valid_key sk -> pk = pubkey_of E sk ->
  plan E (own_origin (own_unsigned n pk fee nonce an mode c p)) [Sign sk].
Proof. intros V ->. apply plan_single; [exact V|reflexivity|reflexivity]. Qed.

Lemma obroadcast_iff url t q : o_broadcast_request url t = Ok q <->
  exists e, enc_otx t = Ok e /\ q = post_bytes (url ++ str "/v2/transactions") e.
Proof.
  unfold o_broadcast_request. split.
  - destruct (enc_otx t) as [e| | |]; try discriminate. intros H. okinv H. exists e. auto.
  - intros (e & -> & ->). reflexivity.
Qed.
Lemma oestimate_iff url t q : o_estimate_request url t = Ok q <->
  exists p e, o_payload t = Ok p /\ enc_otx t = Ok e
    /\ q = post_json (url ++ str "/v2/fees/transaction")
             (JObj [(str "transaction_payload", JStr (hex_text p)); (str "estimated_len", number (count e))]).
Proof.
  unfold o_estimate_request. split.
  - destruct (o_payload t) as [p| | |]; try discriminate. destruct (enc_otx t) as [e| | |]; try discriminate. intros H. okinv H.
    exists p, e. rewrite bytes_to_hex_text. auto.
  - intros (p & e & -> & -> & ->). cbn [map_err bind]. rewrite bytes_to_hex_text. reflexivity.
Qed.
Lemma o_hex_iff l : forall hs, o_hex_args l = Ok hs <-> exists bs, Forall2 own_ser l bs /\ hs = map hex_text bs.
Proof.
  induction l as [|v l IH]; intros hs; cbn [o_hex_args]; split.
  - intros H. okinv H. exists []. split; [constructor|reflexivity].
  - intros (bs & F & ->). inversion F. reflexivity.
  - intros H. apply bind_ok in H. destruct H as (e & A & H). apply bind_ok in H. destruct H as (t & B & H). okinv H.
    apply oencode_iff in A. apply IH in B. destruct B as (bs & F & ->). exists (e :: bs). split; [now constructor|].
    cbn [map]. now rewrite bytes_to_hex_text.
  - intros (bs & F & ->). inversion F as [|? b ? bs' A B]; subst. apply oencode_iff in A. rewrite A. cbn [bind].
    rewrite (proj2 (IH _) (ex_intro _ bs' (conj B eq_refl))). cbn [bind map]. now rewrite bytes_to_hex_text.
Qed.
Lemma oread_iff url a n f l sender q : o_read_only_request url a n f l sender = Ok q <->
  exists bs, Forall2 own_ser l bs
    /\ q = post_json (url ++ str "/v2/contracts/call-read/" ++ a ++ str "/" ++ n ++ str "/" ++ f)
             (JObj [(str "sender", JStr sender); (str "arguments", JArr (map (fun b => JStr (hex_text b)) bs))]).
Proof.
  unfold o_read_only_request. split.
  - destruct (o_hex_args l) as [hs| | |] eqn:A; try discriminate. intros H. okinv H. apply o_hex_iff in A. destruct A as (bs & F & ->).
    exists bs. rewrite map_map. auto.
  - intros (bs & F & ->). rewrite (proj2 (o_hex_iff l _) (ex_intro _ bs (conj F eq_refl))). cbn [map_err bind]. rewrite map_map. reflexivity.
Qed.

Lemma hex_own l : o_hex_args (map OLib l) = hex_args l.
Proof.
  induction l as [|v l IH]; [reflexivity|]. cbn [map o_hex_args hex_args oencode]. unfold codec_hex. rewrite IH.
  destruct (encode v); reflexivity.
Qed.
Lemma transfer_own r n m : enc_otransfer (OLib r) n m = enc_payload (PTransfer r n m).
Proof. reflexivity. Qed.
Lemma call_own a c f l : enc_ocall a c f (map OLib l) = enc_payload (PCall a c f l).
Proof.
  cbn [enc_payload]. unfold enc_ocall, enc_call. destruct (enc_lps c); try reflexivity. cbn [bind]. destruct (enc_lps f); try reflexivity. cbn [bind].
  rewrite oencode_args, oencode_lib. unfold lenN, count. rewrite map_length. reflexivity.
Qed.
