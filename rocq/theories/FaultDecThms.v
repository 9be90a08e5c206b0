(** What the decoders refuse is what SpecFault.v calls faulty; what is neither readable nor faulty is too short, and
    then the decoders index past the end. *)

From Coq Require Import Strings.String Lia ZifyBool ZifyNat ZifyN.
From Verif Require Import Base BaseFacts Utf8 Utf8Thms Sha2 SpecText SpecAddr Hash C32 C32Facts AddrFacts Clarity SpecWire
  WireFacts ClarityFacts ClarityTotal ClarityShort TextThms Tx SpecTx TxWire TxFacts TxTotal PayloadFacts SpecFault FaultThms.
Local Open Scope N_scope.

Notation dec := decode_clarity_type.

Lemma from_utf8_no s : ~ utf8 s -> from_utf8 s = Err ClTryFromUtf8.
Proof. intros U. unfold from_utf8. rewrite <- utf8_valid_iff in U. destruct (utf8_valid s); [destruct U; reflexivity|reflexivity]. Qed.
Lemma from_utf8_err s e : from_utf8 s = Err e -> ~ utf8 s /\ e = ClTryFromUtf8.
Proof. unfold from_utf8. rewrite <- utf8_valid_iff. destruct (utf8_valid s); [discriminate|]. intros [= <-]. split; [discriminate|reflexivity]. Qed.
Lemma version_dec v : stacks_version v \/ ~ stacks_version v.
Proof. unfold stacks_version. destruct (in_dec N.eq_dec (Byte.to_N v) [20; 21; 22; 26]); auto. Qed.
Lemma count_name (s : bytes) : count s < 256 -> b2n (n2b (count s)) = lenN s.
Proof. apply n2b_count. Qed.

(** ** Faults are reported *)

Lemma decode_wrap t mk wt r : In (t, mk, wt) [(TRespOk, CRespOk, x07); (TRespErr, CRespErr, x08); (TSome, CSome, x0a)] ->
  dec (wt :: r) = let* v := dec r in Ok (mk v).
Proof.
  intros H. rewrite (decode_wrap_eq t mk wt r H). unfold dec_wrap.
  assert (I : wt = ty_id t) by (cbn in H; repeat destruct H as [[= <- <- <-]|H]; [reflexivity..|destruct H]).
  rewrite I, check_id_ok. cbn [bind]. rewrite drop1. reflexivity.
Qed.
Lemma decode_list_at n r : n < 2 ^ 32 -> dec (x0b :: big_endian 4 n ++ r) = let* vs := items n r in Ok (CList vs).
Proof.
  intros L. rewrite decode_list_eq. unfold dec_list. rewrite (check_id_ok TList). cbn [bind]. rewrite read_len32_ok by assumption.
  cbn [bind]. rewrite drop5. reflexivity.
Qed.
Lemma decode_tuple_at n r : n < 2 ^ 32 -> dec (x0c :: big_endian 4 n ++ r) = let* vs := entries n r in Ok (CTuple vs).
Proof.
  intros L. rewrite decode_tuple_eq. unfold dec_tuple. rewrite (check_id_ok TTuple). cbn [bind]. rewrite read_len32_ok by assumption.
  cbn [bind]. rewrite drop5. reflexivity.
Qed.
Lemma decode_string_at b s t : In b [x0d; x0e] -> count s < 2 ^ 32 -> ~ utf8 s ->
  dec (b :: big_endian 4 (count s) ++ s ++ t) = Err ClTryFromUtf8.
Proof.
  intros I L U. destruct I as [<-|[<-|[]]].
  - change (dec_ascii (x0d :: big_endian 4 (count s) ++ s ++ t) = Err ClTryFromUtf8). unfold dec_ascii. rewrite (check_id_ok TAscii). cbn [bind].
    rewrite read_len32_ok by assumption. cbn [bind]. rewrite drop5. cbn [bind]. rewrite take_slice_app. cbn [bind]. rewrite from_utf8_no by assumption. reflexivity.
  - change (dec_utf8 (x0e :: big_endian 4 (count s) ++ s ++ t) = Err ClTryFromUtf8). unfold dec_utf8.
    rewrite read_len32_ok by assumption. cbn [bind]. rewrite drop5. cbn [bind]. rewrite take_slice_app. cbn [bind]. rewrite from_utf8_no by assumption. reflexivity.
Qed.
Lemma decode_std_at v h t : length h = 20%nat ->
  dec (x05 :: v :: h ++ t) = let* a := map_err ClC32 (c32_address h v) in Ok (CPrinStd a).
Proof.
  intros L. change (dec_prin_std (x05 :: v :: h ++ t) = let* a := map_err ClC32 (c32_address h v) in Ok (CPrinStd a)).
  unfold dec_prin_std. rewrite (check_id_ok TPrinStd). cbn [bind].
  rewrite (proj2 (sub_slice_ok 2 20 _ h)) by (exists [x05; v], t; auto). reflexivity.
Qed.
Lemma decode_con_at v h t : length h = 20%nat ->
  dec (x06 :: v :: h ++ t) = let* a := map_err ClC32 (c32_address h v) in
                             let* n := dec_lps t in match n with CLps n => Ok (CPrinCon a n) | _ => Err ClBadDowncast end.
Proof.
  intros L. transitivity (dec_prin_con (x06 :: v :: h ++ t)); [reflexivity|].
  unfold dec_prin_con. rewrite (check_id_ok TPrinCon). cbn [bind].
  rewrite (proj2 (sub_slice_ok 2 20 _ h)) by (exists [x06; v], t; auto). cbn [bind]. unfold index at 1. cbn [nth_error bind].
  destruct (map_err ClC32 (c32_address h v)); cbn [bind]; [|reflexivity..]. unfold dec_lps.
  assert (I : @index cl_err 22 (x06 :: v :: h ++ t) = index 0 t).
  { unfold index. change (nth_error (x06 :: v :: h ++ t) 22) with (nth_error (h ++ t) 20).
    rewrite nth_error_app2 by lia. rewrite L. reflexivity. }
  rewrite I. destruct t as [|k t]; [reflexivity|]. unfold index. cbn [nth_error bind]. rewrite drop1. cbn [bind].
  rewrite (proj2 (drop_slice_ok 23 _ t)).
  2:{ exists (x06 :: v :: h ++ [k]). split; [cbn [app]; rewrite <- app_assoc; reflexivity|]. cbn [length]. rewrite app_length, L. reflexivity. }
  cbn [bind]. destruct (take_slice (b2n k) t); cbn [bind]; [|reflexivity..]. destruct (from_utf8 a0); reflexivity.
Qed.
Lemma dec_lps_at s t : count s < 256 -> dec_lps (ser_name s ++ t) = let* k := from_utf8 s in Ok (CLps k).
Proof.
  intros L. unfold dec_lps, ser_name. rewrite big_endian_1. cbn [app]. unfold index. cbn [nth_error bind]. rewrite drop1. cbn [bind].
  rewrite count_name by assumption. rewrite take_slice_app. reflexivity.
Qed.

Lemma items_at n w c r : n <> 0 -> decodable w -> canonically_means c w ->
  items n (wser w ++ r) = let* e := encode c in let* vs := items (n - 1) r in Ok (c :: vs).
Proof.
  intros N D M. rewrite items_eq. destruct (N.eqb_spec n 0); [contradiction|]. rewrite (decode_at w c r D M). cbn [bind].
  destruct (encode c) as [e| | |] eqn:E; cbn [bind]; [|reflexivity..].
  destruct (encode_of_means _ _ _ (canonical_means _ _ M) E) as [_ ->]. rewrite drop_slice_app. reflexivity.
Qed.
Lemma entries_at n k r : n <> 0 -> count k < 256 ->
  entries n (ser_name k ++ r) = let* k := from_utf8 k in
       let* v := dec r in
       let* e := encode v in
       let* r2 := drop_slice (length e) r in
       let* vs := entries (n - 1) r2 in
       Ok ((k, v) :: vs).
Proof.
  intros N L. rewrite entries_eq. destruct (N.eqb_spec n 0); [contradiction|]. unfold ser_name. rewrite big_endian_1. cbn [app].
  unfold index. cbn [nth_error bind]. rewrite drop1. cbn [bind]. rewrite count_name by assumption. rewrite take_slice_app. cbn [bind].
  unfold from_utf8. destruct (utf8_valid k); cbn [bind]; [|reflexivity]. rewrite drop_slice_app. reflexivity.
Qed.
Lemma entries_at_value n k w c r : n <> 0 -> count k < 256 -> utf8 k -> decodable w -> canonically_means c w ->
  entries n (ser_name k ++ wser w ++ r) = let* e := encode c in let* vs := entries (n - 1) r in Ok ((k, c) :: vs).
Proof.
  intros N L U D M. rewrite entries_at by assumption. rewrite (from_utf8_yes _ U). cbn [bind]. rewrite (decode_at w c r D M). cbn [bind].
  destruct (encode c) as [e| | |] eqn:E; cbn [bind]; [|reflexivity..].
  destruct (encode_of_means _ _ _ (canonical_means _ _ M) E) as [_ ->]. rewrite drop_slice_app. reflexivity.
Qed.

Lemma element_value w : element w -> exists c, canonically_means c w /\ encode c = Ok (wser w).
Proof.
  intros [D F]. destruct (canonical_exists w (decodable_ver w D)) as [c M]. exists c. split; [exact M|].
  apply encode_complete; [apply canonical_means, M|exact F].
Qed.

Scheme faulty_mut := Minimality for faulty Sort Prop
  with faulty_items_mut := Minimality for faulty_items Sort Prop
  with faulty_entries_mut := Minimality for faulty_entries Sort Prop.
Combined Scheme faulty_all from faulty_mut, faulty_items_mut, faulty_entries_mut.

Lemma faulty_err_all :
  (forall b e, faulty b e -> dec b = Err e) /\ (forall n b e, faulty_items n b e -> items n b = Err e)
  /\ (forall n b e, faulty_entries n b e -> entries n b = Err e).
Proof.
  apply faulty_all.
  - intros b r H. apply decode_unknown, H.
  - intros v h t L V. rewrite decode_std_at by assumption. rewrite c32_address_unknown by assumption. reflexivity.
  - intros v h t L V. rewrite decode_con_at by assumption. rewrite c32_address_unknown by assumption. reflexivity.
  - intros v h n t L V C U. rewrite decode_con_at by assumption. destruct (c32_address_ok h v V) as (s & -> & _). cbn [map_err bind].
    rewrite dec_lps_at by assumption. rewrite from_utf8_no by assumption. reflexivity.
  - intros r e _ H. rewrite (decode_wrap TRespOk CRespOk) by (cbn; auto). rewrite H. reflexivity.
  - intros r e _ H. rewrite (decode_wrap TRespErr CRespErr) by (cbn; auto). rewrite H. reflexivity.
  - intros r e _ H. rewrite (decode_wrap TSome CSome) by (cbn; auto). rewrite H. reflexivity.
  - intros n r e L _ H. rewrite decode_list_at by assumption. rewrite H. reflexivity.
  - intros n r e L _ H. rewrite decode_tuple_at by assumption. rewrite H. reflexivity.
  - intros s t L U. apply decode_string_at; cbn; auto.
  - intros s t L U. apply decode_string_at; cbn; auto.
  - intros n r e N _ H. rewrite items_eq. destruct (N.eqb_spec n 0); [lia|]. rewrite H. reflexivity.
  - intros n w c r e N D M X. rewrite (items_at n w c) by (assumption || lia). rewrite (misfit_err _ _ X). reflexivity.
  - intros n w r e W _ H. destruct (element_value w W) as (c & M & E). rewrite (items_at (n + 1) w c) by (assumption || lia || apply W).
    rewrite E. cbn [bind]. replace (n + 1 - 1) with n by lia. rewrite H. reflexivity.
  - intros n k r N L U. rewrite entries_at by (assumption || lia). rewrite from_utf8_no by assumption. reflexivity.
  - intros n k r e N L U _ H. rewrite entries_at by (assumption || lia). rewrite (from_utf8_yes _ U). cbn [bind]. rewrite H. reflexivity.
  - intros n k w c r e N L U D M X. rewrite (entries_at_value n k w c) by (assumption || lia). rewrite (misfit_err _ _ X). reflexivity.
  - intros n k w r e L U W _ H. destruct (element_value w W) as (c & M & E).
    rewrite (entries_at_value (n + 1) k w c) by (assumption || lia || apply W).
    rewrite E. cbn [bind]. replace (n + 1 - 1) with n by lia. rewrite H. reflexivity.
Qed.

(** ** What is refused is faulty *)

Lemma index_err {E} i bs (e : E) : index i bs <> Err e.
Proof. unfold index. destruct (nth_error bs i); discriminate. Qed.
Lemma drop_err {E} i bs (e : E) : drop_slice i bs <> Err e.
Proof. unfold drop_slice. destruct (Nat.leb i (length bs)); discriminate. Qed.
Lemma sub_err {E} i n bs (e : E) : sub_slice i n bs <> Err e.
Proof. unfold sub_slice. destruct (Nat.leb (i + n) (length bs)); discriminate. Qed.
Lemma take_err {E} i bs (e : E) : take_slice i bs <> Err e.
Proof. rewrite take_slice_spec. destruct (i <=? lenN bs); discriminate. Qed.
Lemma read_len32_err s e : read_len32 s <> Err e.
Proof. unfold read_len32. intros H. repeat (berr H; [apply index_err in H; exact H|]). discriminate H. Qed.
Lemma check_id_err t b r e : check_id t (b :: r) = Err e -> b <> ty_id t /\ e = ClBadIdentifier (ty_id t) b.
Proof.
  unfold check_id, index. cbn [nth_error bind]. destruct (byte_eqb_spec b (ty_id t)); [discriminate|]. intros [= <-]. auto.
Qed.

(** Steps that cannot fail with an error. *)
Ltac noerr H := first [ apply index_err in H; destruct H | apply drop_err in H; destruct H | apply sub_err in H; destruct H
                      | apply take_err in H; destruct H | apply read_len32_err in H; destruct H ].
Ltac next H := berr H; [noerr H|].

Lemma name_split (k : byte) (r a : bytes) : @take_slice cl_err (b2n k) r = Ok a ->
  exists t, k :: r = ser_name a ++ t /\ r = a ++ t /\ count a < 256.
Proof.
  intros T. apply take_slice_ok in T. destruct T as (t & -> & L). exists t. splits; [|reflexivity|].
  - unfold ser_name. rewrite big_endian_1. cbn [app]. change (count a) with (lenN a). rewrite L, n2b_b2n. reflexivity.
  - change (count a) with (lenN a). rewrite L. apply b2n_lt.
Qed.

Lemma dec_lps_err b e : dec_lps b = Err e ->
  exists k t, b = ser_name k ++ t /\ count k < 256 /\ ~ utf8 k /\ e = ClTryFromUtf8.
Proof.
  unfold dec_lps. intros H. next H. destruct b as [|k r]; [discriminate A|]. unfold index in A. cbn in A. okinv A.
  next H. rewrite drop1 in A. okinv A. next H. apply name_split in A. destruct A as (t & -> & _ & L).
  berr H; [|discriminate]. apply from_utf8_err in H. destruct H as [U ->]. exists a1, t. auto.
Qed.

Lemma items_err m : (forall b e, (length b < m)%nat -> dec b = Err e -> faulty b e) ->
  forall len b n e, length b = len -> (length b < m)%nat -> items n b = Err e -> faulty_items n b e.
Proof.
  intros IH len. induction len as [len IHl] using lt_wf_ind. intros b n e L Lm H.
  rewrite items_eq in H. destruct (N.eqb_spec n 0) as [|N]; [discriminate|]. berr H; [apply Fi_read; [lia|apply IH; assumption]|].
  pose proof A as R. apply decode_iff in R. berr H.
  - destruct R as (w & t & -> & D & M). eapply Fi_write; eauto; [lia|apply err_misfit, H].
  - next H. berr H; [|discriminate]. pose proof (reads_enc_len _ _ _ R A0). destruct (drop_len _ _ _ A1).
    destruct (items_step _ _ _ _ R A0 A1) as (w & -> & D & F & M).
    replace n with (n - 1 + 1) by lia. apply Fi_next; [split; assumption|]. eapply IHl; [|reflexivity| |eassumption]; lia.
Qed.

Lemma entries_err m : (forall b e, (length b < m)%nat -> dec b = Err e -> faulty b e) ->
  forall len b n e, length b = len -> (length b < m)%nat -> entries n b = Err e -> faulty_entries n b e.
Proof.
  intros IH len. induction len as [len IHl] using lt_wf_ind. intros b n e L Lm H.
  rewrite entries_eq in H. destruct (N.eqb_spec n 0) as [|N]; [discriminate|]. next H.
  destruct b as [|k r]; [discriminate A|]. unfold index in A. cbn in A. okinv A.
  next H. rewrite drop1 in A. okinv A. next H. apply name_split in A. destruct A as (t & Ek & -> & C). rewrite Ek in *. clear Ek.
  berr H; [apply from_utf8_err in H; destruct H as [U ->]; apply Fe_key; auto; lia|].
  apply from_utf8_ok in A. destruct A as [-> U]. rewrite drop_slice_app in H. cbn [bind] in H.
  assert (Ln : length (ser_name a1 ++ t) = (1 + (length a1 + length t))%nat) by (unfold ser_name; rewrite !app_length, big_endian_length; reflexivity).
  rewrite Ln in Lm, IHl.
  berr H; [apply Fe_read; auto; [lia|apply IH; [lia|assumption]]|].
  pose proof A as R. apply decode_iff in R. berr H.
  - destruct R as (w & t' & -> & D & M). eapply Fe_write; eauto; [lia|apply err_misfit, H].
  - next H. berr H; [|discriminate]. pose proof (reads_enc_len _ _ _ R A0). destruct (drop_len _ _ _ A1).
    destruct (items_step _ _ _ _ R A0 A1) as (w & -> & D & F & M).
    replace n with (n - 1 + 1) by lia. apply Fe_next; auto; [split; assumption|]. eapply IHl; [|reflexivity| |eassumption]; lia.
Qed.

Lemma wrap_err m t mk wt r e (Hm : forall b e, (length b < m)%nat -> dec b = Err e -> faulty b e) :
  In (t, mk, wt) [(TRespOk, CRespOk, x07); (TRespErr, CRespErr, x08); (TSome, CSome, x0a)] ->
  (length r < m)%nat -> dec (wt :: r) = Err e -> faulty r e.
Proof. intros I L H. rewrite (decode_wrap t mk wt r I) in H. berr H; [|discriminate]. apply Hm; assumption. Qed.

Lemma string_err b r e : dec (b :: r) = Err e -> In b [x0d; x0e] ->
  exists s t, r = big_endian 4 (count s) ++ s ++ t /\ count s < 2 ^ 32 /\ ~ utf8 s /\ e = ClTryFromUtf8.
Proof.
  intros H I. destruct I as [<-|[<-|[]]].
  - change (dec_ascii (x0d :: r) = Err e) in H. unfold dec_ascii in H. rewrite (check_id_ok TAscii) in H. cbn [bind] in H.
    next H. next H. next H. destruct (counted_inv _ _ _ _ A A0 A1) as (x & t & E & B). apply cons_both in E. destruct E as [_ ->].
    berr H; [|discriminate]. apply from_utf8_err in H. destruct H as [U ->]. exists a1, t. auto.
  - change (dec_utf8 (x0e :: r) = Err e) in H. unfold dec_utf8 in H.
    next H. next H. next H. destruct (counted_inv _ _ _ _ A A0 A1) as (x & t & E & B). apply cons_both in E. destruct E as [_ ->].
    berr H; [|discriminate]. apply from_utf8_err in H. destruct H as [U ->]. exists a1, t. auto.
Qed.

Lemma prin_shape b r : (In b [x05; x06]) ->
  (exists v h t, r = v :: h ++ t /\ length h = 20%nat) \/ dec (b :: r) = Panic PIndex.
Proof.
  intros I. destruct (Nat.leb_spec 21 (length r)) as [L|L].
  - left. destruct r as [|v r]; [cbn in L; lia|]. cbn [length] in L. exists v, (firstn 20 r), (skipn 20 r).
    rewrite firstn_skipn, firstn_length. split; [reflexivity|lia].
  - right. assert (S : @sub_slice cl_err 2 20 (b :: r) = Panic PIndex).
    { unfold sub_slice. destruct (Nat.leb_spec (2 + 20) (length (b :: r))) as [X|X]; [cbn [length] in X; lia|reflexivity]. }
    destruct I as [<-|[<-|[]]].
    + change (dec_prin_std (x05 :: r) = Panic PIndex). unfold dec_prin_std. rewrite (check_id_ok TPrinStd). cbn [bind].
      rewrite S. reflexivity.
    + change (dec_prin_con (x06 :: r) = Panic PIndex). unfold dec_prin_con. rewrite (check_id_ok TPrinCon). cbn [bind].
      rewrite S. reflexivity.
Qed.

Lemma err_faulty m : forall b e, (length b < m)%nat -> dec b = Err e -> faulty b e.
Proof.
  induction m as [|m IH]; intros b e L H; [lia|]. destruct b as [|b r]; [discriminate|]. cbn [length] in L.
  destruct (tag_cases b) as [b B | b B U]; [|rewrite decode_unknown in H by assumption; injection H as <-; apply Fy_tag, B].
  known_tags B.
  - change (dec_int (x00 :: r) = Err e) in H. unfold dec_int in H. rewrite (check_id_ok TInt) in H. cbn [bind] in H. next H. discriminate.
  - change (dec_uint (x01 :: r) = Err e) in H. unfold dec_uint in H. rewrite (check_id_ok TUInt) in H. cbn [bind] in H. next H. discriminate.
  - change (dec_buffer (x02 :: r) = Err e) in H. unfold dec_buffer in H. rewrite (check_id_ok TBuffer) in H. cbn [bind] in H. next H. next H. next H. discriminate.
  - discriminate H.
  - discriminate H.
  - destruct (prin_shape x05 r) as [(v & h & t & -> & Lh)|P]; [cbn; auto| |congruence]. rewrite decode_std_at in H by assumption.
    destruct (version_dec v) as [V|V]; [destruct (c32_address_ok h v V) as (s & S & _); rewrite S in H; discriminate H|].
    rewrite c32_address_unknown in H by assumption. injection H as <-. apply Fy_std; assumption.
  - destruct (prin_shape x06 r) as [(v & h & t & -> & Lh)|P]; [cbn; auto| |congruence]. rewrite decode_con_at in H by assumption.
    destruct (version_dec v) as [V|V].
    + destruct (c32_address_ok h v V) as (s & S & _). rewrite S in H. cbn [map_err bind] in H. berr H.
      * apply dec_lps_err in H. destruct H as (k & t' & -> & C & U & ->). apply Fy_con_name; assumption.
      * apply dec_lps_exact in A. destruct A as (k & t' & -> & _). discriminate H.
    + rewrite c32_address_unknown in H by assumption. injection H as <-. apply Fy_con; assumption.
  - apply Fy_ok. eapply wrap_err; [exact IH|left; reflexivity|lia|exact H].
  - apply Fy_err. eapply wrap_err; [exact IH|right; left; reflexivity|lia|exact H].
  - discriminate H.
  - apply Fy_some. eapply wrap_err; [exact IH|right; right; left; reflexivity|lia|exact H].
  - rewrite decode_list_eq in H. unfold dec_list in H. rewrite (check_id_ok TList) in H. cbn [bind] in H. next H.
    apply read_len32_inv in A. destruct A as (x & t & E & C). apply cons_both in E. destruct E as [_ ->]. rewrite drop5 in H. cbn [bind] in H.
    berr H; [|discriminate]. rewrite app_length, big_endian_length in L. apply Fy_list; [exact C|].
    eapply (items_err m IH (length t)); lia || auto.
  - rewrite decode_tuple_eq in H. unfold dec_tuple in H. rewrite (check_id_ok TTuple) in H. cbn [bind] in H. next H.
    apply read_len32_inv in A. destruct A as (x & t & E & C). apply cons_both in E. destruct E as [_ ->]. rewrite drop5 in H. cbn [bind] in H.
    berr H; [|discriminate]. rewrite app_length, big_endian_length in L. apply Fy_tuple; [exact C|].
    eapply (entries_err m IH (length t)); lia || auto.
  - apply string_err in H; [|cbn; auto]. destruct H as (s & t & -> & C & U & ->). apply Fy_ascii; assumption.
  - apply string_err in H; [|cbn; auto]. destruct H as (s & t & -> & C & U & ->). apply Fy_utf8; assumption.
Qed.

Lemma decode_refused b e : dec b = Err e <-> faulty b e.
Proof. split; [apply (err_faulty (S (length b))); lia|apply faulty_err_all]. Qed.
Lemma items_refused n b e : items n b = Err e <-> faulty_items n b e.
Proof.
  split; [|apply faulty_err_all]. apply (items_err (S (length b))) with (len := length b); auto. intros b' e' _. apply decode_refused.
Qed.
Lemma entries_refused n b e : entries n b = Err e <-> faulty_entries n b e.
Proof.
  split; [|apply faulty_err_all]. apply (entries_err (S (length b))) with (len := length b); auto. intros b' e' _. apply decode_refused.
Qed.

(** ** Payloads *)

Lemma name_cases r :
  (exists k t, r = ser_name k ++ t /\ good_name k) \/ (exists e, faulty_name r e)
  \/ (dec_lps r = Panic PIndex
      /\ exists t, (exists k t', r ++ t = ser_name k ++ t' /\ good_name k) \/ exists e, faulty_name (r ++ t) e).
Proof.
  assert (X : forall k t, count k < 256 ->
    (exists k' t', ser_name k ++ t = ser_name k' ++ t' /\ good_name k') \/ exists e, faulty_name (ser_name k ++ t) e).
  { intros k t L. destruct (utf8_valid k) eqn:U; [|right; eexists; apply Fn_text; [exact L|rewrite <- utf8_valid_iff; congruence]].
    apply utf8_valid_iff in U. destruct (N.le_gt_cases (count k) 128) as [C|C]; [left; exists k, t; split; [reflexivity|split; assumption]|].
    right. eexists. apply Fn_long; [exact L|exact U|]. split; [exact C|reflexivity]. }
  destruct r as [|k r].
  - right. right. split; [reflexivity|]. exists [x00]. left. exists [], []. splits; [reflexivity|]. split; [apply utf8_valid_iff; reflexivity|vm_compute; discriminate].
  - destruct (N.le_gt_cases (b2n k) (lenN r)) as [L|L].
    + destruct (@take_slice cl_err (b2n k) r) as [a| | |] eqn:T; try (rewrite take_slice_spec in T; destruct (N.leb_spec (b2n k) (lenN r)); [discriminate|lia]).
      apply name_split in T. destruct T as (t & -> & _ & C). destruct (X a t C) as [Y|Y]; auto.
    + right. right. split.
      { unfold dec_lps, index. cbn [nth_error bind]. rewrite drop1. cbn [bind]. rewrite take_slice_spec.
        destruct (N.leb_spec (b2n k) (lenN r)); [lia|reflexivity]. }
      exists (repeat x00 (N.to_nat (b2n k) - length r)). set (z := repeat _ _).
      assert (E : (k :: r) ++ z = ser_name (r ++ z) ++ []).
      { unfold ser_name. rewrite big_endian_1, app_nil_r. cbn [app]. f_equal. unfold count. rewrite app_length. unfold z. rewrite repeat_length.
        unfold lenN in L. replace (length r + (N.to_nat (b2n k) - length r))%nat with (N.to_nat (b2n k)) by lia. rewrite N2Nat.id, n2b_b2n. reflexivity. }
      rewrite E. apply X. unfold count. rewrite app_length. unfold z. rewrite repeat_length. unfold lenN in L. pose proof (b2n_lt k). lia.
Qed.

(** A name and what follows it. *)
Definition name_stage {B} (r : bytes) (f : cval -> bytes -> res cl_err B) : res cl_err B :=
  let* cv := dec_lps r in let* ce := encode cv in let* r1 := drop_slice (length ce) r in f cv r1.

Lemma stage_good {B} k t (f : cval -> bytes -> res cl_err B) : good_name k -> name_stage (ser_name k ++ t) f = f (CLps k) t.
Proof.
  intros [U L]. unfold name_stage. rewrite dec_lps_at by lia. rewrite (from_utf8_yes _ U). cbn [bind encode].
  rewrite (enc_lps_short _ L). cbn [bind]. rewrite drop_slice_app. reflexivity.
Qed.
Lemma stage_faulty {B} r e (f : cval -> bytes -> res cl_err B) : faulty_name r e -> name_stage r f = Err e.
Proof.
  intros [k t C U|k t g C U T]; unfold name_stage; rewrite dec_lps_at by assumption.
  - rewrite from_utf8_no by assumption. reflexivity.
  - rewrite (from_utf8_yes _ U). cbn [bind encode]. rewrite (enc_lps_long _ _ T). reflexivity.
Qed.
Lemma stage_short {B} r (f : cval -> bytes -> res cl_err B) : dec_lps r = Panic PIndex -> name_stage r f = Panic PIndex.
Proof. intros H. unfold name_stage. rewrite H. reflexivity. Qed.

Definition call_args v h cv nv (r : bytes) : res cl_err payload :=
  let* av := dec_fnargs dec r in
  match cv, nv, av with
  | CLps c, CLps n, CFnArgs args => Ok (PCall {| addr_hash := h; addr_version := v |} c n args)
  | _, _, _ => Err ClBadDowncast
  end.
Lemma call_at v h r : length h = 20%nat ->
  dec_payload (x02 :: v :: h ++ r) = name_stage r (fun cv r1 => name_stage r1 (fun nv r2 => call_args v h cv nv r2)).
Proof.
  intros L. change (dec_call (x02 :: v :: h ++ r) = name_stage r (fun cv r1 => name_stage r1 (fun nv r2 => call_args v h cv nv r2))).
  unfold dec_call, index. cbn [nth_error bind byte_eqb negb].
  change (negb (byte_eqb x02 x02)) with false. cbn iota. 
  rewrite (proj2 (sub_slice_ok 2 20 _ h)) by (exists [x02; v], r; auto). cbn [bind]. unfold hash160_new. rewrite L. cbn [Nat.eqb bind].
  rewrite (proj2 (drop_slice_ok 22 _ r)); [reflexivity|]. exists (x02 :: v :: h). split; [reflexivity|]. cbn [length]. lia.
Qed.
Lemma args_at v h c f n r : n < 2 ^ 32 -> call_args v h (CLps c) (CLps f) (big_endian 4 n ++ r)
  = let* vs := items n r in Ok (PCall {| addr_hash := h; addr_version := v |} c f vs).
Proof.
  intros L. unfold call_args, dec_fnargs.
  rewrite (proj2 (sub_slice_ok 0 4 _ (big_endian 4 n))) by (exists [], r; auto using big_endian_length). cbn [bind].
  rewrite (proj2 (drop_slice_ok 4 _ r)) by (exists (big_endian 4 n); auto using big_endian_length). cbn [bind].
  rewrite big_endian_be. rewrite (be_val_be_bytes_small 4 n L). unfold items.
  destruct (dec_items dec (S (length r)) n r); reflexivity.
Qed.
Lemma args_short v h c f (r : bytes) : (length r < 4)%nat -> call_args v h c f r = Panic PIndex.
Proof.
  intros L. unfold call_args, dec_fnargs, sub_slice. destruct (Nat.leb_spec (0 + 4) (length r)); [lia|reflexivity].
Qed.
Lemma count_split (r : bytes) : (4 <= length r)%nat -> exists n t, r = big_endian 4 n ++ t /\ n < 2 ^ 32.
Proof.
  intros L. destruct r as [|a [|b [|c [|d t]]]]; try (cbn in L; lia). exists (be_val [a; b; c; d]), t. rewrite big_endian_be.
  split; [|apply (be_val_bound [a; b; c; d])]. rewrite (be_bytes_be_val [a; b; c; d] : be_bytes 4 _ = _). reflexivity.
Qed.

Lemma transfer_eq r : dec_payload (x00 :: r) = let* a := dec r in let* e := encode a in
  let* am := sub_slice (S (length e)) 8 (x00 :: r) in
  let* mb := sub_slice (S (length e) + 8) 34 (x00 :: r) in
  let* memo := from_utf8 mb in Ok (PTransfer a (be_val am) memo).
Proof. reflexivity. Qed.

Lemma transfer_at w c r : decodable w -> canonically_means c w -> dec_payload (x00 :: wser w ++ r) =
  let* e := encode c in
  let* am := sub_slice 0 8 r in let* mb := sub_slice 8 34 r in let* memo := from_utf8 mb in Ok (PTransfer c (be_val am) memo).
Proof.
  intros D M. rewrite transfer_eq, (decode_at w c r D M). cbn [bind]. destruct (encode c) as [e| | |] eqn:E; cbn [bind]; [|reflexivity..].
  destruct (encode_of_means _ _ _ (canonical_means _ _ M) E) as [_ ->].
  assert (X : forall i n, @sub_slice cl_err (S (length (wser w)) + i) n (x00 :: wser w ++ r) = sub_slice i n r).
  { intros i n. unfold sub_slice. change (x00 :: wser w ++ r) with ((x00 :: wser w) ++ r). rewrite app_length.
    change (S (length (wser w))) with (length (x00 :: wser w)). set (p := x00 :: wser w).
    replace (Nat.leb (length p + i + n) (length p + length r)) with (Nat.leb (i + n) (length r)).
    2:{ destruct (Nat.leb_spec (i + n) (length r)); destruct (Nat.leb_spec (length p + i + n) (length p + length r)); lia || reflexivity. }
    destruct (Nat.leb (i + n) (length r)); [|reflexivity]. f_equal. f_equal.
    rewrite skipn_app. rewrite skipn_all2 by lia. cbn [app]. f_equal. lia. }
  rewrite <- (Nat.add_0_r (S (length (wser w)))) at 1. rewrite (X 0%nat 8%nat), (X 8%nat 34%nat). reflexivity.
Qed.

Lemma field_split {E} (r : bytes) : (42 <= length r)%nat -> exists a m t, r = a ++ m ++ t /\ length a = 8%nat /\ length m = 34%nat
  /\ @sub_slice E 0 8 r = Ok a /\ @sub_slice E 8 34 r = Ok m.
Proof.
  intros L. exists (firstn 8 r), (firstn 34 (skipn 8 r)), (skipn 34 (skipn 8 r)).
  rewrite !firstn_skipn. rewrite !firstn_length, skipn_length. splits; try reflexivity; try lia.
  - unfold sub_slice. destruct (Nat.leb_spec (0 + 8) (length r)); [reflexivity|lia].
  - unfold sub_slice. destruct (Nat.leb_spec (8 + 34) (length r)); [reflexivity|lia].
Qed.
Lemma field_short {E A} (r : bytes) (k : bytes -> bytes -> res E A) : (length r < 42)%nat ->
  (let* am := sub_slice 0 8 r in let* mb := sub_slice 8 34 r in k am mb) = Panic PIndex.
Proof.
  intros L. unfold sub_slice. destruct (Nat.leb_spec (0 + 8) (length r)); [|reflexivity]. cbn [bind].
  destruct (Nat.leb_spec (8 + 34) (length r)); [lia|reflexivity].
Qed.

Lemma faulty_payload_err b e : faulty_payload b e -> dec_payload b = Err e.
Proof.
  intros [b0 r N0 N2|r f H|w c r f D M X|w a m t W La Lm U|v h r f L X|v h c r f L C X|v h c g n r f L C G N X].
  - apply dec_payload_dispatch; assumption.
  - apply decode_refused in H. rewrite transfer_eq, H. reflexivity.
  - rewrite (transfer_at w c) by assumption. rewrite (misfit_err _ _ X). reflexivity.
  - destruct (element_value w W) as (c & M & E). rewrite (transfer_at w c) by (assumption || apply W). rewrite E. cbn [bind].
    rewrite (sub_at [] a (m ++ t) 0 8 eq_refl La). cbn [bind]. rewrite (sub_at a m t 8 34 La Lm). cbn [bind].
    rewrite from_utf8_no by assumption. reflexivity.
  - rewrite call_at by assumption. apply stage_faulty, X.
  - rewrite call_at by assumption. rewrite stage_good by assumption. apply stage_faulty, X.
  - rewrite call_at by assumption. rewrite !stage_good by assumption. rewrite args_at by assumption. apply items_refused in X. rewrite X. reflexivity.
Qed.

(** Every byte string is read, refused or too short. *)
Lemma payload_cases b :
  (exists p, dec_payload b = Ok p) \/ (exists e, faulty_payload b e) \/ (exists p, dec_payload b = Panic p).
Proof.
  destruct b as [|b r]; [right; right; eexists; reflexivity|].
  destruct (byte_eqb_spec b x00) as [->|N0].
  - destruct (dec r) as [c|e|p|] eqn:Dr.
    + apply decode_iff in Dr. destruct Dr as (w & t & -> & D & M). pose proof (transfer_at w c t D M) as E.
      destruct (encode c) as [x|f|p|] eqn:Ec.
      * cbn [bind] in E. destruct (Nat.leb_spec 42 (length t)) as [L|L]; [|rewrite field_short in E by lia; eauto].
        destruct (@field_split cl_err t L) as (a & m & t' & -> & La & Lm & Sa & Sm). rewrite Sa, Sm in E. cbn [bind] in E.
        destruct (utf8_valid m) eqn:U.
        -- apply utf8_valid_iff in U. rewrite (from_utf8_yes _ U) in E. cbn [bind] in E. left. eauto.
        -- right. left. eexists. apply Fp_memo; auto; [|rewrite <- utf8_valid_iff; congruence]. split; [exact D|].
           eapply encode_of_means; [apply canonical_means, M|eassumption].
      * right. left. eexists. eapply Fp_to_again; eauto. apply err_misfit, Ec.
      * destruct (encode_settled c) as [[? X]|[? X]]; congruence.
      * destruct (encode_settled c) as [[? X]|[? X]]; congruence.
    + right. left. eexists. apply Fp_to. apply decode_refused, Dr.
    + right. right. exists p. rewrite transfer_eq, Dr. reflexivity.
    + destruct (decode_nofuel r Dr).
  - destruct (byte_eqb_spec b x02) as [->|N2]; [|right; left; eexists; apply Fp_tag; assumption].
    destruct (Nat.leb_spec 21 (length r)) as [L|L].
    + destruct r as [|v r]; [cbn in L; lia|]. cbn [length] in L. rewrite <- (firstn_skipn 20 r).
      set (h := firstn 20 r). set (s := skipn 20 r). assert (Lh : length h = 20%nat) by (unfold h; rewrite firstn_length; lia). clearbody h s.
      rewrite (call_at v h s Lh). destruct (name_cases s) as [(c & t & -> & C)|[[e X]|[X _]]].
      * rewrite stage_good by assumption. destruct (name_cases t) as [(f & u & -> & F)|[[e X]|[X _]]].
        -- rewrite stage_good by assumption. destruct (Nat.leb_spec 4 (length u)) as [Lu|Lu]; [|right; right; rewrite args_short by lia; eauto].
           destruct (count_split u Lu) as (n & z & -> & N). rewrite args_at by assumption. destruct (items n z) as [vs|e|p|] eqn:I.
           ++ left. cbn [bind]. eauto.
           ++ right. left. exists e. apply Fp_args; auto. apply items_refused, I.
           ++ right. right. cbn [bind]. eauto.
           ++ exfalso. revert I. apply dec_items_nofuel; [exact (fun b c => proj1 (decode_iff b c))|intros b _; apply decode_nofuel|lia].
        -- right. left. exists e. apply Fp_function; assumption.
        -- right. right. rewrite stage_short by assumption. eauto.
      * right. left. exists e. apply Fp_contract; assumption.
      * right. right. rewrite stage_short by assumption. eauto.
    + right. right. change (dec_payload (x02 :: r)) with (dec_call (x02 :: r)). unfold dec_call.
      change (@index cl_err 0 (x02 :: r)) with (@Ok cl_err byte x02). cbn [bind]. change (negb (byte_eqb x02 x02)) with false. cbn iota.
      destruct (@index cl_err 1 (x02 :: r)) as [v|e|p|] eqn:I; cbn [bind]; [|destruct (index_err _ _ _ I)|eauto|destruct (index_nofuel _ _ I)].
      unfold sub_slice. destruct (Nat.leb_spec (2 + 20) (length (x02 :: r))) as [Y|Y]; [cbn [length] in Y; lia|]. cbn [bind]. eauto.
Qed.

Lemma payload_dec_refused b e : dec_payload b = Err e <-> faulty_payload b e.
Proof.
  split; [|apply faulty_payload_err]. intros H. destruct (payload_cases b) as [[p X]|[[f X]|[p X]]]; [congruence| |congruence].
  pose proof (faulty_payload_err _ _ X). replace e with f by congruence. exact X.
Qed.
Lemma payload_dec_nofuel b : dec_payload b <> NoFuel.
Proof. intros H. destruct (payload_cases b) as [[p X]|[[f X]|[p X]]]; [congruence| |congruence]. apply faulty_payload_err in X. congruence. Qed.

(** ** One decoder per type *)

Lemma typed_refused t tag b r e : In (t, tag) tagged -> decode_as t (b :: r) = Err e <->
  (b <> tag /\ e = ClBadIdentifier tag b) \/ (b = tag /\ faulty (b :: r) e).
Proof.
  intros I.
  assert (T : tag = ty_id t) by (unfold tagged in I; cbn [In] in I; repeat destruct I as [[= <- <-]|I]; [reflexivity..|destruct I]).
  subst tag. apply (in_map fst) in I. cbn [fst map tagged] in I.
  destruct (byte_eqb_spec b (ty_id t)) as [->|N].
  - rewrite decode_as_eq by (cbn in I |- *; tauto). rewrite decode_refused. tauto.
  - assert (X : decode_as t (b :: r) = Err (ClBadIdentifier (ty_id t) b)).
    { assert (C : check_id t (b :: r) = Err (ClBadIdentifier (ty_id t) b)).
      { unfold check_id, index. cbn [nth_error bind]. destruct (byte_eqb_spec b (ty_id t)); [contradiction|reflexivity]. }
      cbn [In] in I. repeat destruct I as [<-|I]; [..|destruct I]; cbn [decode_as];
        unfold dec_int, dec_uint, dec_buffer, dec_true, dec_false, dec_prin_std, dec_prin_con, dec_wrap, dec_none, dec_list, dec_tuple, dec_ascii;
        rewrite C; reflexivity. }
    rewrite X. split; [intros [= <-]; auto|]. intros [[_ ->]|[E _]]; [reflexivity|contradiction].
Qed.

Lemma utf8_refused b r e : decode_as TUtf8 (b :: r) = Err e <-> faulty (x0e :: r) e.
Proof.
  rewrite <- decode_refused. change (dec (x0e :: r)) with (dec_utf8 (x0e :: r)). cbn [decode_as]. unfold dec_utf8.
  replace (read_len32 (b :: r)) with (read_len32 (x0e :: r)) by reflexivity.
  replace (@drop_slice cl_err 5 (b :: r)) with (@drop_slice cl_err 5 (x0e :: r)) by reflexivity. reflexivity.
Qed.

Lemma lps_refused b e : decode_as TLps b = Err e <->
  exists k t, b = ser_name k ++ t /\ count k < 256 /\ ~ utf8 k /\ e = ClTryFromUtf8.
Proof.
  split; [apply dec_lps_err|]. intros (k & t & -> & C & U & ->). cbn [decode_as]. rewrite dec_lps_at by assumption.
  rewrite from_utf8_no by assumption. reflexivity.
Qed.

Lemma fnargs_refused b e : decode_as TFnArgs b = Err e <-> exists n r, b = big_endian 4 n ++ r /\ n < 2 ^ 32 /\ faulty_items n r e.
Proof.
  cbn [decode_as]. split.
  - unfold dec_fnargs. intros H. next H. next H. berr H; [|discriminate].
    assert (L : (4 <= length b)%nat).
    { unfold sub_slice in A. destruct (Nat.leb_spec (0 + 4) (length b)); [lia|discriminate]. }
    destruct (count_split b L) as (n & r & -> & N). exists n, r. splits; auto.
    rewrite (proj2 (drop_slice_ok 4 _ r)) in A0 by (exists (big_endian 4 n); auto using big_endian_length). okinv A0.
    rewrite (proj2 (sub_slice_ok 0 4 _ (big_endian 4 n))) in A by (exists [], a0; auto using big_endian_length). okinv A.
    rewrite big_endian_be, (be_val_be_bytes_small 4 n N) in H. apply items_refused, H.
  - intros (n & r & -> & N & F). apply items_refused in F. unfold dec_fnargs.
    rewrite (proj2 (sub_slice_ok 0 4 _ (big_endian 4 n))) by (exists [], r; auto using big_endian_length). cbn [bind].
    rewrite (proj2 (drop_slice_ok 4 _ r)) by (exists (big_endian 4 n); auto using big_endian_length). cbn [bind].
    rewrite big_endian_be. rewrite (be_val_be_bytes_small 4 n N). unfold items in F. rewrite F. reflexivity.
Qed.

(** ** The kind of panic *)

Definition pidx {E A} (r : res E A) : Prop := forall p, r = Panic p -> p = PIndex.

Lemma pidx_bind {E A B} (r : res E A) (k : A -> res E B) : pidx r -> (forall a, r = Ok a -> pidx (k a)) -> pidx (bind r k).
Proof. unfold pidx. intros R K p H. destruct r; cbn [bind] in H; try discriminate; [eapply K; eauto|]. apply R. congruence. Qed.
Lemma pidx_ok {E A} (a : A) : @pidx E A (Ok a). Proof. intros p H. discriminate. Qed.
Lemma pidx_err {E A} (e : E) : @pidx E A (Err e). Proof. intros p H. discriminate. Qed.
Lemma pidx_settled {E A} (r : res E A) : settled r -> pidx r.
Proof. intros [[a ->]|[e ->]] p H; discriminate. Qed.
Lemma pidx_index {E} i bs : pidx (@index E i bs).
Proof. unfold index. intros p. destruct (nth_error bs i); congruence. Qed.
Lemma pidx_drop {E} i bs : pidx (@drop_slice E i bs).
Proof. unfold drop_slice. intros p. destruct (Nat.leb i (length bs)); congruence. Qed.
Lemma pidx_sub {E} i n bs : pidx (@sub_slice E i n bs).
Proof. unfold sub_slice. intros p. destruct (Nat.leb (i + n) (length bs)); congruence. Qed.
Lemma pidx_take {E} i bs : pidx (@take_slice E i bs).
Proof. rewrite take_slice_spec. intros p. destruct (i <=? lenN bs); congruence. Qed.
Lemma pidx_utf8 s : pidx (from_utf8 s).
Proof. unfold from_utf8. intros p. destruct (utf8_valid s); congruence. Qed.
Lemma pidx_address h v : pidx (map_err ClC32 (c32_address h v)).
Proof. apply pidx_settled, settled_map_err, c32_address_settled. Qed.
Lemma pidx_encode c : pidx (encode c).
Proof. apply pidx_settled, encode_settled. Qed.
#[local] Hint Resolve pidx_ok pidx_err pidx_index pidx_drop pidx_sub pidx_take pidx_utf8 pidx_address pidx_encode : pidx.
Lemma pidx_check t bs : pidx (check_id t bs).
Proof. unfold check_id. apply pidx_bind; [auto with pidx|]. intros a _. destruct (byte_eqb a (ty_id t)); auto with pidx. Qed.
Lemma pidx_len32 bs : pidx (read_len32 bs).
Proof. unfold read_len32. repeat (apply pidx_bind; [auto with pidx|intros ? _]). auto with pidx. Qed.
#[local] Hint Resolve pidx_check pidx_len32 : pidx.
Ltac pidx_go := repeat (apply pidx_bind; [auto with pidx|intros ? _]); auto with pidx.

Lemma pidx_items (d : bytes -> res cl_err cval) : (forall b, pidx (d b)) -> forall g n b, pidx (dec_items d g n b).
Proof.
  intros D. induction g as [|g IH]; intros n b; cbn [dec_items]; destruct (n =? 0); auto with pidx; [intros p; discriminate|].
  apply pidx_bind; [apply D|intros ? _]. pidx_go.
Qed.
Lemma pidx_entries (d : bytes -> res cl_err cval) : (forall b, pidx (d b)) -> forall g n b, pidx (dec_entries d g n b).
Proof.
  intros D. induction g as [|g IH]; intros n b; cbn [dec_entries]; destruct (n =? 0); auto with pidx; [intros p; discriminate|].
  do 5 (apply pidx_bind; [auto with pidx|intros ? _]). apply pidx_bind; [apply D|intros ? _]. pidx_go.
Qed.
Lemma pidx_fuel f : forall b, pidx (decode_fuel f b).
Proof.
  induction f as [|f IH]; intros b; cbn [decode_fuel]; [intros p; discriminate|]. apply pidx_bind; [auto with pidx|]. intros t _.
  assert (W : forall t mk, pidx (dec_wrap (decode_fuel f) t mk b)) by (intros; unfold dec_wrap; pidx_go).
  assert (Li : pidx (dec_list (decode_fuel f) b)).
  { unfold dec_list. do 3 (apply pidx_bind; [auto with pidx|intros ? _]). apply pidx_bind; [apply pidx_items, IH|auto with pidx]. }
  assert (Tu : pidx (dec_tuple (decode_fuel f) b)).
  { unfold dec_tuple. do 3 (apply pidx_bind; [auto with pidx|intros ? _]). apply pidx_bind; [apply pidx_entries, IH|auto with pidx]. }
  destruct t; auto with pidx;
    unfold dec_int, dec_uint, dec_buffer, dec_true, dec_false, dec_prin_std, dec_prin_con, dec_none, dec_ascii, dec_utf8; pidx_go.
Qed.
Lemma decode_panics b p : dec b = Panic p -> p = PIndex.
Proof. apply pidx_fuel. Qed.

Lemma payload_panics b p : dec_payload b = Panic p -> p = PIndex.
Proof.
  revert p. change (pidx (dec_payload b)). unfold dec_payload. apply pidx_bind; [auto with pidx|]. intros t _.
  assert (L : forall r, pidx (dec_lps r)) by (intros; unfold dec_lps; pidx_go).
  assert (T : pidx (dec_transfer b)).
  { unfold dec_transfer. apply pidx_bind; [auto with pidx|intros ? _]. destruct (negb _); auto with pidx.
    apply pidx_bind; [auto with pidx|intros ? _]. apply pidx_bind; [apply pidx_fuel|intros ? _]. pidx_go. }
  assert (C : pidx (dec_call b)).
  { unfold dec_call. apply pidx_bind; [auto with pidx|intros ? _]. destruct (negb _); auto with pidx.
    apply pidx_bind; [auto with pidx|intros ? _]. apply pidx_bind; [auto with pidx|intros h H]. apply pidx_bind.
    { apply sub_slice_ok in H. destruct H as (? & ? & _ & _ & H). unfold hash160_new. rewrite H. intros q. discriminate. }
    intros ? _. repeat (apply pidx_bind; [solve [auto with pidx]|intros ? _]). apply pidx_bind.
    { unfold dec_fnargs. do 2 (apply pidx_bind; [auto with pidx|intros ? _]). apply pidx_bind; [apply pidx_items; intros; apply pidx_fuel|auto with pidx]. }
    intros av _. repeat match goal with |- pidx (match ?x with _ => _ end) => destruct x end; auto with pidx. }
  destruct t; auto with pidx.
Qed.

(** ** Trailing bytes and short payloads *)

Lemma items_stable n b s : settled (items n b) -> items n (b ++ s) = items n b.
Proof. intros H. apply dec_items_stable; [apply decode_stable|rewrite app_length; lia|exact H]. Qed.

Lemma faulty_more b e s : faulty b e -> faulty (b ++ s) e.
Proof. rewrite <- !decode_refused. intros H. rewrite decode_stable; [exact H|right; eauto]. Qed.
Lemma faulty_items_more n b e s : faulty_items n b e -> faulty_items n (b ++ s) e.
Proof. rewrite <- !items_refused. intros H. rewrite items_stable; [exact H|right; eauto]. Qed.
Lemma faulty_name_more b e s : faulty_name b e -> faulty_name (b ++ s) e.
Proof. intros [k t C U|k t f C U T]; rewrite <- app_assoc; [apply Fn_text|apply Fn_long]; assumption. Qed.

Lemma faulty_payload_more b e s : faulty_payload b e -> faulty_payload (b ++ s) e.
Proof.
  intros [b0 r N0 N2|r f H|w c r f D M X|w a m t W La Lm U|v h r f L X|v h c r f L C X|v h c g n r f L C G N X];
    cbn [app]; rewrite <- ?app_assoc.
  - apply Fp_tag; assumption.
  - apply Fp_to, faulty_more, H.
  - eapply Fp_to_again; eassumption.
  - apply Fp_memo; assumption.
  - apply Fp_contract; [assumption|]. apply faulty_name_more, X.
  - apply Fp_function; try assumption. apply faulty_name_more, X.
  - apply Fp_args; try assumption. apply faulty_items_more, X.
Qed.

Lemma payload_trailing b t : (exists p, dec_payload b = Ok p) \/ (exists e, dec_payload b = Err e) ->
  dec_payload (b ++ t) = dec_payload b.
Proof.
  intros [[p H]|[e H]]; rewrite H.
  - apply dec_payload_exact in H. destruct H as (w & s & -> & P & X). apply dec_payload_exact. exists w, (s ++ t). rewrite app_assoc. auto.
  - apply payload_dec_refused in H. apply payload_dec_refused, faulty_payload_more, H.
Qed.

Lemma payload_settles b p : dec_payload b = Panic p -> exists t, settled (dec_payload (b ++ t)).
Proof.
  intros _. destruct b as [|b r]; [exists [x01]; right; eexists; reflexivity|].
  destruct (byte_eqb_spec b x00) as [->|N0].
  - destruct (decode_answers r) as [t [[c H]|[e H]]].
    + exists (t ++ repeat x00 42). cbn [app]. rewrite app_assoc. apply decode_iff in H. destruct H as (w & u & E & D & M). rewrite E, <- app_assoc.
      rewrite (transfer_at w c) by assumption. apply settled_bind; [apply encode_settled|]. intros x _.
      destruct (@field_split cl_err (u ++ repeat x00 42)) as (a & m & t' & _ & _ & _ & Sa & Sm); [rewrite app_length, repeat_length; lia|].
      rewrite Sa, Sm. cbn [bind]. apply settled_bind; [|auto]. unfold from_utf8. destruct (utf8_valid m); [left|right]; eauto.
    + exists t. right. exists e. cbn [app]. rewrite transfer_eq, H. reflexivity.
  - destruct (byte_eqb_spec b x02) as [->|N2].
    2:{ exists []. right. eexists. apply dec_payload_dispatch; assumption. }
    assert (X : exists t v h s, r ++ t = v :: h ++ s /\ length h = 20%nat).
    { exists (repeat x00 21). destruct (r ++ repeat x00 21) as [|v q] eqn:Q.
      - apply (f_equal (@length _)) in Q. rewrite app_length, repeat_length in Q. cbn in Q. lia.
      - exists v, (firstn 20 q), (skipn 20 q). rewrite firstn_skipn. split; [reflexivity|]. rewrite firstn_length.
        apply (f_equal (@length _)) in Q. rewrite app_length, repeat_length in Q. cbn [length] in Q. lia. }
    destruct X as (t & v & h & s & E & L).
    assert (Y : forall s, exists z, (exists k u, s ++ z = ser_name k ++ u /\ good_name k) \/ exists e, faulty_name (s ++ z) e).
    { intros q. destruct (name_cases q) as [G|[F|[_ S]]]; [exists []; rewrite app_nil_r; auto..|exact S]. }
    destruct (Y s) as [z [(k & u & Ek & K)|[e F]]].
    2:{ exists (t ++ z). cbn [app]. rewrite app_assoc, E. cbn [app]. rewrite <- app_assoc. rewrite call_at by assumption.
        right. exists e. apply stage_faulty, F. }
    destruct (Y u) as [z' [(f & q & Ef & G)|[e F]]].
    2:{ exists (t ++ z ++ z'). cbn [app]. rewrite app_assoc, E. cbn [app]. rewrite <- app_assoc. rewrite call_at by assumption.
        rewrite app_assoc, Ek, <- app_assoc. rewrite stage_good by assumption. right. exists e. apply stage_faulty, F. }
    destruct (count_split (q ++ repeat x00 4)) as (n & y & Eq & N); [rewrite app_length, repeat_length; lia|].
    destruct (items_answer (S (length y)) (fun b _ => decode_answers b) y ltac:(lia) n) as [z'' S].
    exists (t ++ z ++ z' ++ repeat x00 4 ++ z''). cbn [app]. rewrite app_assoc, E. cbn [app]. rewrite <- app_assoc. rewrite call_at by assumption.
    rewrite app_assoc, Ek, <- app_assoc. rewrite stage_good by assumption.
    rewrite app_assoc, Ef, <- app_assoc. rewrite stage_good by assumption.
    rewrite app_assoc, Eq, <- app_assoc. rewrite args_at by assumption. apply settled_bind; auto.
Qed.

Lemma payload_panic_short b p : dec_payload b = Panic p -> exists t, t <> [] /\
  ((exists q, dec_payload (b ++ t) = Ok q) \/ (exists e, dec_payload (b ++ t) = Err e)).
Proof.
  intros H. destruct (payload_settles b p H) as [t S]. exists t. split; [|exact S]. intros ->. rewrite app_nil_r, H in S.
  destruct S as [[? S]|[? S]]; discriminate.
Qed.

Lemma decode_short_iff b p : dec b = Panic p <->
  p = PIndex /\ (forall e, ~ faulty b e) /\ ~ exists w t, b = wser w ++ t /\ decodable w.
Proof.
  split.
  - intros H. splits; [eapply decode_panics, H| |].
    + intros e F. apply decode_refused in F. congruence.
    + intros (w & t & -> & D). destruct (canonical_exists w (decodable_ver w D)) as [c M]. rewrite (decode_at w c t D M) in H. discriminate.
  - intros (-> & F & R). destruct (dec b) as [c|e|p|] eqn:E.
    + apply decode_iff in E. destruct E as (w & t & E & D & _). destruct R. eauto.
    + apply decode_refused in E. destruct (F e E).
    + rewrite (decode_panics b p E). reflexivity.
    + destruct (decode_nofuel b E).
Qed.

Lemma payload_exact_exists w : proper_payload w -> exists p, payload_exact p w.
Proof.
  destruct w as [to amount memo|v h c n ws]; cbn [proper_payload].
  - intros (P & _). destruct (canonical_exists to) as [c M]; [apply P|]. exists (PTransfer c amount memo). cbn. auto.
  - intros (_ & _ & _ & _ & _ & _ & F).
    assert (X : exists cs, Forall2 canonically_means cs ws).
    { induction F as [|w ws P F [cs IH]]; [exists []; constructor|]. destruct (canonical_exists w) as [d M]; [apply P|]. exists (d :: cs). auto. }
    destruct X as [cs X]. exists (PCall {| addr_hash := h; addr_version := v |} c n cs). cbn. auto.
Qed.

Lemma payload_short_iff b p : dec_payload b = Panic p <->
  p = PIndex /\ (forall e, ~ faulty_payload b e) /\ ~ exists w t, b = ser_payload w ++ t /\ proper_payload w.
Proof.
  split.
  - intros H. splits; [eapply payload_panics, H| |].
    + intros e F. apply payload_dec_refused in F. congruence.
    + intros (w & t & -> & D). destruct (payload_exact_exists w D) as [q M].
      assert (X : dec_payload (ser_payload w ++ t) = Ok q) by (apply dec_payload_exact; eauto). congruence.
  - intros (-> & F & R). destruct (dec_payload b) as [c|e|p|] eqn:E.
    + apply dec_payload_exact in E. destruct E as (w & t & E & D & _). destruct R. eauto.
    + apply payload_dec_refused in E. destruct (F e E).
    + rewrite (payload_panics b p E). reflexivity.
    + destruct (payload_dec_nofuel b E).
Qed.
