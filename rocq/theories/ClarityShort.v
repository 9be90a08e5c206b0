(** The Clarity decoder only panics on input that is too short: every input can be extended to one
    that gets an answer. *)

From Coq Require Import Lia ZifyBool ZifyNat ZifyN.
From Verif Require Import Base BaseFacts Utf8 Utf8Facts C32 SpecText SpecAddr Clarity SpecWire AddrFacts WireFacts
  ClarityFacts ClarityTotal.
Local Open Scope N_scope.

Definition answers (bs : bytes) : Prop := exists t, settled (decode_clarity_type (bs ++ t)).

(** How the first value of a slice can go, once the slice can be completed. *)
Inductive first_value (bs : bytes) : Prop :=
| fv_err t e : decode_clarity_type (bs ++ t) = Err e -> first_value bs
| fv_in w c r : bs = wser w ++ r -> decodable w -> canonically_means c w -> first_value bs
| fv_out w c t : bs ++ t = wser w -> decodable w -> canonically_means c w -> first_value bs.

Lemma answers_first bs : answers bs -> first_value bs.
Proof.
  intros [t [[c H] | [e H]]]; [|eapply fv_err; eassumption].
  apply decode_iff in H. destruct H as (w & t' & E & D & M).
  destruct (Nat.le_gt_cases (length (wser w)) (length bs)) as [L | L].
  - apply (fv_in bs w c (skipn (length (wser w)) bs)); auto.
    rewrite <- (firstn_skipn (length (wser w)) bs) at 1. f_equal.
    apply (f_equal (firstn (length (wser w)))) in E. rewrite firstn_app_exact in E.
    rewrite firstn_app in E. replace (length (wser w) - length bs)%nat with 0%nat in E by lia.
    cbn [firstn] in E. rewrite app_nil_r in E. exact E.
  - apply (fv_out bs w c (skipn (length bs) (wser w))); auto.
    apply (f_equal (firstn (length bs))) in E. rewrite firstn_app_exact in E.
    rewrite firstn_app in E. replace (length bs - length (wser w))%nat with 0%nat in E by lia.
    cbn [firstn] in E. rewrite app_nil_r in E. rewrite E at 1. apply firstn_skipn.
Qed.

Definition trues (n : N) : list wval := repeat WTrue (N.to_nat n).
Lemma trues_count n : count (trues n) = n.
Proof. unfold count, trues. rewrite repeat_length. lia. Qed.

Lemma decode_at w c t : decodable w -> canonically_means c w -> decode_clarity_type (wser w ++ t) = Ok c.
Proof. intros D M. apply decode_iff. exists w, t. auto. Qed.

Notation dec := decode_clarity_type.

Lemma items_fuel g n bs : (length bs < g)%nat -> dec_items dec g n bs = dec_items dec (S (length bs)) n bs.
Proof. intros H. apply dec_items_ext; auto. exact (fun b c => proj1 (decode_iff b c)). Qed.
Lemma entries_fuel g n bs : (length bs < g)%nat -> dec_entries dec g n bs = dec_entries dec (S (length bs)) n bs.
Proof. intros H. apply dec_entries_ext; auto. exact (fun b c => proj1 (decode_iff b c)). Qed.

Definition items n bs := dec_items dec (S (length bs)) n bs.
Definition entries n bs := dec_entries dec (S (length bs)) n bs.

Lemma items_eq n bs : items n bs =
  if n =? 0 then Ok []
  else let* v := dec bs in
       let* e := encode v in
       let* r := drop_slice (length e) bs in
       let* vs := items (n - 1) r in Ok (v :: vs).
Proof.
  unfold items. cbn [dec_items]. destruct (n =? 0); [reflexivity|].
  destruct (dec bs) as [v| | |] eqn:Dv; cbn [bind]; [|reflexivity..].
  destruct (encode v) as [e| | |] eqn:Ev; cbn [bind]; [|reflexivity..].
  destruct (drop_slice (length e) bs) as [r| | |] eqn:Dr; cbn [bind]; [|reflexivity..].
  apply decode_iff in Dv. pose proof (reads_enc_len _ _ _ Dv Ev). destruct (drop_len _ _ _ Dr).
  rewrite items_fuel by lia. reflexivity.
Qed.

Lemma entries_eq n bs : entries n bs =
  if n =? 0 then Ok []
  else let* kl := index 0 bs in
       let* r := drop_slice 1 bs in
       let* k := take_slice (b2n kl) r in
       let* k := from_utf8 k in
       let* r1 := drop_slice (length k) r in
       let* v := dec r1 in
       let* e := encode v in
       let* r2 := drop_slice (length e) r1 in
       let* vs := entries (n - 1) r2 in
       Ok ((k, v) :: vs).
Proof.
  unfold entries. cbn [dec_entries]. destruct (n =? 0); [reflexivity|].
  destruct (index 0 bs) as [kl| | |]; cbn [bind]; [|reflexivity..].
  destruct (drop_slice 1 bs) as [r0| | |] eqn:D0; cbn [bind]; [|reflexivity..].
  destruct (take_slice (b2n kl) r0) as [k| | |]; cbn [bind]; [|reflexivity..].
  destruct (from_utf8 k) as [k'| | |]; cbn [bind]; [|reflexivity..].
  destruct (drop_slice (length k') r0) as [r1| | |] eqn:D1; cbn [bind]; [|reflexivity..].
  destruct (drop_len _ _ _ D0), (drop_len _ _ _ D1).
  destruct (dec r1) as [v| | |] eqn:Dv; cbn [bind]; [|reflexivity..].
  destruct (encode v) as [e| | |] eqn:Ev; cbn [bind]; [|reflexivity..].
  destruct (drop_slice (length e) r1) as [r| | |] eqn:Dr; cbn [bind]; [|reflexivity..].
  apply decode_iff in Dv. pose proof (reads_enc_len _ _ _ Dv Ev). destruct (drop_len _ _ _ Dr).
  rewrite entries_fuel by lia. reflexivity.
Qed.

Lemma items_trues n : exists vs, items n (flat_map wser (trues n)) = Ok vs.
Proof.
  exists (repeat CTrue (N.to_nat n)). unfold items. rewrite <- (app_nil_r (flat_map wser (trues n))).
  rewrite <- (trues_count n) at 2.
  apply dec_items_complete.
  - apply Forall_forall. intros w Hw c t M. apply repeat_spec in Hw. subst w. destruct c; try contradiction.
    apply (decode_at WTrue CTrue); exact I.
  - apply Forall_forall. intros w Hw. apply repeat_spec in Hw. subst w. cbn. auto.
  - unfold trues. clear. induction (N.to_nat n); constructor; auto. exact I.
  - rewrite app_nil_r. pose proof (flat_len_ge wser (trues n)) as G.
    assert (Forall (fun x => 1 <= length (wser x))%nat (trues n)) as G'.
    { apply Forall_forall. intros w Hw. apply repeat_spec in Hw. subst w. cbn. lia. }
    specialize (G G'). lia.
Qed.

Definition etrues (n : N) : list (bytes * wval) := repeat ([], WTrue) (N.to_nat n).
Lemma etrues_count n : count (etrues n) = n.
Proof. unfold count, etrues. rewrite repeat_length. lia. Qed.

Lemma entries_trues n : exists vs, entries n (flat_map wentry (etrues n)) = Ok vs.
Proof.
  exists (repeat ([], CTrue) (N.to_nat n)). unfold entries. rewrite <- (app_nil_r (flat_map wentry (etrues n))).
  rewrite <- (etrues_count n) at 2.
  apply dec_entries_complete.
  - apply Forall_forall. intros w Hw c t M. apply repeat_spec in Hw. subst w. destruct c; try contradiction.
    apply (decode_at WTrue CTrue); exact I.
  - apply Forall_forall. intros w Hw. apply repeat_spec in Hw. subst w. split; [cbn; lia|]. split; [exists []; split; [constructor | reflexivity] | cbn; auto].
  - unfold etrues. clear. induction (N.to_nat n); constructor; cbn; auto.
  - rewrite app_nil_r. pose proof (flat_len_ge wentry (etrues n)) as G.
    assert (Forall (fun x => 1 <= length (wentry x))%nat (etrues n)) as G'.
    { apply Forall_forall. intros w Hw. apply wentry_pos. }
    specialize (G G'). lia.
Qed.

(** Reading a value [w] that stands at the front, then going on. *)
Lemma value_then {B} w c r (k : cval -> bytes -> res cl_err B) : decodable w -> canonically_means c w ->
  settled (k c r) ->
  settled (let* v := dec (wser w ++ r) in
           let* e := encode v in
           let* r2 := drop_slice (length e) (wser w ++ r) in k v r2).
Proof.
  intros D M S. rewrite (decode_at _ _ _ D M). cbn [bind].
  destruct (encode_settled c) as [[e E] | [e E]]; rewrite E; cbn [bind]; [|auto].
  destruct (encode_of_means _ _ _ (canonical_means _ _ M) E) as [_ ->]. rewrite drop_slice_app. exact S.
Qed.

Lemma items_answer m : (forall bs, (length bs < m)%nat -> answers bs) ->
  forall bs, (length bs < m)%nat -> forall n, exists t, settled (items n (bs ++ t)).
Proof.
  intros IH bs. remember (length bs) as len eqn:EL. revert bs EL.
  induction len as [len IHlen] using (well_founded_induction lt_wf).
  intros bs -> Hm n. destruct (N.eq_dec n 0) as [-> | N0].
  { exists []. rewrite items_eq. cbn. auto. }
  destruct (answers_first bs (IH bs Hm)) as [t e H | w c r -> D M | w c t E D M].
  - exists t. rewrite items_eq, H. destruct (N.eqb_spec n 0); [lia|]. cbn. auto.
  - pose proof (decodable_nonempty _ D). rewrite app_length in *.
    destruct (IHlen (length r) ltac:(lia) r eq_refl ltac:(lia) (n - 1)) as [t S].
    exists t. rewrite items_eq. destruct (N.eqb_spec n 0); [lia|]. rewrite <- app_assoc.
    apply (value_then w c (r ++ t) (fun v r2 => let* vs := items (n - 1) r2 in Ok (v :: vs))); auto.
    apply settled_bind; auto.
  - destruct (items_trues (n - 1)) as [vs V].
    exists (t ++ flat_map wser (trues (n - 1))). rewrite items_eq. destruct (N.eqb_spec n 0); [lia|].
    rewrite app_assoc, E.
    apply (value_then w c _ (fun v r2 => let* vs := items (n - 1) r2 in Ok (v :: vs))); auto.
    rewrite V. cbn. auto.
Qed.

(** Reading a key that stands at the front, then going on. *)
Lemma key_then {B} kl k r (f : bytes -> bytes -> res cl_err B) : lenN k = b2n kl -> settled (f k r) ->
  settled (let* kl0 := index 0 (kl :: k ++ r) in
           let* r0 := drop_slice 1 (kl :: k ++ r) in
           let* k0 := take_slice (b2n kl0) r0 in
           let* k0 := from_utf8 k0 in
           let* r1 := drop_slice (length k0) r0 in f k0 r1).
Proof.
  intros L S. unfold index. cbn [nth_error bind]. rewrite drop1. cbn [bind].
  rewrite <- L, take_slice_app. cbn [bind]. unfold from_utf8. destruct (utf8_valid k); cbn [bind]; auto.
  rewrite drop_slice_app. exact S.
Qed.

Lemma entries_answer m : (forall bs, (length bs < m)%nat -> answers bs) ->
  forall bs, (length bs < m)%nat -> forall n, exists t, settled (entries n (bs ++ t)).
Proof.
  intros IH bs. remember (length bs) as len eqn:EL. revert bs EL.
  induction len as [len IHlen] using (well_founded_induction lt_wf).
  intros bs -> Hm n. destruct (N.eq_dec n 0) as [-> | N0].
  { exists []. rewrite entries_eq. cbn. auto. }
  destruct (entries_trues (n - 1)) as [vs V]. destruct (entries_trues n) as [vs' V'].
  destruct bs as [|kl r]. { exists (flat_map wentry (etrues n)). cbn [app]. rewrite V'. auto. }
  cbn [length] in Hm.
  destruct (N.le_gt_cases (b2n kl) (lenN r)) as [L | L].
  - (* the key is there *)
    set (k := firstn (N.to_nat (b2n kl)) r). set (r1 := skipn (N.to_nat (b2n kl)) r).
    assert (Er : r = k ++ r1) by (symmetry; apply firstn_skipn).
    assert (Lk : lenN k = b2n kl) by (unfold k, lenN in *; rewrite firstn_length; lia).
    clearbody k r1. subst r. rewrite app_length in Hm.
    destruct (answers_first r1 (IH r1 ltac:(lia))) as [t e H | w c r -> D M | w c t E D M].
    + exists t. rewrite entries_eq. destruct (N.eqb_spec n 0); [lia|]. cbn [app]. rewrite <- app_assoc.
      apply (key_then kl k (r1 ++ t) (fun k0 r0 => let* v := dec r0 in
               let* e := encode v in
               let* r2 := drop_slice (length e) r0 in
               let* vs := entries (n - 1) r2 in Ok ((k0, v) :: vs))); auto.
      rewrite H. cbn. auto.
    + pose proof (decodable_nonempty _ D). cbn [length] in *. rewrite !app_length in *.
      destruct (IHlen (length r) ltac:(lia) r eq_refl ltac:(lia) (n - 1)) as [t S].
      exists t. rewrite entries_eq. destruct (N.eqb_spec n 0); [lia|]. cbn [app]. rewrite <- !app_assoc.
      apply (key_then kl k (wser w ++ r ++ t) (fun k0 r0 => let* v := dec r0 in
               let* e := encode v in
               let* r2 := drop_slice (length e) r0 in
               let* vs := entries (n - 1) r2 in Ok ((k0, v) :: vs))); auto.
      apply (value_then w c (r ++ t) (fun v r2 => let* vs := entries (n - 1) r2 in Ok ((k, v) :: vs))); auto.
      apply settled_bind; auto.
    + exists (t ++ flat_map wentry (etrues (n - 1))). rewrite entries_eq. destruct (N.eqb_spec n 0); [lia|].
      cbn [app]. rewrite <- app_assoc. rewrite (app_assoc r1), E.
      apply (key_then kl k (wser w ++ flat_map wentry (etrues (n - 1))) (fun k0 r0 => let* v := dec r0 in
               let* e := encode v in
               let* r2 := drop_slice (length e) r0 in
               let* vs := entries (n - 1) r2 in Ok ((k0, v) :: vs))); auto.
      apply (value_then w c _ (fun v r2 => let* vs := entries (n - 1) r2 in Ok ((k, v) :: vs))); auto.
      rewrite V. cbn. auto.
  - (* the key is cut off: pad it *)
    set (z := repeat x00 (N.to_nat (b2n kl - lenN r))).
    exists (z ++ wser WTrue ++ flat_map wentry (etrues (n - 1))).
    rewrite entries_eq. destruct (N.eqb_spec n 0); [lia|]. cbn [app]. rewrite app_assoc.
    apply (key_then kl (r ++ z) (wser WTrue ++ flat_map wentry (etrues (n - 1))) (fun k0 r0 => let* v := dec r0 in
             let* e := encode v in
             let* r2 := drop_slice (length e) r0 in
             let* vs := entries (n - 1) r2 in Ok ((k0, v) :: vs))).
    + rewrite lenN_app. unfold z, lenN in *. rewrite repeat_length. lia.
    + apply (value_then WTrue CTrue _ (fun v r2 => let* vs := entries (n - 1) r2 in Ok ((r ++ z, v) :: vs)));
        [exact I | exact I |]. rewrite V. cbn. auto.
Qed.

(** A slice that starts with a tag and a 4-byte count, padded if necessary. *)
Lemma count_answer (r : bytes) : exists z n r', (length r' <= length r)%nat /\ n < 2 ^ 32
  /\ forall x t, x :: (r ++ z) ++ t = x :: big_endian 4 n ++ r' ++ t.
Proof.
  set (z := repeat x00 (4 - length r)).
  exists z. set (q := firstn 4 (r ++ z)). set (r' := skipn 4 (r ++ z)).
  assert (Lq : length q = 4%nat).
  { unfold q. rewrite firstn_length, app_length. unfold z. rewrite repeat_length. lia. }
  exists (be_val q), r'. splits.
  - unfold r'. rewrite skipn_length, app_length. unfold z. rewrite repeat_length. lia.
  - pose proof (be_val_bound q) as B. rewrite Lq in B. exact B.
  - intros x t. rewrite big_endian_be. rewrite <- Lq, be_bytes_be_val.
    rewrite (app_assoc q). unfold q, r'. rewrite firstn_skipn. reflexivity.
Qed.

Lemma decode_answers bs : answers bs.
Proof.
  remember (S (length bs)) as m eqn:Em. assert (L : (length bs < m)%nat) by lia. clear Em.
  revert bs L. induction m as [|m IH]; intros bs L; [lia|].
  destruct bs as [|b r]. { exists [x03]. left. exists CTrue. reflexivity. }
  cbn [length] in L.
  destruct (tag_cases b) as [b B | b B U]; [|exists []; cbn [app]; rewrite decode_unknown by assumption; auto].
  known_tags B.
  - exists (repeat x00 16). change (settled (dec_int (x00 :: r ++ repeat x00 16))).
    unfold dec_int. rewrite (check_id_ok TInt). cbn [bind]. unfold sub_slice.
    destruct (Nat.leb_spec (1 + 16) (length (x00 :: r ++ repeat x00 16))) as [|H]; [cbn; auto|].
    cbn [length] in H. rewrite app_length, repeat_length in H. lia.
  - exists (repeat x00 16). change (settled (dec_uint (x01 :: r ++ repeat x00 16))).
    unfold dec_uint. rewrite (check_id_ok TUInt). cbn [bind]. unfold sub_slice.
    destruct (Nat.leb_spec (1 + 16) (length (x01 :: r ++ repeat x00 16))) as [|H]; [cbn; auto|].
    cbn [length] in H. rewrite app_length, repeat_length in H. lia.
  - destruct (count_answer r) as (z & n & r' & _ & Hn & E).
    exists (z ++ repeat x00 (N.to_nat n)).
    change (settled (dec_buffer ((x02 :: r) ++ z ++ repeat x00 (N.to_nat n)))). cbn [app].
    rewrite app_assoc, E. unfold dec_buffer. rewrite (check_id_ok TBuffer). cbn [bind].
    rewrite read_len32_ok by assumption. cbn [bind]. rewrite drop5. cbn [bind].
    rewrite take_slice_spec. rewrite lenN_app. unfold lenN at 2. rewrite repeat_length.
    destruct (N.leb_spec n (lenN r' + N.of_nat (N.to_nat n))); [cbn; auto | lia].
  - exists []. left. exists CTrue. reflexivity.
  - exists []. left. exists CFalse. reflexivity.
  - exists (repeat x00 21). change (settled (dec_prin_std (x05 :: r ++ repeat x00 21))).
    assert (H : (22 <= length (x05 :: r ++ repeat x00 21))%nat).
    { cbn [length]. rewrite app_length, repeat_length. lia. }
    unfold dec_prin_std. rewrite (check_id_ok TPrinStd). cbn [bind]. unfold sub_slice.
    destruct (Nat.leb_spec (2 + 20) (length (x05 :: r ++ repeat x00 21))) as [|H']; [|lia]. cbn [bind].
    destruct (@index_lt cl_err 1 (x05 :: r ++ repeat x00 21) ltac:(lia)) as [v ->]. cbn [bind].
    apply settled_bind; [|auto]. apply settled_map_err. apply c32_address_settled.
  - set (z := repeat x00 300). exists z. change (settled (dec_prin_con (x06 :: r ++ z))).
    assert (H : (300 <= length (x06 :: r ++ z))%nat).
    { cbn [length]. rewrite app_length. unfold z. rewrite repeat_length. lia. }
    set (bs := r ++ z) in *.
    unfold dec_prin_con. rewrite (check_id_ok TPrinCon). cbn [bind]. unfold sub_slice.
    destruct (Nat.leb_spec (2 + 20) (length (x06 :: bs))) as [|H']; [|lia]. cbn [bind].
    destruct (@index_lt cl_err 1 (x06 :: bs) ltac:(lia)) as [v ->]. cbn [bind].
    apply settled_bind; [apply settled_map_err; apply c32_address_settled | intros a _].
    destruct (@index_lt cl_err 22 (x06 :: bs) ltac:(lia)) as [kl ->]. cbn [bind].
    unfold drop_slice. destruct (Nat.leb_spec 23 (length (x06 :: bs))); [|lia]. cbn [bind].
    rewrite take_slice_spec. unfold lenN. rewrite skipn_length. pose proof (b2n_lt kl).
    destruct (N.leb_spec (b2n kl) (N.of_nat (length (x06 :: bs) - 23))); [|lia]. cbn [bind].
    apply settled_bind; [|auto]. unfold from_utf8.
    destruct (utf8_valid (firstn (N.to_nat (b2n kl)) (skipn 23 (x06 :: bs)))); auto.
  - destruct (IH r ltac:(lia)) as [t S]. exists t. cbn [app].
    rewrite (decode_wrap_eq TRespOk CRespOk) by (cbn; auto). unfold dec_wrap. rewrite (check_id_ok TRespOk).
    cbn [bind]. rewrite drop1. cbn [bind]. apply settled_bind; auto.
  - destruct (IH r ltac:(lia)) as [t S]. exists t. cbn [app].
    rewrite (decode_wrap_eq TRespErr CRespErr) by (cbn; auto). unfold dec_wrap. rewrite (check_id_ok TRespErr).
    cbn [bind]. rewrite drop1. cbn [bind]. apply settled_bind; auto.
  - exists []. left. exists CNone. reflexivity.
  - destruct (IH r ltac:(lia)) as [t S]. exists t. cbn [app].
    rewrite (decode_wrap_eq TSome CSome) by (cbn; auto). unfold dec_wrap. rewrite (check_id_ok TSome).
    cbn [bind]. rewrite drop1. cbn [bind]. apply settled_bind; auto.
  - destruct (count_answer r) as (z & n & r' & Lr & Hn & E).
    destruct (items_answer m IH r' ltac:(lia) n) as [t S].
    exists (z ++ t). cbn [app]. rewrite app_assoc, E. rewrite decode_list_eq. unfold dec_list.
    rewrite (check_id_ok TList). cbn [bind]. rewrite read_len32_ok by assumption. cbn [bind].
    rewrite drop5. cbn [bind]. apply settled_bind; auto.
  - destruct (count_answer r) as (z & n & r' & Lr & Hn & E).
    destruct (entries_answer m IH r' ltac:(lia) n) as [t S].
    exists (z ++ t). cbn [app]. rewrite app_assoc, E. rewrite decode_tuple_eq. unfold dec_tuple.
    rewrite (check_id_ok TTuple). cbn [bind]. rewrite read_len32_ok by assumption. cbn [bind].
    rewrite drop5. cbn [bind]. apply settled_bind; auto.
  - destruct (count_answer r) as (z & n & r' & _ & Hn & E).
    exists (z ++ repeat x00 (N.to_nat n)).
    change (settled (dec_ascii ((x0d :: r) ++ z ++ repeat x00 (N.to_nat n)))). cbn [app].
    rewrite app_assoc, E. unfold dec_ascii. rewrite (check_id_ok TAscii). cbn [bind].
    rewrite read_len32_ok by assumption. cbn [bind]. rewrite drop5. cbn [bind].
    rewrite take_slice_spec. rewrite lenN_app. unfold lenN at 2. rewrite repeat_length.
    destruct (N.leb_spec n (lenN r' + N.of_nat (N.to_nat n))); [|lia]. cbn [bind].
    apply settled_bind; [|auto]. unfold from_utf8.
    match goal with |- settled (if ?b then _ else _) => destruct b; auto end.
  - destruct (count_answer r) as (z & n & r' & _ & Hn & E).
    exists (z ++ repeat x00 (N.to_nat n)).
    change (settled (dec_utf8 ((x0e :: r) ++ z ++ repeat x00 (N.to_nat n)))). cbn [app].
    rewrite app_assoc, E. unfold dec_utf8. cbn [bind].
    rewrite read_len32_ok by assumption. cbn [bind]. rewrite drop5. cbn [bind].
    rewrite take_slice_spec. rewrite lenN_app. unfold lenN at 2. rewrite repeat_length.
    destruct (N.leb_spec n (lenN r' + N.of_nat (N.to_nat n))); [|lia]. cbn [bind].
    apply settled_bind; [|auto]. unfold from_utf8.
    match goal with |- settled (if ?b then _ else _) => destruct b; auto end.
Qed.
