(** What encoding and decoding cost: proofs. *)

From Coq Require Import Strings.String.
From Coq Require Import Lia ZifyBool ZifyNat ZifyN.
From Verif Require Import Base BaseFacts Hash C32 AddrFacts Clarity SpecText SpecAddr SpecWire WireFacts ClarityFacts ClarityShort ClarityTotal Tx Cost.
Local Open Scope N_scope.

(** ** The counted functions compute the same *)

Lemma snd_seq {A B} (m : counted A) (k : A -> counted B) : snd (seq m k) = bind (snd m) (fun a => snd (k a)).
Proof. unfold seq, bind. destruct (snd m); reflexivity. Qed.
Lemma snd_free {A} (r : res cl_err A) : snd (free r) = r.
Proof. reflexivity. Qed.
Lemma snd_tick n : snd (tick n) = Ok tt.
Proof. reflexivity. Qed.

Lemma bind_ext {E A B} (r : res E A) (k k' : A -> res E B) : (forall a, k a = k' a) -> bind r k = bind r k'.
Proof. intros H. destruct r; cbn; auto. Qed.

Ltac same := repeat first [rewrite snd_seq | rewrite snd_free | rewrite snd_tick | progress cbn [bind]].

Lemma text_same id s : snd (text_w id s) = (let* n := enc_len32 (lenN s) in Ok (id :: n ++ s)).
Proof. unfold text_w. same. apply bind_ext. intros n. same. reflexivity. Qed.
Lemma lps_same s : snd (lps_w s) = enc_lps s.
Proof. unfold lps_w. same. destruct (enc_lps s); reflexivity. Qed.

Lemma encode_same v : snd (encode_w v) = encode v.
Proof.
  induction v using cval_induction; cbn [encode_w encode]; same; try reflexivity;
    try (apply text_same || apply lps_same);
    try (rewrite IHv; apply bind_ext; intros e; same; reflexivity).
  - apply bind_ext. intros [h ver]. same. reflexivity.
  - apply bind_ext. intros [h ver]. same. rewrite lps_same. apply bind_ext. intros e. same. reflexivity.
  - apply bind_ext. intros n. same.
    match goal with |- bind (snd ?a) _ = bind ?b _ => assert (snd a = b) as -> end.
    { induction H as [|x l Hx _ IH]; [reflexivity|]. same. rewrite Hx. apply bind_ext. intros e. same. rewrite IH. apply bind_ext.
      intros t. reflexivity. }
    apply bind_ext. reflexivity.
  - apply bind_ext. intros n. same.
    match goal with |- bind (snd ?a) _ = bind ?b _ => assert (snd a = b) as -> end.
    { induction H as [|[k x] l Hx _ IH]; [reflexivity|]. same. rewrite lps_same. apply bind_ext. intros ke. same. cbn [snd] in Hx. rewrite Hx.
      apply bind_ext. intros e. same. rewrite IH. apply bind_ext. intros t. reflexivity. }
    apply bind_ext. reflexivity.
  - destruct (is_ascii s); [apply text_same | reflexivity].
  - apply bind_ext. intros n. same.
    match goal with |- bind (snd ?a) _ = bind ?b _ => assert (snd a = b) as -> end.
    { induction H as [|x l Hx _ IH]; [reflexivity|]. same. rewrite Hx. apply bind_ext. intros e. same. rewrite IH. apply bind_ext.
      intros t. reflexivity. }
    apply bind_ext. reflexivity.
Qed.

Section Same.
  Variables (dw : bytes -> counted cval) (d : bytes -> res cl_err cval).
  Hypothesis D : forall bs, snd (dw bs) = d bs.
  Lemma wrap_same t mk bs : snd (wrap_w dw t mk bs) = dec_wrap d t mk bs.
  Proof. unfold wrap_w, dec_wrap. same. apply bind_ext. intros _. same. apply bind_ext. intros r. same. rewrite D. apply bind_ext. reflexivity. Qed.
  Lemma items_same g : forall n bs, snd (items_w dw g n bs) = dec_items d g n bs.
  Proof.
    induction g as [|g IH]; intros n bs; cbn [items_w dec_items]; destruct (n =? 0); try reflexivity. same. rewrite D.
    apply bind_ext. intros v. same. rewrite encode_same. apply bind_ext. intros e. same. apply bind_ext. intros r. same. rewrite IH.
    apply bind_ext. reflexivity.
  Qed.
  Lemma entries_same g : forall n bs, snd (entries_w dw g n bs) = dec_entries d g n bs.
  Proof.
    induction g as [|g IH]; intros n bs; cbn [entries_w dec_entries]; destruct (n =? 0); try reflexivity.
    repeat (same; apply bind_ext; intros ?). same. rewrite D. apply bind_ext. intros v. same. rewrite encode_same.
    repeat (same; apply bind_ext; intros ?). same. rewrite IH. apply bind_ext. reflexivity.
  Qed.
  Lemma list_same bs : snd (list_w dw bs) = dec_list d bs.
  Proof. unfold list_w, dec_list. repeat (same; apply bind_ext; intros ?). same. rewrite items_same. apply bind_ext. reflexivity. Qed.
  Lemma tuple_same bs : snd (tuple_w dw bs) = dec_tuple d bs.
  Proof. unfold tuple_w, dec_tuple. repeat (same; apply bind_ext; intros ?). same. rewrite entries_same. apply bind_ext. reflexivity. Qed.
End Same.

Lemma decode_same f : forall bs, snd (decode_w f bs) = decode_fuel f bs.
Proof.
  induction f as [|f IH]; intros bs; [reflexivity|]. cbn [decode_w decode_fuel]. same. apply bind_ext. intros tag.
  destruct tag; try reflexivity; (apply wrap_same || apply list_same || apply tuple_same); exact IH.
Qed.

(** ** Upper bounds *)

Lemma fst_seq_le {A B} (m : counted A) (k : A -> counted B) x y :
  fst m <= x -> (forall a, snd m = Ok a -> fst (k a) <= y) -> fst (seq m k) <= x + y.
Proof. intros X Y. unfold seq. destruct (snd m) eqn:E; cbn [fst]; [specialize (Y _ eq_refl)| | |]; lia. Qed.
Lemma fst_free_le {A B} (r : res cl_err A) (k : A -> counted B) y :
  (forall a, r = Ok a -> fst (k a) <= y) -> fst (seq (free r) k) <= y.
Proof. intros Y. unfold seq, free. cbn. destruct r; cbn; [specialize (Y _ eq_refl)| | |]; lia. Qed.
Lemma fst_tick {B} n (k : unit -> counted B) : fst (seq (tick n) k) = n + fst (k tt).
Proof. reflexivity. Qed.

Lemma lenN_app {A} (a b : list A) : lenN (a ++ b) = lenN a + lenN b.
Proof. unfold lenN. rewrite app_length. lia. Qed.
Lemma lenN_cons {A} (x : A) b : lenN (x :: b) = 1 + lenN b.
Proof. unfold lenN. cbn [length]. lia. Qed.

Lemma squares a b : a * a + b * b <= (a + b) * (a + b).
Proof. nia. Qed.
Lemma cubes a b : a * a * a + b * b * b <= (a + b) * (a + b) * (a + b).
Proof. nia. Qed.
Lemma square_mono a b : a <= b -> a * a <= b * b.
Proof. intros H. apply N.mul_le_mono; exact H. Qed.
Lemma cube_mono a b : a <= b -> a * a * a <= b * b * b.
Proof. intros H. apply N.mul_le_mono; [apply square_mono|]; exact H. Qed.
Lemma square_ge a : a <= a * a.
Proof. nia. Qed.

Lemma lenN_be k n : lenN (big_endian k n) = N.of_nat k.
Proof. unfold lenN. rewrite big_endian_length. reflexivity. Qed.

Definition size (w : wval) : N := lenN (wser w).

Lemma encoded_size c w e : means c w -> snd (encode_w c) = Ok e -> lenN e = size w.
Proof. intros M E. rewrite encode_same in E. destruct (encode_of_means _ _ _ M E) as [_ ->]. reflexivity. Qed.

Lemma text_work id s : fst (text_w id s) <= 5 + lenN s.
Proof.
  unfold text_w. rewrite fst_tick; cbv beta. cut (fst (let! n := free (enc_len32 (lenN s)) in let! _ := tick (4 + lenN s) in free (Ok (id :: n ++ s))) <= 4 + lenN s); [lia|].
  apply fst_free_le. intros n _. rewrite fst_tick; cbv beta. cbn. lia.
Qed.
Lemma lps_work s e : enc_lps s = Ok e -> lenN e = 1 + lenN s.
Proof. unfold enc_lps. destruct (_ <? _); [discriminate|]. destruct (_ <? _); intros H; [|discriminate]. okinv H. apply lenN_cons. Qed.
Lemma lps_cost s : fst (lps_w s) <= 1 + lenN s.
Proof. unfold lps_w. apply fst_free_le. intros e E. rewrite fst_tick, (lps_work _ _ E). cbn. lia. Qed.

Definition loop_w : list cval -> counted bytes :=
  fix enc_all (l : list cval) : counted bytes :=
    match l with
    | [] => free (Ok [])
    | x :: r => let! e := encode_w x in let! _ := tick (lenN e) in let! t := enc_all r in free (Ok (e ++ t))
    end.
Definition loop_entries_w : list (bytes * cval) -> counted bytes :=
  fix enc_all (l : list (bytes * cval)) : counted bytes :=
    match l with
    | [] => free (Ok [])
    | (k, x) :: r =>
      let! ke := lps_w k in
      let! _ := tick (lenN ke) in
      let! e := encode_w x in
      let! _ := tick (lenN e) in
      let! t := enc_all r in free (Ok (ke ++ e ++ t))
    end.

Lemma loop_work l : Forall (fun c => forall w, means c w -> fst (encode_w c) <= size w * size w) l ->
  forall ws, Forall2 means l ws -> let t := lenN (flat_map wser ws) in fst (loop_w l) <= t * t + t.
Proof.
  intros F. induction F as [|c l Hc F IH]; intros ws M; inversion M; subst; cbn [loop_w flat_map]; [cbn; lia|].
  specialize (IH _ H3). cbv zeta in IH |- *. rewrite lenN_app. fold (size y). set (t := lenN (flat_map wser l')) in *. fold loop_w.
  pose proof (Hc _ H1). pose proof (squares (size y) t).
  enough (fst (let! e := encode_w c in let! _ := tick (lenN e) in let! t := loop_w l in free (Ok (e ++ t))) <= size y * size y + (size y + (t * t + t + 0))) by lia.
  apply fst_seq_le; [assumption|]. intros e E. rewrite fst_tick, (encoded_size _ _ _ H1 E).
  apply N.add_le_mono_l. apply fst_seq_le; [exact IH|]. intros. cbn. lia.
Qed.

Lemma loop_entries_work l : Forall (fun kc => forall w, means (snd kc) w -> fst (encode_w (snd kc)) <= size w * size w) l ->
  forall ws, Forall2 (fun a b => fst a = fst b /\ means (snd a) (snd b)) l ws ->
  let t := lenN (flat_map wentry ws) in fst (loop_entries_w l) <= t * t + t.
Proof.
  intros F. induction F as [|[k c] l Hc F IH]; intros ws M; inversion M; subst; cbn [loop_entries_w flat_map]; [cbn; lia|].
  specialize (IH _ H3). cbv zeta in IH |- *. destruct y as [k' y]. cbn [fst snd] in *. destruct H1 as [<- H1].
  set (t := lenN (flat_map wentry l')) in *. fold loop_entries_w.
  assert (L : lenN (wentry (k, y) ++ flat_map wentry l') = 1 + lenN k + size y + t).
  { rewrite lenN_app. fold t. change (wentry (k, y)) with (big_endian 1 (count k) ++ k ++ wser y). rewrite !lenN_app, lenN_be. unfold size. lia. }
  rewrite L. pose proof (Hc _ H1). set (a := 1 + lenN k) in *.
  pose proof (squares (size y) t). pose proof (squares a (size y + t)). pose proof (square_ge a).
  enough (fst (let! ke := lps_w k in let! _ := tick (lenN ke) in let! e := encode_w c in let! _ := tick (lenN e) in
               let! t := loop_entries_w l in free (Ok (ke ++ e ++ t)))
          <= a + (a + (size y * size y + (size y + (t * t + t + 0))))) by lia.
  apply fst_seq_le; [apply lps_cost|]. intros ke K. rewrite fst_tick; cbv beta. rewrite lps_same in K. rewrite (lps_work _ _ K).
  apply N.add_le_mono_l. apply fst_seq_le; [assumption|]. intros e E. rewrite fst_tick, (encoded_size _ _ _ H1 E).
  apply N.add_le_mono_l. apply fst_seq_le; [exact IH|]. intros. cbn. lia.
Qed.

Lemma spelled a h v : address_spelling h v a -> dec_addr a = Ok (h, v).
Proof. intros S. unfold dec_addr. apply c32_address_decode_iff in S. rewrite S. reflexivity. Qed.

Lemma wrap_work c w : means c w -> fst (encode_w c) <= size w * size w -> forall (mk : bytes -> bytes),
  fst (let! _ := tick 1 in let! e := encode_w c in let! _ := tick (lenN e) in free (Ok (mk e))) <= (1 + size w) * (1 + size w).
Proof.
  intros M B mk. rewrite fst_tick; cbv beta.
  enough (fst (let! e := encode_w c in let! _ := tick (lenN e) in free (Ok (mk e))) <= size w * size w + size w) by nia.
  apply fst_seq_le; [exact B|]. intros e E. rewrite fst_tick, (encoded_size _ _ _ M E). cbn. lia.
Qed.

Lemma encode_bound c : forall w, means c w -> fst (encode_w c) <= size w * size w.
Proof.
  induction c using cval_induction; intros [] M; cbn [denotes] in M; try contradiction; subst; cbn [encode_w];
    try (unfold size; cbn [wser]; rewrite lenN_cons; apply (wrap_work _ _ M (IHc _ M))).
  - unfold size. cbn [wser]. rewrite lenN_cons. unfold twos_complement. rewrite lenN_be. cbn. lia.
  - unfold size. cbn [wser]. rewrite lenN_cons, lenN_be. cbn. lia.
  - unfold size. cbn [wser]. rewrite lenN_cons, lenN_app, lenN_be. pose proof (text_work x02 b0). nia.
  - cbn. lia.
  - cbn. lia.
  - rewrite (spelled _ _ _ M). unfold size. cbn [wser]. rewrite !lenN_cons. apply fst_free_le. intros r E. okinv E.
    rewrite fst_tick; cbn [fst snd free]. pose proof (square_ge (1 + (1 + lenN hash))). lia.
  - destruct M as [M ->]. rewrite (spelled _ _ _ M). unfold size. cbn [wser]. rewrite !lenN_cons, !lenN_app, lenN_be.
    apply fst_free_le. intros r E. okinv E. cbn [fst snd]. rewrite fst_tick; cbv beta.
    enough (fst (let! n := lps_w name in let! _ := tick (lenN n) in free (Ok (x06 :: ver :: hash ++ n))) <= 1 + lenN name + (1 + lenN name)) by nia.
    apply fst_seq_le; [apply lps_cost|]. intros e E. rewrite lps_same in E. rewrite fst_tick, (lps_work _ _ E). cbn. lia.
  - cbn. lia.
  - apply every2_Forall2 in M. pose proof (loop_work l H _ M) as W. cbv zeta in W. unfold size. cbn [wser]. rewrite lenN_cons, lenN_app, lenN_be.
    set (t := lenN (flat_map wser l0)) in *. fold loop_w. rewrite fst_tick; cbv beta.
    enough (fst (let! n := free (enc_len32 (lenN l)) in let! _ := tick 4 in let! e := loop_w l in free (Ok (x0b :: n ++ e))) <= 4 + (t * t + t + 0)) by nia.
    apply fst_free_le. intros n _. rewrite fst_tick; cbv beta. apply N.add_le_mono_l. apply fst_seq_le; [exact W|]. intros. cbn. lia.
  - apply every2_Forall2 in M. pose proof (loop_entries_work l H _ M) as W. cbv zeta in W. unfold size. cbn [wser]. rewrite lenN_cons, lenN_app, lenN_be.
    fold wentry. change (fun kv : bytes * wval => big_endian 1 (count (fst kv)) ++ fst kv ++ wser (snd kv)) with wentry.
    set (t := lenN (flat_map wentry l0)) in *. fold loop_entries_w. rewrite fst_tick; cbv beta.
    enough (fst (let! n := free (enc_len32 (lenN l)) in let! _ := tick 4 in let! e := loop_entries_w l in free (Ok (x0c :: n ++ e))) <= 4 + (t * t + t + 0)) by nia.
    apply fst_free_le. intros n _. rewrite fst_tick; cbv beta. apply N.add_le_mono_l. apply fst_seq_le; [exact W|]. intros. cbn. lia.
  - unfold size. cbn [wser]. rewrite lenN_cons, lenN_app, lenN_be. pose proof (text_work x0d s0). destruct (is_ascii s0); [nia|]. rewrite fst_tick; cbn [fst free]. nia.
  - unfold size. cbn [wser]. rewrite lenN_cons, lenN_app, lenN_be. pose proof (text_work x0e s0). nia.
  - unfold size. cbn [wser]. rewrite lenN_app, lenN_be. pose proof (lps_cost s0). nia.
  - apply every2_Forall2 in M. pose proof (loop_work l H _ M) as W. cbv zeta in W. unfold size. cbn [wser]. rewrite lenN_app, lenN_be.
    set (t := lenN (flat_map wser l0)) in *. fold loop_w.
    enough (fst (let! n := free (enc_len32 (lenN l)) in let! _ := tick 4 in let! e := loop_w l in free (Ok (n ++ e))) <= 4 + (t * t + t + 0)) by nia.
    apply fst_free_le. intros n _. rewrite fst_tick; cbv beta. apply N.add_le_mono_l. apply fst_seq_le; [exact W|]. intros. cbn. lia.
Qed.

Section Bounds.
  Variable dw : bytes -> counted cval.
  Hypothesis R : forall bs v, snd (dw bs) = Ok v -> reads bs v.
  Hypothesis A : forall bs v w, snd (dw bs) = Ok v -> means v w -> fst (dw bs) <= size w * size w * size w.
  Hypothesis B : forall bs, fst (dw bs) <= (lenN bs + 1) * (lenN bs + 1) * (lenN bs + 1).

  Lemma step_read bs v : snd (dw bs) = Ok v -> exists w t, bs = wser w ++ t /\ means v w /\ 1 <= size w
    /\ fst (dw bs) <= size w * size w * size w.
  Proof using R A B.
    intros V. destruct (R _ _ V) as (w & t & E & D & M). apply canonical_means in M. exists w, t. split; [exact E|]. split; [exact M|].
    pose proof (decodable_nonempty _ D). split; [unfold size, lenN; lia|]. exact (A _ _ _ V M).
  Qed.

  (** Successful elements cost by their own size. *)
  Lemma items_success g : forall n bs vs ws, snd (items_w dw g n bs) = Ok vs -> Forall2 means vs ws ->
    let t := lenN (flat_map wser ws) in fst (items_w dw g n bs) <= t * t * t + t * t.
  Proof using R A B.
    induction g as [|g IH]; intros n bs vs ws H M; cbn [items_w] in H |- *; destruct (n =? 0); cbv zeta; try (cbn; lia).
    rewrite !snd_seq in H. destruct (snd (dw bs)) as [v| | |] eqn:V; try discriminate H. cbn [bind] in H.
    rewrite !snd_seq in H. destruct (snd (encode_w v)) as [e| | |] eqn:E; try discriminate H. cbn [bind] in H.
    rewrite !snd_seq, snd_free in H. destruct (drop_slice (length e) bs) as [r| | |] eqn:D; try discriminate H. cbn [bind] in H.
    rewrite snd_seq in H. destruct (snd (items_w dw g (n - 1) r)) as [us| | |] eqn:U; try discriminate H. cbn [bind] in H. rewrite snd_free in H.
    okinv H. inversion M as [|? w ? ws' Mv Mu]; subst. specialize (IH _ _ _ _ U Mu). cbv zeta in IH. cbn [flat_map]. rewrite lenN_app.
    fold (size w). set (t := lenN (flat_map wser ws')) in *. pose proof (A _ _ _ V Mv) as Wd. pose proof (encode_bound _ _ Mv) as We.
    unfold seq. rewrite V, E. cbn [free fst snd]. rewrite D. cbn [fst snd]. rewrite U. cbn [fst snd].
    pose proof (squares (size w) t). pose proof (cubes (size w) t). lia.
  Qed.

  Lemma entries_success g : forall n bs vs ws, snd (entries_w dw g n bs) = Ok vs ->
    Forall2 (fun a b => fst a = fst b /\ means (snd a) (snd b)) vs ws ->
    let t := lenN (flat_map wentry ws) in fst (entries_w dw g n bs) <= t * t * t + t * t.
  Proof using R A B.
    induction g as [|g IH]; intros n bs vs ws H M; cbn [entries_w] in H |- *; destruct (n =? 0); cbv zeta; try (cbn; lia).
    rewrite !snd_seq, snd_free in H. destruct (index 0 bs) as [kl| | |] eqn:I0; try discriminate H. cbn [bind] in H.
    rewrite !snd_seq, snd_free in H. destruct (drop_slice 1 bs) as [r0| | |] eqn:D0; try discriminate H. cbn [bind] in H.
    rewrite !snd_seq, snd_free in H. destruct (take_slice (b2n kl) r0) as [k0| | |] eqn:T0; try discriminate H. cbn [bind] in H.
    rewrite !snd_seq, snd_free in H. destruct (from_utf8 k0) as [k| | |] eqn:U0; try discriminate H. cbn [bind] in H.
    rewrite !snd_seq, snd_free in H. destruct (drop_slice (length k) r0) as [r1| | |] eqn:D1; try discriminate H. cbn [bind] in H.
    rewrite !snd_seq in H. destruct (snd (dw r1)) as [v| | |] eqn:V; try discriminate H. cbn [bind] in H.
    rewrite !snd_seq in H. destruct (snd (encode_w v)) as [e| | |] eqn:E; try discriminate H. cbn [bind] in H.
    rewrite !snd_seq, snd_free in H. destruct (drop_slice (length e) r1) as [r2| | |] eqn:D2; try discriminate H. cbn [bind] in H.
    rewrite snd_seq in H. destruct (snd (entries_w dw g (n - 1) r2)) as [us| | |] eqn:U; try discriminate H. cbn [bind] in H. rewrite snd_free in H.
    okinv H. inversion M as [|? [k' w] ? ws' [Kv Mv] Mu]; subst. cbn [fst snd] in Kv, Mv. subst k'. specialize (IH _ _ _ _ U Mu). cbv zeta in IH.
    cbn [flat_map]. rewrite lenN_app. set (t := lenN (flat_map wentry ws')) in *.
    assert (L : size w <= lenN (wentry (k, w))) by (unfold wentry; cbn [fst snd]; rewrite !lenN_app; unfold size; lia).
    set (z := lenN (wentry (k, w))) in *. pose proof (A _ _ _ V Mv) as Wd. pose proof (encode_bound _ _ Mv) as We.
    unfold seq. repeat (cbn [free fst snd]; first [rewrite I0 | rewrite D0 | rewrite T0 | rewrite U0 | rewrite D1 | rewrite V | rewrite E | rewrite D2]).
    cbn [free fst snd]. rewrite U. cbn [fst snd].
    pose proof (squares z t). pose proof (cubes z t). pose proof (square_mono _ _ L). pose proof (cube_mono _ _ L). lia.
  Qed.

  (** Any outcome: by what is left of the input. *)
  Lemma items_bound g : forall n bs, let m := lenN bs in fst (items_w dw g n bs) <= (m + 1) * (m + 1) * (m + 1) + m * m.
  Proof using R A B.
    induction g as [|g IH]; intros n bs; cbn [items_w]; destruct (n =? 0); cbv zeta; try (cbn; lia). set (m := lenN bs).
    unfold seq at 1. destruct (snd (dw bs)) as [v| | |] eqn:V; cbn [fst]; try (pose proof (B bs); unfold m; lia).
    destruct (step_read _ _ V) as (w & t & -> & M & S1 & Wd). pose proof (encode_bound _ _ M) as We.
    assert (Em : m = size w + lenN t) by (unfold m; rewrite lenN_app; reflexivity). clearbody m.
    unfold seq at 1. destruct (snd (encode_w v)) as [e| | |] eqn:E; cbn [fst];
      try (pose proof (square_mono (size w) m ltac:(lia)); pose proof (cube_mono (size w) (m + 1) ltac:(lia)); lia).
    assert (Le : e = wser w) by (rewrite encode_same in E; apply (encode_of_means _ _ _ M E)). subst e. rewrite drop_slice_app.
    unfold seq, free at 1. cbn [fst snd].
    specialize (IH (n - 1) t). cbv zeta in IH. pose proof (squares (size w) (lenN t)). pose proof (cubes (size w) (lenN t + 1)).
    replace (size w + (lenN t + 1)) with (m + 1) in * by lia. rewrite <- Em in *.
    destruct (snd (items_w dw g (n - 1) t)); cbn [fst free]; lia.
  Qed.

  Lemma entries_bound g : forall n bs, let m := lenN bs in fst (entries_w dw g n bs) <= (m + 1) * (m + 1) * (m + 1) + m * m.
  Proof using R A B.
    induction g as [|g IH]; intros n bs; cbn [entries_w]; destruct (n =? 0); cbv zeta; try (cbn; lia). set (m := lenN bs).
    apply fst_free_le. intros kl I0. apply fst_free_le. intros r0 D0. apply fst_free_le. intros k0 T0. apply fst_free_le. intros k U0.
    apply fst_free_le. intros r1 D1.
    assert (L1 : lenN r1 <= m) by (unfold m, lenN; destruct (drop_len _ _ _ D0), (drop_len _ _ _ D1); lia). clearbody m.
    unfold seq at 1. destruct (snd (dw r1)) as [v| | |] eqn:V; cbn [fst]; try (pose proof (B r1); pose proof (cube_mono (lenN r1 + 1) (m + 1) ltac:(lia)); lia).
    destruct (step_read _ _ V) as (w & t & -> & M & S1 & Wd). pose proof (encode_bound _ _ M) as We.
    assert (Em : size w + lenN t <= m) by (rewrite lenN_app in L1; exact L1). clear L1.
    unfold seq at 1. destruct (snd (encode_w v)) as [e| | |] eqn:E; cbn [fst];
      try (pose proof (square_mono (size w) m ltac:(lia)); pose proof (cube_mono (size w) (m + 1) ltac:(lia)); lia).
    assert (Le : e = wser w) by (rewrite encode_same in E; apply (encode_of_means _ _ _ M E)). subst e. rewrite drop_slice_app.
    unfold seq, free at 1. cbn [fst snd].
    specialize (IH (n - 1) t). cbv zeta in IH. pose proof (squares (size w) (lenN t)). pose proof (cubes (size w) (lenN t + 1)).
    pose proof (square_mono _ _ Em). pose proof (cube_mono (size w + (lenN t + 1)) (m + 1) ltac:(lia)).
    destruct (snd (entries_w dw g (n - 1) t)); cbn [fst free]; lia.
  Qed.

  Lemma wrap_success t mk bs v : snd (wrap_w dw t mk bs) = Ok v ->
    exists u r, v = mk u /\ snd (dw r) = Ok u /\ fst (wrap_w dw t mk bs) = fst (dw r).
  Proof using R A B.
    unfold wrap_w. intros H.
    rewrite ?snd_seq, snd_free in H. destruct (check_id t bs) as [?| | |] eqn:C; try discriminate H. cbn [bind] in H.
    rewrite ?snd_seq, snd_free in H. destruct (drop_slice 1 bs) as [r| | |] eqn:D; try discriminate H. cbn [bind] in H.
    rewrite ?snd_seq in H. destruct (snd (dw r)) as [u| | |] eqn:U; try discriminate H. cbn [bind] in H. rewrite snd_free in H. okinv H.
    exists u, r. split; [reflexivity|]. split; [exact U|].
    unfold seq. cbn [free fst snd]. rewrite U. cbn [fst snd]. lia.
  Qed.

  Lemma wrap_bound t mk bs : 1 + fst (wrap_w dw t mk bs) <= (lenN bs + 1) * (lenN bs + 1) * (lenN bs + 1).
  Proof using R A B.
    enough (fst (wrap_w dw t mk bs) <= lenN bs * lenN bs * lenN bs) by lia.
    unfold wrap_w. apply fst_free_le. intros uu C. apply check_id_inv in C. destruct C as [r ->]. rewrite drop1. apply fst_free_le. intros r' D.
    okinv D. rewrite lenN_cons. pose proof (B r').
    rewrite <- (N.add_0_r (_ * _ * _)). apply fst_seq_le; [rewrite (N.add_comm 1); assumption|]. intros u _. cbn. lia.
  Qed.

  Lemma list_success bs v : snd (list_w dw bs) = Ok v ->
    exists vs, v = CList vs /\ forall ws, Forall2 means vs ws -> let t := lenN (flat_map wser ws) in fst (list_w dw bs) <= t * t * t + t * t.
  Proof using R A B.
    unfold list_w. intros H.
    rewrite ?snd_seq, snd_free in H. destruct (check_id TList bs) as [?| | |] eqn:C; try discriminate H. cbn [bind] in H.
    rewrite ?snd_seq, snd_free in H. destruct (read_len32 bs) as [n| | |] eqn:N0; try discriminate H. cbn [bind] in H.
    rewrite ?snd_seq, snd_free in H. destruct (drop_slice 5 bs) as [r| | |] eqn:D; try discriminate H. cbn [bind] in H.
    rewrite ?snd_seq in H. destruct (snd (items_w dw (S (length r)) n r)) as [us| | |] eqn:U; try discriminate H. cbn [bind] in H. rewrite snd_free in H. okinv H.
    exists us. split; [reflexivity|]. intros ws M. pose proof (items_success _ _ _ _ _ U M) as W. cbv zeta in W |- *.
    unfold seq. cbn [free fst snd]. rewrite U. cbn [fst snd]. lia.
  Qed.

  Lemma tuple_success bs v : snd (tuple_w dw bs) = Ok v ->
    exists vs, v = CTuple vs /\ forall ws, Forall2 (fun a b => fst a = fst b /\ means (snd a) (snd b)) vs ws ->
      let t := lenN (flat_map wentry ws) in fst (tuple_w dw bs) <= t * t * t + t * t.
  Proof using R A B.
    unfold tuple_w. intros H.
    rewrite ?snd_seq, snd_free in H. destruct (check_id TTuple bs) as [?| | |] eqn:C; try discriminate H. cbn [bind] in H.
    rewrite ?snd_seq, snd_free in H. destruct (read_len32 bs) as [n| | |] eqn:N0; try discriminate H. cbn [bind] in H.
    rewrite ?snd_seq, snd_free in H. destruct (drop_slice 5 bs) as [r| | |] eqn:D; try discriminate H. cbn [bind] in H.
    rewrite ?snd_seq in H. destruct (snd (entries_w dw (S (length r)) n r)) as [us| | |] eqn:U; try discriminate H. cbn [bind] in H. rewrite snd_free in H. okinv H.
    exists us. split; [reflexivity|]. intros ws M. pose proof (entries_success _ _ _ _ _ U M) as W. cbv zeta in W |- *.
    unfold seq. cbn [free fst snd]. rewrite U. cbn [fst snd]. lia.
  Qed.

  Lemma after_five k m : m = k + 5 -> 1 + ((k + 1) * (k + 1) * (k + 1) + k * k) <= (m + 1) * (m + 1) * (m + 1).
  Proof using R A B. intros ->. lia. Qed.
  Lemma list_bound bs : 1 + fst (list_w dw bs) <= (lenN bs + 1) * (lenN bs + 1) * (lenN bs + 1).
  Proof using R A B.
    enough (H : forall r, @drop_slice cl_err 5 bs = Ok r -> forall n, fst (items_w dw (S (length r)) n r) <= (lenN bs + 1) * (lenN bs + 1) * (lenN bs + 1) - 1).
    { enough (fst (list_w dw bs) <= (lenN bs + 1) * (lenN bs + 1) * (lenN bs + 1) - 1) by lia.
      unfold list_w. apply fst_free_le. intros uu _. apply fst_free_le. intros n _. apply fst_free_le. intros r D.
      rewrite <- (N.add_0_r (_ - _)). apply fst_seq_le; [exact (H r D n)|]. intros us _. cbn. lia. }
    intros r D n. pose proof (items_bound (S (length r)) n r) as W. cbv zeta in W.
    destruct (drop_len _ _ _ D). pose proof (after_five (lenN r) (lenN bs) ltac:(unfold lenN; lia)). lia.
  Qed.
  Lemma tuple_bound bs : 1 + fst (tuple_w dw bs) <= (lenN bs + 1) * (lenN bs + 1) * (lenN bs + 1).
  Proof using R A B.
    enough (H : forall r, @drop_slice cl_err 5 bs = Ok r -> forall n, fst (entries_w dw (S (length r)) n r) <= (lenN bs + 1) * (lenN bs + 1) * (lenN bs + 1) - 1).
    { enough (fst (tuple_w dw bs) <= (lenN bs + 1) * (lenN bs + 1) * (lenN bs + 1) - 1) by lia.
      unfold tuple_w. apply fst_free_le. intros uu _. apply fst_free_le. intros n _. apply fst_free_le. intros r D.
      rewrite <- (N.add_0_r (_ - _)). apply fst_seq_le; [exact (H r D n)|]. intros us _. cbn. lia. }
    intros r D n. pose proof (entries_bound (S (length r)) n r) as W. cbv zeta in W.
    destruct (drop_len _ _ _ D). pose proof (after_five (lenN r) (lenN bs) ltac:(unfold lenN; lia)). lia.
  Qed.
End Bounds.

Lemma size_ge f bs v w : decode_fuel f bs = Ok v -> means v w -> 1 <= size w.
Proof.
  intros D M. apply decode_sound in D. destruct D as (w' & t & _ & D & M'). apply canonical_means in M'. rewrite (means_fun _ _ _ M M').
  pose proof (decodable_nonempty _ D). unfold size, lenN. lia.
Qed.

Lemma cube_ge a : 1 <= a -> 1 <= a * a * a.
Proof. nia. Qed.

Lemma node_success w s : size w = 1 + s -> forall c, c <= s * s * s -> 1 + c <= size w * size w * size w.
Proof. intros ->. intros c. lia. Qed.
Lemma node_success5 w s : size w = 5 + s -> forall c, c <= s * s * s + s * s -> 1 + c <= size w * size w * size w.
Proof. intros ->. intros c. lia. Qed.

Lemma decode_bounds f :
  (forall bs v w, snd (decode_w f bs) = Ok v -> means v w -> fst (decode_w f bs) <= size w * size w * size w)
  /\ forall bs, fst (decode_w f bs) <= (lenN bs + 1) * (lenN bs + 1) * (lenN bs + 1).
Proof.
  induction f as [|f [IA IB]]; [split; [intros bs v w H; discriminate H | intros bs; cbn; lia]|].
  assert (IR : forall bs v, snd (decode_w f bs) = Ok v -> reads bs v) by (intros bs v H; rewrite decode_same in H; exact (decode_sound f bs v H)).
  assert (T : forall b r, fst (decode_w (S f) (b :: r)) =
    match b with
    | x07 => 1 + fst (wrap_w (decode_w f) TRespOk CRespOk (b :: r)) | x08 => 1 + fst (wrap_w (decode_w f) TRespErr CRespErr (b :: r))
    | x0a => 1 + fst (wrap_w (decode_w f) TSome CSome (b :: r))
    | x0b => 1 + fst (list_w (decode_w f) (b :: r)) | x0c => 1 + fst (tuple_w (decode_w f) (b :: r))
    | _ => 1
    end) by (intros b r; destruct b; reflexivity).
  assert (Q : forall b r, snd (decode_w (S f) (b :: r)) =
    match b with
    | x07 => snd (wrap_w (decode_w f) TRespOk CRespOk (b :: r)) | x08 => snd (wrap_w (decode_w f) TRespErr CRespErr (b :: r))
    | x0a => snd (wrap_w (decode_w f) TSome CSome (b :: r))
    | x0b => snd (list_w (decode_w f) (b :: r)) | x0c => snd (tuple_w (decode_w f) (b :: r))
    | _ => snd (decode_w (S f) (b :: r))
    end) by (intros b r; destruct b; reflexivity).
  split.
  - intros bs v w H M. destruct bs as [|b r]; [discriminate H|]. pose proof (size_ge (S f) (b :: r) v w) as G. rewrite <- decode_same in G.
    specialize (G H M). rewrite T. rewrite Q in H.
    destruct b; try exact (cube_ge _ G).
    + destruct (wrap_success (decode_w f) IR IA IB _ _ _ _ H) as (u & r0 & -> & U & ->). destruct w; try contradiction.
      apply (node_success _ (size w)); [apply lenN_cons | exact (IA _ _ _ U M)].
    + destruct (wrap_success (decode_w f) IR IA IB _ _ _ _ H) as (u & r0 & -> & U & ->). destruct w; try contradiction.
      apply (node_success _ (size w)); [apply lenN_cons | exact (IA _ _ _ U M)].
    + destruct (wrap_success (decode_w f) IR IA IB _ _ _ _ H) as (u & r0 & -> & U & ->). destruct w; try contradiction.
      apply (node_success _ (size w)); [apply lenN_cons | exact (IA _ _ _ U M)].
    + destruct (list_success (decode_w f) IR IA IB _ _ H) as (vs & -> & W). destruct w; try contradiction. cbn [denotes] in M. apply every2_Forall2 in M.
      apply (node_success5 _ (lenN (flat_map wser l))); [|exact (W _ M)]. unfold size. cbn [wser]. rewrite lenN_cons, lenN_app, lenN_be. lia.
    + destruct (tuple_success (decode_w f) IR IA IB _ _ H) as (vs & -> & W). destruct w; try contradiction. cbn [denotes] in M. apply every2_Forall2 in M.
      apply (node_success5 _ (lenN (flat_map wentry l))); [|exact (W _ M)]. unfold size. cbn [wser].
      change (fun kv : bytes * wval => big_endian 1 (count (fst kv)) ++ fst kv ++ wser (snd kv)) with wentry.
      rewrite lenN_cons, lenN_app, lenN_be. lia.
  - intros bs. destruct bs as [|b r]; [cbn; lia|]. rewrite T. pose proof (cube_ge (lenN (b :: r) + 1) ltac:(lia)) as G.
    destruct b; try exact G; (apply wrap_bound || apply list_bound || apply tuple_bound); assumption.
Qed.

Theorem decode_bound bs : decode_work bs <= (lenN bs + 1) * (lenN bs + 1) * (lenN bs + 1).
Proof. apply decode_bounds. Qed.

(** ** Lower bounds *)

(** A value inside [k] one-element lists. *)
Fixpoint nested (k : nat) : cval := match k with O => CNone | S k => CList [nested k] end.
Fixpoint nested_bytes (k : nat) : bytes := match k with O => [x09] | S k => [x0b; x00; x00; x00; x01] ++ nested_bytes k end.

Lemma nested_length k : lenN (nested_bytes k) = 5 * N.of_nat k + 1.
Proof. induction k as [|k IH]; [reflexivity|]. cbn [nested_bytes]. rewrite lenN_app, IH. change (lenN [x0b; x00; x00; x00; x01]) with 5. lia. Qed.
Lemma nested_encode k : snd (encode_w (nested k)) = Ok (nested_bytes k)
  /\ 2 * fst (encode_w (nested k)) = 5 * N.of_nat k * N.of_nat k + 7 * N.of_nat k + 2.
Proof.
  induction k as [|k [E W]]; [split; reflexivity|]. cbn [nested encode_w]. fold loop_w.
  change (enc_len32 (lenN [nested k])) with (@Ok cl_err bytes [x00; x00; x00; x01]). split.
  - same. cbn [loop_w]. same. rewrite E. same. rewrite app_nil_r. reflexivity.
  - cbn [loop_w]. unfold seq. cbn [free tick fst snd]. rewrite E. cbn [fst snd]. rewrite nested_length. lia.
Qed.

Lemma nested_decode k : forall f, (k < f)%nat -> snd (decode_w f (nested_bytes k)) = Ok (nested k)
  /\ 5 * N.of_nat k * N.of_nat k * N.of_nat k <= 6 * fst (decode_w f (nested_bytes k)).
Proof.
  induction k as [|k IH]; intros f L; (destruct f as [|f]; [lia|]); [split; [reflexivity | cbn; lia]|].
  destruct (IH f ltac:(lia)) as [D W]. destruct (nested_encode k) as [E X]. cbn [nested_bytes nested decode_w].
  assert (I : forall g, items_w (decode_w f) (S g) 1 (nested_bytes k)
                        = (fst (decode_w f (nested_bytes k)) + fst (encode_w (nested k)), Ok [nested k])).
  { intros g. cbn [items_w]. change (1 =? 0) with false. cbn iota. unfold seq. rewrite D. cbn [fst snd]. rewrite E. cbn [free fst snd].
    assert (Z : drop_slice (length (nested_bytes k)) (nested_bytes k) = @Ok cl_err bytes [])
      by (rewrite <- (app_nil_r (nested_bytes k)) at 2; apply drop_slice_app).
    rewrite Z. change (1 - 1) with 0. destruct g; cbn [items_w N.eqb free fst snd]; rewrite !N.add_0_r; reflexivity. }
  assert (H : list_w (decode_w f) ([x0b; x00; x00; x00; x01] ++ nested_bytes k)
              = (fst (decode_w f (nested_bytes k)) + fst (encode_w (nested k)), Ok (CList [nested k]))).
  { unfold list_w.
    change (check_id TList ([x0b; x00; x00; x00; x01] ++ nested_bytes k)) with (@Ok cl_err unit tt).
    change (read_len32 ([x0b; x00; x00; x00; x01] ++ nested_bytes k)) with (@Ok cl_err N 1).
    change (drop_slice 5 ([x0b; x00; x00; x00; x01] ++ nested_bytes k)) with (@Ok cl_err bytes (nested_bytes k)).
    unfold seq. cbn [free fst snd]. rewrite !I. cbn [fst snd]. rewrite !N.add_0_r. reflexivity. }
  change (index 0 ([x0b; x00; x00; x00; x01] ++ nested_bytes k)) with (@Ok cl_err byte x0b).
  unfold seq, tick. cbn [free fst snd]. rewrite H. cbn [fst snd]. split; [reflexivity|].
  remember (fst (decode_w f (nested_bytes k))) as a. remember (fst (encode_w (nested k))) as b. clear - W X.
  replace (N.of_nat (S k)) with (N.of_nat k + 1) by lia. set (n := N.of_nat k) in *. clearbody n. lia.
Qed.
