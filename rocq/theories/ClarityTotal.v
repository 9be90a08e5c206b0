(** Termination, trailing bytes and panics of the Clarity decoder. *)

From Coq Require Import Lia ZifyBool ZifyNat ZifyN.
From Verif Require Import Base BaseFacts Utf8 C32 SpecText SpecAddr Clarity SpecWire AddrFacts WireFacts ClarityFacts.
Local Open Scope N_scope.

(** ** Fuel does not matter *)

Definition sound (dec : bytes -> res cl_err cval) : Prop := forall bs c, dec bs = Ok c -> reads bs c.

Lemma reads_enc_len bs v e : reads bs v -> encode v = Ok e -> (1 <= length e)%nat.
Proof.
  intros (w & t & -> & D & M) E. destruct (encode_of_means _ _ _ (canonical_means _ _ M) E) as [_ ->].
  apply decodable_nonempty. exact D.
Qed.

Lemma drop_len {E} n bs r : @drop_slice E n bs = Ok r -> length r = (length bs - n)%nat /\ (n <= length bs)%nat.
Proof. rewrite drop_slice_ok. intros (a & -> & <-). rewrite app_length. lia. Qed.

Lemma dec_items_ext dec dec' : sound dec -> forall g g' n bs,
  (forall b, (length b <= length bs)%nat -> dec b = dec' b) -> (length bs < g)%nat -> (length bs < g')%nat ->
  dec_items dec g n bs = dec_items dec' g' n bs.
Proof.
  intros HS. induction g as [|g IH]; intros g' n bs HX G G'; [lia|].
  destruct g' as [|g']; [lia|]. cbn [dec_items]. destruct (N.eqb_spec n 0); [reflexivity|].
  rewrite <- HX by lia. destruct (dec bs) as [v| | |] eqn:Dv; cbn [bind]; [|reflexivity..].
  destruct (encode v) as [e| | |] eqn:Ev; cbn [bind]; [|reflexivity..].
  destruct (drop_slice (length e) bs) as [r| | |] eqn:Dr; cbn [bind]; [|reflexivity..].
  pose proof (reads_enc_len _ _ _ (HS _ _ Dv) Ev). destruct (drop_len _ _ _ Dr).
  rewrite (IH g' (n - 1) r); [reflexivity | | lia..]. intros b Hb. apply HX. lia.
Qed.

Lemma dec_entries_ext dec dec' : sound dec -> forall g g' n bs,
  (forall b, (length b <= length bs)%nat -> dec b = dec' b) -> (length bs < g)%nat -> (length bs < g')%nat ->
  dec_entries dec g n bs = dec_entries dec' g' n bs.
Proof.
  intros HS. induction g as [|g IH]; intros g' n bs HX G G'; [lia|].
  destruct g' as [|g']; [lia|]. cbn [dec_entries]. destruct (N.eqb_spec n 0); [reflexivity|].
  destruct (index 0 bs) as [kl| | |] eqn:I0; cbn [bind]; [|reflexivity..].
  destruct (drop_slice 1 bs) as [r0| | |] eqn:D0; cbn [bind]; [|reflexivity..].
  destruct (take_slice (b2n kl) r0) as [k| | |] eqn:T0; cbn [bind]; [|reflexivity..].
  destruct (from_utf8 k) as [k'| | |] eqn:U0; cbn [bind]; [|reflexivity..].
  destruct (drop_slice (length k') r0) as [r1| | |] eqn:D1; cbn [bind]; [|reflexivity..].
  destruct (drop_len _ _ _ D0), (drop_len _ _ _ D1).
  rewrite <- HX by lia. destruct (dec r1) as [v| | |] eqn:Dv; cbn [bind]; [|reflexivity..].
  destruct (encode v) as [e| | |] eqn:Ev; cbn [bind]; [|reflexivity..].
  destruct (drop_slice (length e) r1) as [r| | |] eqn:Dr; cbn [bind]; [|reflexivity..].
  pose proof (reads_enc_len _ _ _ (HS _ _ Dv) Ev). destruct (drop_len _ _ _ Dr).
  rewrite (IH g' (n - 1) r); [reflexivity | | lia..]. intros b Hb. apply HX. lia.
Qed.

Lemma dec_wrap_ext dec dec' t mk bs : (forall b, (length b < length bs)%nat -> dec b = dec' b) ->
  dec_wrap dec t mk bs = dec_wrap dec' t mk bs.
Proof.
  intros HX. unfold dec_wrap. destruct (check_id t bs) eqn:C; cbn [bind]; [|reflexivity..].
  apply check_id_inv in C. destruct C as [r ->]. rewrite drop1. cbn [bind]. rewrite HX by (cbn; lia). reflexivity.
Qed.

Lemma dec_list_ext dec dec' bs : sound dec -> (forall b, (length b < length bs)%nat -> dec b = dec' b) ->
  dec_list dec bs = dec_list dec' bs.
Proof.
  intros HS HX. unfold dec_list. destruct (check_id TList bs); cbn [bind]; [|reflexivity..].
  destruct (read_len32 bs); cbn [bind]; [|reflexivity..].
  destruct (drop_slice 5 bs) as [r| | |] eqn:D; cbn [bind]; [|reflexivity..].
  destruct (drop_len _ _ _ D).
  rewrite (dec_items_ext dec dec' HS (S (length r)) (S (length r))); [reflexivity | | lia..].
  intros b Hb. apply HX. lia.
Qed.

Lemma dec_tuple_ext dec dec' bs : sound dec -> (forall b, (length b < length bs)%nat -> dec b = dec' b) ->
  dec_tuple dec bs = dec_tuple dec' bs.
Proof.
  intros HS HX. unfold dec_tuple. destruct (check_id TTuple bs); cbn [bind]; [|reflexivity..].
  destruct (read_len32 bs); cbn [bind]; [|reflexivity..].
  destruct (drop_slice 5 bs) as [r| | |] eqn:D; cbn [bind]; [|reflexivity..].
  destruct (drop_len _ _ _ D).
  rewrite (dec_entries_ext dec dec' HS (S (length r)) (S (length r))); [reflexivity | | lia..].
  intros b Hb. apply HX. lia.
Qed.

Ltac known_tags B :=
  apply known_tag in B; cbn [In] in B;
  repeat match type of B with _ \/ _ => destruct B as [<- | B] end; [..|destruct B].

Lemma fuel_irrelevant f : forall f' bs, (length bs < f)%nat -> (length bs < f')%nat ->
  decode_fuel f bs = decode_fuel f' bs.
Proof.
  induction f as [|f IH]; intros f' bs L L'; [lia|]. destruct f' as [|f']; [lia|].
  destruct bs as [|b r]; [reflexivity|]. cbn [length] in L, L'.
  destruct (tag_cases b) as [b B | b B U]; [|rewrite !U; reflexivity].
  assert (HX : forall b0, (length b0 < length (b :: r))%nat -> decode_fuel f b0 = decode_fuel f' b0).
  { intros b0 H0. cbn [length] in H0. apply IH; lia. }
  known_tags B; [reflexivity..| | |reflexivity| | | |reflexivity|reflexivity].
  - apply (dec_wrap_ext (decode_fuel f) (decode_fuel f')); exact HX.
  - apply (dec_wrap_ext (decode_fuel f) (decode_fuel f')); exact HX.
  - apply (dec_wrap_ext (decode_fuel f) (decode_fuel f')); exact HX.
  - apply (dec_list_ext (decode_fuel f) (decode_fuel f')); [exact (decode_sound f) | exact HX].
  - apply (dec_tuple_ext (decode_fuel f) (decode_fuel f')); [exact (decode_sound f) | exact HX].
Qed.

Lemma decode_fuel_enough f bs : (length bs < f)%nat -> decode_fuel f bs = decode_clarity_type bs.
Proof. intros H. apply fuel_irrelevant; lia. Qed.

(** The equations of the Rust function. *)
Lemma decode_wrap_eq t mk wt r : In (t, mk, wt) [(TRespOk, CRespOk, x07); (TRespErr, CRespErr, x08); (TSome, CSome, x0a)] ->
  decode_clarity_type (wt :: r) = dec_wrap decode_clarity_type t mk (wt :: r).
Proof.
  intros H. transitivity (dec_wrap (decode_fuel (S (length r))) t mk (wt :: r)).
  - cbn [In] in H. destruct H as [[= <- <- <-] | [[= <- <- <-] | [[= <- <- <-] | []]]]; reflexivity.
  - apply dec_wrap_ext. intros b Hb. apply decode_fuel_enough. exact Hb.
Qed.
Lemma decode_list_eq r : decode_clarity_type (x0b :: r) = dec_list decode_clarity_type (x0b :: r).
Proof.
  transitivity (dec_list (decode_fuel (S (length r))) (x0b :: r)); [reflexivity|].
  apply dec_list_ext; [exact (decode_sound _)|]. intros b Hb. apply decode_fuel_enough. exact Hb.
Qed.
Lemma decode_tuple_eq r : decode_clarity_type (x0c :: r) = dec_tuple decode_clarity_type (x0c :: r).
Proof.
  transitivity (dec_tuple (decode_fuel (S (length r))) (x0c :: r)); [reflexivity|].
  apply dec_tuple_ext; [exact (decode_sound _)|]. intros b Hb. apply decode_fuel_enough. exact Hb.
Qed.

Lemma decode_unknown b r : 15 <= b2n b -> decode_clarity_type (b :: r) = Err (ClUnexpectedType b).
Proof. intros H. destruct (tag_cases b) as [b B | b B U]; [lia | apply U]. Qed.

(** A concrete decoder agrees with the generic one on its own tag. *)
Lemma decode_as_eq t r : In t [TInt; TUInt; TBuffer; TTrue; TFalse; TPrinStd; TPrinCon; TRespOk; TRespErr; TNone;
    TSome; TList; TTuple; TAscii; TUtf8] ->
  decode_as t (ty_id t :: r) = decode_clarity_type (ty_id t :: r).
Proof.
  intros H. cbn [In] in H.
  repeat match type of H with _ \/ _ => destruct H as [<- | H] end; [..|destruct H].
  1-7: reflexivity.
  - cbn [ty_id decode_as]. symmetry. apply decode_wrap_eq. cbn. auto.
  - cbn [ty_id decode_as]. symmetry. apply decode_wrap_eq. cbn. auto.
  - reflexivity.
  - cbn [ty_id decode_as]. symmetry. apply decode_wrap_eq. cbn. auto.
  - cbn [ty_id decode_as]. symmetry. apply decode_list_eq.
  - cbn [ty_id decode_as]. symmetry. apply decode_tuple_eq.
  - reflexivity.
  - reflexivity.
Qed.

(** ** Always an answer *)

Lemma bind_nofuel {E A B} (r : res E A) (k : A -> res E B) :
  r <> NoFuel -> (forall a, r = Ok a -> k a <> NoFuel) -> bind r k <> NoFuel.
Proof. destruct r; cbn; intros H1 H2; try congruence. apply H2. reflexivity. Qed.

Lemma index_nofuel {E} i bs : @index E i bs <> NoFuel.
Proof. unfold index. destruct (nth_error bs i); discriminate. Qed.
Lemma drop_nofuel {E} i bs : @drop_slice E i bs <> NoFuel.
Proof. unfold drop_slice. destruct (Nat.leb i (length bs)); discriminate. Qed.
Lemma sub_nofuel {E} i n bs : @sub_slice E i n bs <> NoFuel.
Proof. unfold sub_slice. destruct (Nat.leb (i + n) (length bs)); discriminate. Qed.
Lemma take_nofuel {E} i bs : @take_slice E i bs <> NoFuel.
Proof. rewrite take_slice_spec. destruct (i <=? lenN bs); discriminate. Qed.
Lemma from_utf8_nofuel s : from_utf8 s <> NoFuel.
Proof. unfold from_utf8. destruct (utf8_valid s); discriminate. Qed.
Lemma check_id_nofuel t s : check_id t s <> NoFuel.
Proof.
  unfold check_id. apply bind_nofuel; [apply index_nofuel|]. intros a _.
  destruct (byte_eqb a (ty_id t)); discriminate.
Qed.
Lemma read_len32_nofuel s : read_len32 s <> NoFuel.
Proof. unfold read_len32. repeat (apply bind_nofuel; [apply index_nofuel | intros ? _]). discriminate. Qed.
Lemma settled_not_nofuel {E A} (r : res E A) : settled r -> r <> NoFuel.
Proof. intros [[a ->] | [e ->]]; discriminate. Qed.
Lemma c32_address_settled h v : settled (c32_address h v).
Proof.
  assert (D : stacks_version v \/ ~ stacks_version v).
  { unfold stacks_version. destruct (in_dec N.eq_dec (Byte.to_N v) [20; 21; 22; 26]); auto. }
  destruct D as [V | V].
  - destruct (c32_address_ok h v V) as (s & -> & _). auto.
  - rewrite (c32_address_unknown h v V). auto.
Qed.
Lemma settled_map_err {E F A} (f : E -> F) (r : res E A) : settled r -> settled (map_err f r).
Proof. intros [[a ->] | [e ->]]; cbn; auto. Qed.
Lemma c32_address_nofuel h v : map_err ClC32 (c32_address h v) <> NoFuel.
Proof. apply settled_not_nofuel, settled_map_err, c32_address_settled. Qed.
#[export] Hint Resolve index_nofuel drop_nofuel sub_nofuel take_nofuel from_utf8_nofuel check_id_nofuel
  read_len32_nofuel c32_address_nofuel : nofuel.

Lemma encode_nofuel c : encode c <> NoFuel.
Proof. apply settled_not_nofuel, encode_settled. Qed.
#[export] Hint Resolve encode_nofuel : nofuel.

Ltac nofuel := repeat (apply bind_nofuel; [auto with nofuel | intros ? ?]); try discriminate.

Lemma dec_items_nofuel dec : sound dec -> forall g n bs,
  (forall b, (length b <= length bs)%nat -> dec b <> NoFuel) -> (length bs < g)%nat ->
  dec_items dec g n bs <> NoFuel.
Proof.
  intros HS. induction g as [|g IH]; intros n bs HX G; [lia|].
  cbn [dec_items]. destruct (N.eqb_spec n 0); [discriminate|].
  apply bind_nofuel; [apply HX; lia | intros v Dv].
  apply bind_nofuel; [auto with nofuel | intros e Ev].
  apply bind_nofuel; [auto with nofuel | intros r Dr].
  pose proof (reads_enc_len _ _ _ (HS _ _ Dv) Ev). destruct (drop_len _ _ _ Dr).
  apply bind_nofuel; [|discriminate]. apply IH; [|lia]. intros b Hb. apply HX. lia.
Qed.

Lemma dec_entries_nofuel dec : sound dec -> forall g n bs,
  (forall b, (length b <= length bs)%nat -> dec b <> NoFuel) -> (length bs < g)%nat ->
  dec_entries dec g n bs <> NoFuel.
Proof.
  intros HS. induction g as [|g IH]; intros n bs HX G; [lia|].
  cbn [dec_entries]. destruct (N.eqb_spec n 0); [discriminate|].
  apply bind_nofuel; [auto with nofuel | intros kl _].
  apply bind_nofuel; [auto with nofuel | intros r0 D0].
  apply bind_nofuel; [auto with nofuel | intros k _].
  apply bind_nofuel; [auto with nofuel | intros k' _].
  apply bind_nofuel; [auto with nofuel | intros r1 D1].
  destruct (drop_len _ _ _ D0), (drop_len _ _ _ D1).
  apply bind_nofuel; [apply HX; lia | intros v Dv].
  apply bind_nofuel; [auto with nofuel | intros e Ev].
  apply bind_nofuel; [auto with nofuel | intros r Dr].
  pose proof (reads_enc_len _ _ _ (HS _ _ Dv) Ev). destruct (drop_len _ _ _ Dr).
  apply bind_nofuel; [|discriminate]. apply IH; [|lia]. intros b Hb. apply HX. lia.
Qed.

Lemma decode_fuel_nofuel f : forall bs, (length bs < f)%nat -> decode_fuel f bs <> NoFuel.
Proof.
  induction f as [|f IH]; intros bs L; [lia|]. destruct bs as [|b r]; [discriminate|]. cbn [length] in L.
  destruct (tag_cases b) as [b B | b B U]; [|rewrite U; discriminate].
  known_tags B.
  - change (dec_int (x00 :: r) <> NoFuel). unfold dec_int. nofuel.
  - change (dec_uint (x01 :: r) <> NoFuel). unfold dec_uint. nofuel.
  - change (dec_buffer (x02 :: r) <> NoFuel). unfold dec_buffer. nofuel.
  - discriminate.
  - discriminate.
  - change (dec_prin_std (x05 :: r) <> NoFuel). unfold dec_prin_std. nofuel.
  - change (dec_prin_con (x06 :: r) <> NoFuel). unfold dec_prin_con. nofuel.
  - change (dec_wrap (decode_fuel f) TRespOk CRespOk (x07 :: r) <> NoFuel). unfold dec_wrap. rewrite drop1.
    cbn [bind]. apply bind_nofuel; [auto with nofuel | intros _ _]. apply bind_nofuel; [apply IH; lia | discriminate].
  - change (dec_wrap (decode_fuel f) TRespErr CRespErr (x08 :: r) <> NoFuel). unfold dec_wrap. rewrite drop1.
    cbn [bind]. apply bind_nofuel; [auto with nofuel | intros _ _]. apply bind_nofuel; [apply IH; lia | discriminate].
  - discriminate.
  - change (dec_wrap (decode_fuel f) TSome CSome (x0a :: r) <> NoFuel). unfold dec_wrap. rewrite drop1.
    cbn [bind]. apply bind_nofuel; [auto with nofuel | intros _ _]. apply bind_nofuel; [apply IH; lia | discriminate].
  - change (dec_list (decode_fuel f) (x0b :: r) <> NoFuel). unfold dec_list.
    apply bind_nofuel; [auto with nofuel | intros _ _]. apply bind_nofuel; [auto with nofuel | intros n _].
    apply bind_nofuel; [auto with nofuel | intros r1 D1]. destruct (drop_len _ _ _ D1). cbn [length] in *.
    apply bind_nofuel; [|discriminate]. apply dec_items_nofuel; [exact (decode_sound f) | | lia].
    intros b Hb. apply IH. lia.
  - change (dec_tuple (decode_fuel f) (x0c :: r) <> NoFuel). unfold dec_tuple.
    apply bind_nofuel; [auto with nofuel | intros _ _]. apply bind_nofuel; [auto with nofuel | intros n _].
    apply bind_nofuel; [auto with nofuel | intros r1 D1]. destruct (drop_len _ _ _ D1). cbn [length] in *.
    apply bind_nofuel; [|discriminate]. apply dec_entries_nofuel; [exact (decode_sound f) | | lia].
    intros b Hb. apply IH. lia.
  - change (dec_ascii (x0d :: r) <> NoFuel). unfold dec_ascii. nofuel.
  - change (dec_utf8 (x0e :: r) <> NoFuel). unfold dec_utf8. nofuel.
Qed.

Lemma decode_nofuel bs : decode_clarity_type bs <> NoFuel.
Proof. apply decode_fuel_nofuel. lia. Qed.

(** ** Trailing bytes *)

Ltac dead H := exfalso; first [exact (settled_panic _ H) | exact (settled_nofuel H)].

Lemma check_id_stable t bs s : settled (check_id t bs) -> check_id t (bs ++ s) = check_id t bs.
Proof. destruct bs as [|b r]; [intros H; dead H | reflexivity]. Qed.
Lemma read_len32_stable bs s : settled (read_len32 bs) -> read_len32 (bs ++ s) = read_len32 bs.
Proof. destruct bs as [|x [|a [|b [|c [|d t]]]]]; try (intros H; dead H; fail). reflexivity. Qed.

(** One step of a chain: the first computation is stable, continue with the rest. *)
Ltac st_step H L :=
  apply settled_bind_inv in H;
  let a := fresh "a" in let E := fresh "E" in let e := fresh "e" in
  destruct H as [(a & E & H) | (e & E)];
  [rewrite L by first [rewrite E; auto; fail | rewrite ?app_length; lia]; rewrite E; cbn [bind] | rewrite L by first [rewrite E; auto; fail | rewrite ?app_length; lia]; rewrite E; reflexivity].
Ltac st_drop H s :=
  apply settled_bind_inv in H;
  let a := fresh "a" in let E := fresh "E" in let e := fresh "e" in
  let D := fresh "D" in let D' := fresh "D" in let r := fresh "r" in
  destruct H as [(a & E & H) | (e & E)];
  [ match type of E with @drop_slice ?T ?n ?b = _ =>
      destruct (@drop_stable T n b s) as (r & D & D'); [rewrite E; auto|];
      rewrite E in D; okinv D; rewrite D', E; cbn [bind] end
  | match type of E with @drop_slice ?T ?n ?b = _ =>
      unfold drop_slice in E; destruct (Nat.leb n (length b)); discriminate E end ].

Lemma dec_int_stable bs s : settled (dec_int bs) -> dec_int (bs ++ s) = dec_int bs.
Proof.
  unfold dec_int. intros H. st_step H check_id_stable. st_step H (@sub_stable cl_err). reflexivity.
Qed.
Lemma dec_uint_stable bs s : settled (dec_uint bs) -> dec_uint (bs ++ s) = dec_uint bs.
Proof.
  unfold dec_uint. intros H. st_step H check_id_stable. st_step H (@sub_stable cl_err). reflexivity.
Qed.
Lemma dec_buffer_stable bs s : settled (dec_buffer bs) -> dec_buffer (bs ++ s) = dec_buffer bs.
Proof.
  unfold dec_buffer. intros H. st_step H check_id_stable. st_step H read_len32_stable. st_drop H s.
  st_step H (@take_stable cl_err). reflexivity.
Qed.
Lemma dec_ascii_stable bs s : settled (dec_ascii bs) -> dec_ascii (bs ++ s) = dec_ascii bs.
Proof.
  unfold dec_ascii. intros H. st_step H check_id_stable. st_step H read_len32_stable. st_drop H s.
  st_step H (@take_stable cl_err). reflexivity.
Qed.
Lemma dec_utf8_stable bs s : settled (dec_utf8 bs) -> dec_utf8 (bs ++ s) = dec_utf8 bs.
Proof.
  unfold dec_utf8. intros H. st_step H read_len32_stable. st_drop H s.
  st_step H (@take_stable cl_err). reflexivity.
Qed.
Lemma dec_prin_std_stable bs s : settled (dec_prin_std bs) -> dec_prin_std (bs ++ s) = dec_prin_std bs.
Proof.
  unfold dec_prin_std. intros H. st_step H check_id_stable. st_step H (@sub_stable cl_err).
  st_step H (@index_stable cl_err). reflexivity.
Qed.
Lemma dec_prin_con_stable bs s : settled (dec_prin_con bs) -> dec_prin_con (bs ++ s) = dec_prin_con bs.
Proof.
  unfold dec_prin_con. intros H. st_step H check_id_stable. st_step H (@sub_stable cl_err).
  st_step H (@index_stable cl_err). apply settled_bind_inv in H.
  destruct H as [(x & Ex & H) | (e & Ee)]; [rewrite Ex; cbn [bind] | rewrite Ee; reflexivity].
  st_step H (@index_stable cl_err). st_drop H s. st_step H (@take_stable cl_err). reflexivity.
Qed.
Lemma dec_lps_stable bs s : settled (dec_lps bs) -> dec_lps (bs ++ s) = dec_lps bs.
Proof.
  unfold dec_lps. intros H. st_step H (@index_stable cl_err). st_drop H s. st_step H (@take_stable cl_err). reflexivity.
Qed.

Definition stable_at (dec dec' : bytes -> res cl_err cval) : Prop :=
  forall bs s, settled (dec bs) -> dec' (bs ++ s) = dec bs.

Lemma dec_items_stable dec dec' : stable_at dec dec' -> forall g g' n bs s, (g <= g')%nat ->
  settled (dec_items dec g n bs) -> dec_items dec' g' n (bs ++ s) = dec_items dec g n bs.
Proof.
  intros HS. induction g as [|g IH]; intros g' n bs s G H; cbn [dec_items] in H |- *;
    destruct (N.eqb_spec n 0) as [-> | N0]; try (destruct g'; reflexivity); [dead H|].
  destruct g' as [|g']; [lia|]. cbn [dec_items]. destruct (N.eqb_spec n 0); [lia|].
  st_step H HS.
  apply settled_bind_inv in H. destruct H as [(x & Ex & H) | (e & Ee)]; [rewrite Ex; cbn [bind] | rewrite Ee; reflexivity].
  st_drop H s. st_step H IH. reflexivity.
Qed.

Lemma dec_entries_stable dec dec' : stable_at dec dec' -> forall g g' n bs s, (g <= g')%nat ->
  settled (dec_entries dec g n bs) -> dec_entries dec' g' n (bs ++ s) = dec_entries dec g n bs.
Proof.
  intros HS. induction g as [|g IH]; intros g' n bs s G H; cbn [dec_entries] in H |- *;
    destruct (N.eqb_spec n 0) as [-> | N0]; try (destruct g'; reflexivity); [dead H|].
  destruct g' as [|g']; [lia|]. cbn [dec_entries]. destruct (N.eqb_spec n 0); [lia|].
  st_step H (@index_stable cl_err). st_drop H s. st_step H (@take_stable cl_err).
  apply settled_bind_inv in H. destruct H as [(x & Ex & H) | (e & Ee)]; [rewrite Ex; cbn [bind] | rewrite Ee; reflexivity].
  st_drop H s. st_step H HS.
  apply settled_bind_inv in H. destruct H as [(x' & Ex' & H) | (e & Ee)]; [rewrite Ex'; cbn [bind] | rewrite Ee; reflexivity].
  st_drop H s. st_step H IH. reflexivity.
Qed.

Lemma dec_wrap_stable dec dec' t mk : stable_at dec dec' -> stable_at (dec_wrap dec t mk) (dec_wrap dec' t mk).
Proof.
  intros HS bs s H. unfold dec_wrap in *. st_step H check_id_stable. st_drop H s. st_step H HS. reflexivity.
Qed.
Lemma dec_list_stable dec dec' : stable_at dec dec' -> stable_at (dec_list dec) (dec_list dec').
Proof.
  intros HS bs s H. unfold dec_list in *. st_step H check_id_stable. st_step H read_len32_stable. st_drop H s.
  match type of H with settled (bind (dec_items _ ?g _ _) _) => st_step H (dec_items_stable dec dec' HS g) end. reflexivity.
Qed.
Lemma dec_tuple_stable dec dec' : stable_at dec dec' -> stable_at (dec_tuple dec) (dec_tuple dec').
Proof.
  intros HS bs s H. unfold dec_tuple in *. st_step H check_id_stable. st_step H read_len32_stable. st_drop H s.
  match type of H with settled (bind (dec_entries _ ?g _ _) _) => st_step H (dec_entries_stable dec dec' HS g) end. reflexivity.
Qed.
Lemma dec_fnargs_stable dec dec' : stable_at dec dec' -> stable_at (dec_fnargs dec) (dec_fnargs dec').
Proof.
  intros HS bs s H. unfold dec_fnargs in *. st_step H (@sub_stable cl_err). st_drop H s.
  match type of H with settled (bind (dec_items _ ?g _ _) _) => st_step H (dec_items_stable dec dec' HS g) end. reflexivity.
Qed.

Lemma decode_fuel_stable f : forall f', (f <= f')%nat -> stable_at (decode_fuel f) (decode_fuel f').
Proof.
  induction f as [|f IH]; intros f' L bs s H; [dead H|]. destruct f' as [|f']; [lia|].
  specialize (IH f' ltac:(lia)).
  destruct bs as [|b r]; [dead H|].
  destruct (tag_cases b) as [b B | b B U]; [|cbn [app]; rewrite !U; reflexivity].
  known_tags B.
  - apply (dec_int_stable (x00 :: r)); exact H.
  - apply (dec_uint_stable (x01 :: r)); exact H.
  - apply (dec_buffer_stable (x02 :: r)); exact H.
  - reflexivity.
  - reflexivity.
  - apply (dec_prin_std_stable (x05 :: r)); exact H.
  - apply (dec_prin_con_stable (x06 :: r)); exact H.
  - apply (dec_wrap_stable _ _ TRespOk CRespOk IH (x07 :: r)); exact H.
  - apply (dec_wrap_stable _ _ TRespErr CRespErr IH (x08 :: r)); exact H.
  - reflexivity.
  - apply (dec_wrap_stable _ _ TSome CSome IH (x0a :: r)); exact H.
  - apply (dec_list_stable _ _ IH (x0b :: r)); exact H.
  - apply (dec_tuple_stable _ _ IH (x0c :: r)); exact H.
  - apply (dec_ascii_stable (x0d :: r)); exact H.
  - apply (dec_utf8_stable (x0e :: r)); exact H.
Qed.

Lemma decode_stable : stable_at decode_clarity_type decode_clarity_type.
Proof.
  intros bs s H. apply (decode_fuel_stable (S (length bs))); [rewrite app_length; lia | exact H].
Qed.
