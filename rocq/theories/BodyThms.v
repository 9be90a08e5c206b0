(** Proofs about bodies of responses (C91). *)

From Coq Require Import Strings.String Sorting.Permutation Lia ZifyBool ZifyNat ZifyN.
From Verif Require Import Base BaseFacts SpecUtf8 Utf8 Utf8Facts Utf8Thms SpecText SpecShow Clarity SpecWire ShowFacts Tx SpecTx F64 Rpc SpecClient ClientThms Json SpecJson SpecF64 F64Thms JsonThms JsonRead SpecBody JsonReadThms LookThms.
Local Open Scope list_scope.
Local Open Scope N_scope.

(** ** Text *)
Lemma starts_next p : starts p -> p <> [] -> exists n q, utf8_next (p ++ q) = Some (n, []).
Proof. intros (n & q & S & E) _. exists n, q. rewrite <- E, <- (app_nil_r (utf8_text n)). now apply next_complete. Qed.
Lemma next_starts p q n : utf8_next (p ++ q) = Some (n, []) -> starts p.
Proof. intros H. apply next_sound in H. destruct H as [S E]. rewrite app_nil_r in E. exists n, q. auto. Qed.
Lemma next_none b : utf8_next b = None -> forall n q, scalar_value n -> b <> utf8_text n ++ q.
Proof. intros H n q S ->. rewrite next_complete in H by exact S. discriminate. Qed.

(** What the first bytes of a character are. *)
Definition second (a b : N) : Prop :=
  128 <= b <= 191 /\ (a = 224 -> 160 <= b) /\ (a = 237 -> b <= 159) /\ (a = 240 -> 144 <= b) /\ (a = 244 -> b <= 143).

Lemma begins2 b0 b1 q n r : utf8_next (b0 :: b1 :: q) = Some (n, r) -> 128 <= b2n b0 -> second (b2n b0) (b2n b1) /\ 194 <= b2n b0 <= 244.
Proof.
  cbn [utf8_next]. unfold second, is_cont. intros H G. destruct (b2n b0 <? 128) eqn:E0; [lia|].
  destruct ((194 <=? b2n b0) && (b2n b0 <=? 223)) eqn:E1.
  { destruct ((128 <=? b2n b1) && (b2n b1 <=? 191)) eqn:C; [|discriminate]. clear H. lia. }
  destruct ((224 <=? b2n b0) && (b2n b0 <=? 239)) eqn:E2.
  { destruct q as [|b2 q]; [discriminate|].
    destruct (((if b2n b0 =? 224 then 160 else 128) <=? b2n b1) && (b2n b1 <=? (if b2n b0 =? 237 then 159 else 191)) && ((128 <=? b2n b2) && (b2n b2 <=? 191))) eqn:C; [|discriminate].
    clear H. destruct (b2n b0 =? 224) eqn:?, (b2n b0 =? 237) eqn:?; lia. }
  destruct ((240 <=? b2n b0) && (b2n b0 <=? 244)) eqn:E3; [|discriminate].
  destruct q as [|b2 [|b3 q]]; try discriminate.
  destruct (((if b2n b0 =? 240 then 144 else 128) <=? b2n b1) && (b2n b1 <=? (if b2n b0 =? 244 then 143 else 191)) && ((128 <=? b2n b2) && (b2n b2 <=? 191)) && ((128 <=? b2n b3) && (b2n b3 <=? 191))) eqn:C; [|discriminate].
  clear H. destruct (b2n b0 =? 240) eqn:?, (b2n b0 =? 244) eqn:?; lia.
Qed.
Lemma begins3 b0 b1 b2 q n r : utf8_next (b0 :: b1 :: b2 :: q) = Some (n, r) -> 224 <= b2n b0 -> is_cont (b2n b2) = true.
Proof.
  cbn [utf8_next]. intros H G. destruct (b2n b0 <? 128) eqn:E0; [lia|].
  destruct ((194 <=? b2n b0) && (b2n b0 <=? 223)) eqn:E1; [lia|].
  destruct ((224 <=? b2n b0) && (b2n b0 <=? 239)) eqn:E2.
  { destruct (is_cont (b2n b2)); [reflexivity|]. rewrite Bool.andb_false_r in H. discriminate. }
  destruct ((240 <=? b2n b0) && (b2n b0 <=? 244)) eqn:E3; [|discriminate].
  destruct q as [|b3 q]; try discriminate. destruct (is_cont (b2n b2)); [reflexivity|]. rewrite Bool.andb_false_r in H. discriminate.
Qed.

Definition second_ok (a b : N) : bool :=
  ((if a =? 224 then 160 else if a =? 240 then 144 else 128) <=? b) && (b <=? (if a =? 237 then 159 else if a =? 244 then 143 else 191)).
Lemma second_ok_iff a b : second_ok a b = true <-> second a b.
Proof.
  unfold second_ok, second. destruct (a =? 224) eqn:A, (a =? 240) eqn:B, (a =? 237) eqn:C, (a =? 244) eqn:D;
    apply N.eqb_eq in A || apply N.eqb_neq in A; apply N.eqb_eq in B || apply N.eqb_neq in B;
    apply N.eqb_eq in C || apply N.eqb_neq in C; apply N.eqb_eq in D || apply N.eqb_neq in D; lia.
Qed.

Lemma cont_b : is_cont (b2n x80) = true.
Proof. reflexivity. Qed.

(** Any first byte and second byte in range begin a character. *)
Lemma three_next b0 b1 b2 : 224 <= b2n b0 <= 239 -> second (b2n b0) (b2n b1) -> is_cont (b2n b2) = true -> exists n, utf8_next [b0; b1; b2] = Some (n, []).
Proof.
  intros R (B & L1 & H1 & _) C. cbn [utf8_next].
  assert (b2n b0 <? 128 = false) as -> by lia. assert ((194 <=? b2n b0) && (b2n b0 <=? 223) = false) as -> by lia.
  assert ((224 <=? b2n b0) && (b2n b0 <=? 239) = true) as -> by lia. rewrite C.
  assert (((if b2n b0 =? 224 then 160 else 128) <=? b2n b1) && (b2n b1 <=? (if b2n b0 =? 237 then 159 else 191)) = true) as ->.
  { destruct (b2n b0 =? 224) eqn:?, (b2n b0 =? 237) eqn:?; lia. }
  cbn [andb]. eauto.
Qed.
Lemma four_next b0 b1 b2 b3 : 240 <= b2n b0 <= 244 -> second (b2n b0) (b2n b1) -> is_cont (b2n b2) = true -> is_cont (b2n b3) = true ->
  exists n, utf8_next [b0; b1; b2; b3] = Some (n, []).
Proof.
  intros R (B & _ & _ & L1 & H1) C D. cbn [utf8_next].
  assert (b2n b0 <? 128 = false) as -> by lia. assert ((194 <=? b2n b0) && (b2n b0 <=? 223) = false) as -> by lia.
  assert ((224 <=? b2n b0) && (b2n b0 <=? 239) = false) as -> by lia. assert ((240 <=? b2n b0) && (b2n b0 <=? 244) = true) as -> by lia. rewrite C, D.
  assert (((if b2n b0 =? 240 then 144 else 128) <=? b2n b1) && (b2n b1 <=? (if b2n b0 =? 244 then 143 else 191)) = true) as ->.
  { destruct (b2n b0 =? 240) eqn:?, (b2n b0 =? 244) eqn:?; lia. }
  cbn [andb]. eauto.
Qed.

(** No character is longer than four bytes, and the lengths by first byte. *)
Lemma next_len b0 p q n : utf8_next ((b0 :: p) ++ q) = Some (n, []) -> length (p ++ q) =
  if b2n b0 <? 128 then 0%nat else if b2n b0 <=? 223 then 1%nat else if b2n b0 <=? 239 then 2%nat else 3%nat.
Proof.
  cbn [app utf8_next]. destruct (b2n b0 <? 128) eqn:E0; [intros H; injection H as _ ->; reflexivity|].
  destruct ((194 <=? b2n b0) && (b2n b0 <=? 223)) eqn:E1.
  { assert (b2n b0 <=? 223 = true) as -> by lia. destruct (p ++ q) as [|x1 y]; [discriminate|]. destruct (is_cont _); [|discriminate]. intros H. injection H as _ ->. reflexivity. }
  destruct ((224 <=? b2n b0) && (b2n b0 <=? 239)) eqn:E2.
  { assert (b2n b0 <=? 223 = false) as -> by lia. assert (b2n b0 <=? 239 = true) as -> by lia. destruct (p ++ q) as [|x1 [|x2 y]]; try discriminate.
    match goal with |- (if ?c then _ else _) = _ -> _ => destruct c end; [|discriminate]. intros H. injection H as _ ->. reflexivity. }
  destruct ((240 <=? b2n b0) && (b2n b0 <=? 244)) eqn:E3; [|discriminate].
  assert (b2n b0 <=? 223 = false) as -> by lia. assert (b2n b0 <=? 239 = false) as -> by lia.
  destruct (p ++ q) as [|x1 [|x2 [|x3 y]]]; try discriminate.
  match goal with |- (if ?c then _ else _) = _ -> _ => destruct c end; [|discriminate]. intros H. injection H as _ ->. reflexivity.
Qed.

Lemma broken_spec b : utf8_next b = None -> b <> [] ->
  (1 <= broken b <= length b)%nat /\ (broken b = 1%nat \/ starts (firstn (broken b) b))
  /\ forall p q, b = p ++ q -> starts p -> (length p <= broken b)%nat.
Proof.
  intros N Ne. destruct b as [|b0 [|b1 r]]; [now destruct Ne| |].
  { split; [cbn; lia|]. split; [now left|]. intros p q E _. apply (f_equal (@length byte)) in E. rewrite app_length in E. cbn in *. lia. }
  pose proof (b2n_lt b0) as B0. cbn [broken]. fold (second_ok (b2n b0) (b2n b1)).
  (* what an accepted beginning says *)
  assert (K : forall p q, b0 :: b1 :: r = p ++ q -> starts p -> (2 <= length p)%nat ->
    224 <= b2n b0 <= 244 /\ second (b2n b0) (b2n b1) /\ ((3 <= length p)%nat -> 240 <= b2n b0 /\ exists b2 r', r = b2 :: r' /\ is_cont (b2n b2) = true /\ length p = 3%nat)).
  { intros p q E S L. destruct p as [|c0 [|c1 p]]; [cbn in L; lia|cbn in L; lia|]. cbn [app] in E. injection E as <- <- E.
    destruct (starts_next _ S) as (n & s & H); [discriminate|]. pose proof H as Hn. cbn [app] in Hn.
    assert (G : 128 <= b2n b0). { pose proof (next_len b0 (b1 :: p) s n H) as Hl. rewrite app_length in Hl. cbn [length] in Hl. destruct (b2n b0 <? 128) eqn:X; [lia|]. lia. }
    destruct (begins2 b0 b1 _ n [] Hn G) as [S2 R].
    pose proof (next_len b0 (b1 :: p) s n H) as Hl. assert (b2n b0 <? 128 = false) as X by lia. rewrite X in Hl. clear X.
    assert (R2 : 224 <= b2n b0).
    { destruct (N.le_gt_cases 224 (b2n b0)) as [|Lt]; [assumption|]. assert (b2n b0 <=? 223 = true) as X by lia. rewrite X in Hl.
      rewrite app_length in Hl. cbn [length] in Hl. destruct p; [|cbn [length] in Hl; lia]. destruct s; [|cbn [length] in Hl; lia]. exfalso.
      cbn [app] in E. subst r. rewrite app_nil_r in H. assert (Hs : starts [b0; b1]) by exact S.
      destruct (next_sound _ _ _ H) as [Sc Et]. rewrite app_nil_r in Et. change (b0 :: b1 :: q) with ([b0; b1] ++ q) in N. rewrite Et, next_complete in N by exact Sc. discriminate. }
    split; [lia|]. split; [exact S2|]. intros L3. destruct p as [|b2 p]; [cbn in L3; lia|]. cbn [app] in E. subst r.
    assert (R3 : 240 <= b2n b0).
    { destruct (N.le_gt_cases 240 (b2n b0)) as [|Lt]; [assumption|]. assert (b2n b0 <=? 223 = false) as X by lia. assert (b2n b0 <=? 239 = true) as Y by lia. rewrite X, Y in Hl.
      rewrite app_length in Hl. cbn [length] in Hl. destruct p; [|cbn [length] in Hl; lia]. destruct s; [|cbn [length] in Hl; lia]. exfalso. rewrite app_nil_r in H.
      destruct (next_sound _ _ _ H) as [Sc Et]. rewrite app_nil_r in Et. cbn [app] in N. change (b0 :: b1 :: b2 :: q) with ([b0; b1; b2] ++ q) in N. rewrite Et, next_complete in N by exact Sc. discriminate. }
    split; [exact R3|]. exists b2, (p ++ q). split; [reflexivity|]. split; [exact (begins3 b0 b1 b2 _ n [] Hn R2)|].
    assert (b2n b0 <=? 223 = false) as X by lia. assert (b2n b0 <=? 239 = false) as Y by lia. rewrite X, Y in Hl. rewrite app_length in Hl. cbn [length] in Hl.
    destruct p as [|b3 p]; [reflexivity|]. destruct p; [|cbn [length] in Hl; lia]. destruct s; [|cbn [length] in Hl; lia]. exfalso. rewrite app_nil_r in H.
    destruct (next_sound _ _ _ H) as [Sc Et]. rewrite app_nil_r in Et. cbn [app] in N. change (b0 :: b1 :: b2 :: b3 :: q) with ([b0; b1; b2; b3] ++ q) in N. rewrite Et, next_complete in N by exact Sc. discriminate. }
  destruct ((224 <=? b2n b0) && (b2n b0 <=? 239) && second_ok (b2n b0) (b2n b1)) eqn:E1.
  { apply Bool.andb_true_iff in E1. destruct E1 as [E1 S]. apply second_ok_iff in S. split; [cbn; lia|]. split.
    - right. destruct (three_next b0 b1 x80) as (n & H); [lia|exact S|reflexivity|]. cbn [firstn]. exact (next_starts [b0; b1] [x80] n H).
    - intros p q E St. destruct (le_lt_dec 3 (length p)) as [L|L]; [|lia]. destruct (K p q E St) as (_ & _ & Q); [lia|]. destruct (Q L) as (R & _). lia. }
  destruct ((240 <=? b2n b0) && (b2n b0 <=? 244) && second_ok (b2n b0) (b2n b1)) eqn:E2.
  { apply Bool.andb_true_iff in E2. destruct E2 as [E2 S]. apply second_ok_iff in S. clear E1.
    destruct r as [|b2 r]; [|destruct (is_cont (b2n b2)) eqn:C].
    - split; [cbn; lia|]. split; [|intros p q E _; apply (f_equal (@length byte)) in E; rewrite app_length in E; cbn in E; lia].
      right. destruct (four_next b0 b1 x80 x80) as (n & H); [lia|exact S|reflexivity|reflexivity|]. exact (next_starts [b0; b1] [x80; x80] n H).
    - split; [cbn; lia|]. split.
      + right. destruct (four_next b0 b1 b2 x80) as (n & H); [lia|exact S|exact C|reflexivity|]. exact (next_starts [b0; b1; b2] [x80] n H).
      + intros p q E St. destruct (le_lt_dec 4 (length p)) as [L|L]; [|lia]. destruct (K p q E St) as (_ & _ & Q); [lia|]. destruct Q as (_ & x & y & _ & _ & Z); lia.
    - split; [cbn; lia|]. split.
      + right. destruct (four_next b0 b1 x80 x80) as (n & H); [lia|exact S|reflexivity|reflexivity|]. exact (next_starts [b0; b1] [x80; x80] n H).
      + intros p q E St. destruct (le_lt_dec 3 (length p)) as [L|L]; [|lia]. destruct (K p q E St) as (_ & _ & Q); [lia|]. destruct (Q L) as (_ & x & y & Ex & Z & _). injection Ex as <- _. congruence. }
  split; [cbn; lia|]. split; [now left|]. intros p q E St. destruct (le_lt_dec 2 (length p)) as [L|L]; [|lia].
  destruct (K p q E St L) as (R & S & _). apply second_ok_iff in S. rewrite S in E1, E2. clear - R E1 E2. lia.
Qed.

Lemma lossy_fuel_mended f : forall b, (length b <= f)%nat -> mended b (lossy_fuel f b).
Proof.
  induction f as [|f IH]; intros b L; [destruct b; [constructor|cbn in L; lia]|]. cbn [lossy_fuel]. destruct b as [|c b]; [constructor|].
  destruct (utf8_next (c :: b)) as [[n r]|] eqn:N.
  - apply next_sound in N. destruct N as [S E]. rewrite E. change (put_char n) with (utf8_text n). constructor; [exact S|]. apply IH.
    apply (f_equal (@length byte)) in E. rewrite app_length in E. pose proof (utf8_text_nonempty n). cbn [length] in *. lia.
  - destruct (broken_spec (c :: b) N) as (B & S & M); [discriminate|]. remember (broken (c :: b)) as k.
    rewrite <- (firstn_skipn k (c :: b)) at 1. change (put_char 65533) with (utf8_text 65533). constructor.
    + destruct k; [lia|discriminate].
    + rewrite firstn_skipn. now apply next_none.
    + destruct S as [->|S]; [|now left]. right. exists c. reflexivity.
    + rewrite firstn_skipn, firstn_length_le by lia. exact M.
    + apply IH. rewrite skipn_length. lia.
Qed.
Lemma lossy_mended b : mended b (lossy b).
Proof. now apply lossy_fuel_mended. Qed.

Lemma mended_fun b t : mended b t -> forall t', mended b t' -> t = t'.
Proof.
  induction 1 as [|n r t S H IH|p r t Ne No Sp Mx H IH]; intros t' K.
  - inversion K as [|n r t0 S H E|p r t0 Ne No Sp Mx H E]; [reflexivity|..]; exfalso.
    + pose proof (utf8_text_nonempty n). apply (f_equal (@length byte)) in E. rewrite app_length in E. cbn [length] in E. lia.
    + destruct p; [now apply Ne|discriminate].
  - inversion K as [E|n' r' t0 S' H' E|p' r' t0 Ne' No' Sp' Mx' H' E].
    + exfalso. pose proof (utf8_text_nonempty n). apply (f_equal (@length byte)) in E. rewrite app_length in E. cbn [length] in E. lia.
    + pose proof (next_complete n r S) as A. rewrite <- E, next_complete in A by exact S'. injection A as -> ->. f_equal. now apply IH.
    + exfalso. now apply (No' n r S).
  - inversion K as [E|n' r' t0 S' H' E|p' r' t0 Ne' No' Sp' Mx' H' E].
    + exfalso. destruct p; [now apply Ne|discriminate].
    + exfalso. symmetry in E. now apply (No n' r' S') in E.
    + assert (Lp : length p = length p').
      { assert (1 <= length p /\ 1 <= length p')%nat as [L L'] by (destruct p, p'; try congruence; cbn; lia).
        destruct Sp as [Sp|(c & ->)], Sp' as [Sp'|(c' & ->)]; cbn [length] in *.
        - pose proof (Mx _ _ (eq_sym E) Sp'). pose proof (Mx' _ _ E Sp). lia.
        - pose proof (Mx' _ _ E Sp). cbn [length] in *. lia.
        - pose proof (Mx _ _ (eq_sym E) Sp'). cbn [length] in *. lia.
        - reflexivity. }
      apply app_inj_len in E; [|now symmetry]. destruct E as [<- <-]. f_equal. now apply IH.
Qed.

Lemma mended_utf8 b t : mended b t -> utf8 t.
Proof.
  induction 1 as [|n r t S H (l & F & ->)|p r t Ne No Sp Mx H (l & F & ->)].
  - exists []. split; [constructor|reflexivity].
  - exists (n :: l). split; [now constructor|reflexivity].
  - exists (0xFFFD :: l). split; [constructor; [unfold scalar_value; lia|exact F]|reflexivity].
Qed.
Lemma utf8_mended b : utf8 b -> mended b b.
Proof. intros (l & F & ->). induction F as [|n l S F IH]; cbn [flat_map]; now constructor. Qed.

(** ** Results *)
Lemma read_as_body {A B} s (P : json -> A -> Prop) (k : A -> B) b out : read_as P k (reply s b) out -> body_as s P k b out.
Proof.
  unfold read_as, body_as. cbn [reply rs_json]. intros [(j & a & J & H & ->)|[N ->]].
  - left. apply read_json_iff in J. eauto.
  - right. split; [|reflexivity]. intros j a D. apply N. now apply read_json_iff.
Qed.
Lemma read_text_body {B} s (k : bytes -> B) b out : read_text k (reply s b) out -> body_text k b out.
Proof.
  unfold read_text, body_text. cbn [reply rs_text]. unfold read_text_of, text_limit, count. change (10 * 1024 * 1024) with 10485760.
  unfold lenN. destruct (10485760 <? N.of_nat (length b)) eqn:E; intros ->.
  - right. split; [now apply N.ltb_lt|reflexivity].
  - left. split; [now apply N.ltb_ge|]. exists (lossy b). split; [apply lossy_mended|reflexivity].
Qed.
Lemma body_as_fun {A B} s (P : json -> A -> Prop) (k : A -> B) b x y : (forall j a c, P j a -> P j c -> a = c) ->
  body_as s P k b x -> body_as s P k b y -> x = y.
Proof.
  intros F [(j & a & J & X & ->)|[N ->]] [(j' & a' & J' & X' & ->)|[N' ->]].
  - rewrite (document_at_fun _ _ _ _ J' J) in X'. now rewrite (F _ _ _ X X').
  - destruct (N' _ _ J X).
  - destruct (N _ _ J' X').
  - reflexivity.
Qed.
Lemma json_as_fun {A B} (P : json -> A -> Prop) (k : A -> B) j x y : (forall j a c, P j a -> P j c -> a = c) ->
  json_as P k j x -> json_as P k j y -> x = y.
Proof.
  intros F [(a & X & ->)|[N ->]] [(a' & X' & ->)|[N' ->]].
  - now rewrite (F _ _ _ X X').
  - destruct (N' _ X).
  - destruct (N _ X').
  - reflexivity.
Qed.
Lemma body_text_fun {B} (k : bytes -> B) b x y : body_text k b x -> body_text k b y -> x = y.
Proof.
  intros [(L & t & M & ->)|[L ->]] [(L' & t' & M' & ->)|[L' ->]]; try lia; [|reflexivity]. now rewrite (mended_fun _ _ M _ M').
Qed.
Lemma plain_body {A} s (P : json -> A -> Prop) r out : plain_result P (outcome_of s r) out -> raw_plain s P r out.
Proof. destruct r; cbn [outcome_of plain_result raw_plain]; auto. apply read_as_body. Qed.
Lemma broadcast_body r out : broadcast_result (outcome_of looks_rejection r) out -> raw_broadcast r out.
Proof. destruct r; cbn [outcome_of broadcast_result raw_broadcast]; auto; [apply read_text_body|apply read_as_body]. Qed.
Lemma estimate_body r out : estimate_result (outcome_of looks_fees r) out -> raw_estimate r out.
Proof. destruct r; cbn [outcome_of estimate_result raw_estimate]; auto; [apply read_as_body|apply read_text_body]. Qed.

(** ** Bodies that are JSON *)
Lemma body_json {A B} s (P : json -> A -> Prop) (k : A -> B) b j out : document b j ->
  (forall j' a, look s j = Some j' -> (P j' a <-> P j a)) -> (forall a, P j a -> look s j <> None) ->
  body_as s P k b out -> json_as P k j out.
Proof.
  intros D S N [(j' & a & D' & X & ->)|[X ->]].
  - left. exists a. split; [|reflexivity]. apply read_json_iff in D'. rewrite (read_look s b j D) in D'. now apply (S j').
  - right. split; [|reflexivity]. intros a Pa. pose proof (N a Pa) as Ln. destruct (look s j) as [j'|] eqn:E; [|congruence].
    apply (X j' a); [|now apply S]. apply read_json_iff. now rewrite (read_look s b j D).
Qed.

Lemma names_fst names : map fst (map (fun k => (str k, Any 126)) names) = map str names.
Proof. now rewrite map_map. Qed.
Lemma looked_any names vs vs' : looked (map (fun k => (str k, Any 126)) names) vs vs' -> vs' = vs.
Proof.
  revert vs vs'. induction names as [|k names IH]; intros vs vs' L.
  - destruct L as (L & L' & _). destruct vs, vs'; try discriminate. reflexivity.
  - pose proof L as (Lv & Lv' & _). destruct vs as [|v vs]; [discriminate|]. destruct vs' as [|v' vs']; [discriminate|]. cbn [map] in L.
    apply looked_inv in L. destruct L as [V L]. apply look_any_same in V. now rewrite V, (IH _ _ L).
Qed.
Lemma names_look names j j' vs : NoDup (map str names) -> look (struct_of_names names) j = Some j' ->
  record_of (map str names) j' vs <-> record_of (map str names) j vs.
Proof.
  intros N E. unfold struct_of_names in E. rewrite <- names_fst in N |- *. split; intros R.
  - destruct (record_unlook _ j j' vs N E R) as (w & Rw & L). apply looked_any in L. now subst w.
  - destruct (record_look _ j j' vs N E R) as (w & Rw & L). apply looked_any in L. now subst w.
Qed.
Lemma names_looks names j vs : NoDup (map str names) -> record_of (map str names) j vs -> Forall (fun v => fits 126 v = true) vs ->
  look (struct_of_names names) j <> None.
Proof.
  intros N R F. unfold struct_of_names. rewrite <- names_fst in N, R. apply (record_looks _ j vs N R). intros n k s v E V.
  rewrite nth_error_map in E. destruct (nth_error names n); [|discriminate]. injection E as _ <-.
  apply nth_error_In in V. rewrite Forall_forall in F. rewrite look_any, (F v V). discriminate.
Qed.

Ltac distinct := repeat (constructor; [cbn; intuition discriminate|]); constructor.
Lemma info_distinct : NoDup (map str info_members).
Proof. unfold info_members. cbn [map]. distinct. Qed.
Lemma address_distinct : NoDup (map str address_members).
Proof. unfold address_members. cbn [map]. distinct. Qed.
Lemma rejection_distinct : NoDup (map str rejection_members).
Proof. unfold rejection_members. cbn [map]. distinct. Qed.

Lemma info_look j j' a : look looks_info j = Some j' -> (info_json j' a <-> info_json j a).
Proof. intros E. unfold info_json. rewrite (names_look info_members j j' _ info_distinct E). reflexivity. Qed.
Lemma info_looks j a : info_json j a -> look looks_info j <> None.
Proof. intros [R _]. apply (names_looks info_members j _ info_distinct R). repeat constructor. Qed.
Lemma address_look j j' a : look looks_address j = Some j' -> (address_json j' a <-> address_json j a).
Proof. intros E. unfold address_json. rewrite (names_look address_members j j' _ address_distinct E). reflexivity. Qed.
Lemma address_looks j a : address_json j a -> look looks_address j <> None.
Proof. intros [R _]. apply (names_looks address_members j _ address_distinct R). repeat constructor. Qed.
Lemma rejection_look j j' a : look looks_rejection j = Some j' -> (rejection_json j' a <-> rejection_json j a).
Proof. intros E. unfold rejection_json. rewrite (names_look rejection_members j j' _ rejection_distinct E). reflexivity. Qed.
Lemma rejection_looks j a : rejection_json j a -> look looks_rejection j <> None.
Proof. intros R. apply (names_looks rejection_members j _ rejection_distinct R). repeat constructor. Qed.
Lemma read_only_look j j' a : look looks_read_only j = Some j' -> (read_only_json j' a <-> read_only_json j a).
Proof. intros E. apply look_any_same in E. now subst j'. Qed.

Definition estimate_fields : list (bytes * shape) := [(str "fee"%string, Any 124); (str "fee_rate"%string, Any 124)].
Lemma estimate_distinct : NoDup (map fst estimate_fields).
Proof. cbn. distinct. Qed.
Lemma pair_looked vs vs' : looked estimate_fields vs vs' -> vs' = vs.
Proof.
  intros L. pose proof L as (A & B & _). destruct vs as [|a [|b [|]]], vs' as [|a' [|b' [|]]]; try discriminate. unfold estimate_fields in L.
  apply looked_inv in L. destruct L as [E1 L]. apply looked_inv in L. destruct L as [E2 _]. apply look_any_same in E1, E2. congruence.
Qed.
Lemma estimate_look j j' a : look (Struct estimate_fields) j = Some j' -> (estimate_json j' a <-> estimate_json j a).
Proof.
  intros E. unfold estimate_json. split; intros (r & R & H); exists r; (split; [|exact H]).
  - destruct (record_unlook estimate_fields j j' _ estimate_distinct E R) as (w & Rw & L). apply pair_looked in L. now subst w.
  - destruct (record_look estimate_fields j j' _ estimate_distinct E R) as (w & Rw & L). apply pair_looked in L. now subst w.
Qed.
Lemma estimate_looks j a : estimate_json j a -> look (Struct estimate_fields) j <> None.
Proof.
  intros (r & R & _ & I). apply (record_looks estimate_fields j _ estimate_distinct R). intros [|[|[|n]]] k s v E V; cbn in E, V; try discriminate;
    injection E as <- <-; injection V as <-; rewrite look_any.
  - discriminate.
  - destruct r as [| | |t| | |]; try contradiction; try discriminate. change (fits 124 (JFloat t)) with (in_range (Any 0) t).
    rewrite (proj2 (in_range_iff (Any 0) t)) by (exact (ex_intro _ (fe_rate a) I)). discriminate.
Qed.
Lemma look_elems s l l' : look_items (Seq s) l = Some l' <-> Forall2 (fun x y => look s x = Some y) l l'.
Proof.
  revert l'. induction l as [|x l IH]; intros l'; cbn [look_items head_shape tail_shape].
  - split; [intros H; injection H as <-; constructor|intros H; inversion H; reflexivity].
  - split.
    + destruct (look s x) as [y|] eqn:E; [|discriminate]. destruct (look_items (Seq s) l) as [r|] eqn:R; [|discriminate]. cbn [cons_opt]. intros H. injection H as <-.
      constructor; [exact E|]. now apply IH.
    + intros H. inversion H as [|? y ? r E R]; subst. rewrite E. apply IH in R. now rewrite R.
Qed.
Definition fee_fields : list (bytes * shape) := [(str "estimations"%string, Seq (Struct estimate_fields))].
Lemma fee_distinct : NoDup (map fst fee_fields).
Proof. cbn. distinct. Qed.
Lemma estimates_look l l' es : Forall2 (fun x y => look (Struct estimate_fields) x = Some y) l l' -> (Forall2 estimate_json l' es <-> Forall2 estimate_json l es).
Proof.
  intros F. revert es. induction F as [|x y l l' E F IH]; intros es; [reflexivity|]. split; intros H; inversion H as [|? e ? r X R]; subst; constructor.
  - now apply (estimate_look x y).
  - now apply IH.
  - now apply (estimate_look x y).
  - now apply IH.
Qed.
Lemma fees_look j j' a : look looks_fees j = Some j' -> (fees_json j' a <-> fees_json j a).
Proof.
  intros E. split; intros (l & R & F).
  - destruct (record_unlook fee_fields j j' _ fee_distinct E R) as (w & Rw & L). pose proof L as (Lw & _). destruct w as [|v [|]]; try discriminate.
    unfold fee_fields in L. apply looked_inv in L. destruct L as [V _].
    destruct v as [| | |t| |l0|l0]; try discriminate V; [apply look_float in V; discriminate V| |rewrite look_obj in V; cbn [may_open] in V; destruct (look_members _ l0); discriminate V].
    rewrite look_arr in V. cbn [may_open] in V. destruct (look_items _ l0) as [l1|] eqn:El; [|discriminate]. injection V as ->.
    apply look_elems in El. exists l0. split; [exact Rw|]. now apply (estimates_look l0 l).
  - destruct (record_look fee_fields j j' _ fee_distinct E R) as (w & Rw & L). pose proof L as (_ & Lw & _). destruct w as [|v [|]]; try discriminate.
    unfold fee_fields in L. apply looked_inv in L. destruct L as [V _].
    rewrite look_arr in V. cbn [may_open] in V. destruct (look_items _ l) as [l1|] eqn:El; [|discriminate]. injection V as <-.
    apply look_elems in El. exists l1. split; [exact Rw|]. now apply (estimates_look l l1).
Qed.
Lemma fees_looks j a : fees_json j a -> look looks_fees j <> None.
Proof.
  intros (l & R & F). apply (record_looks fee_fields j _ fee_distinct R). intros [|[|n]] k s v E V; cbn in E, V; try discriminate.
  injection E as <- <-. injection V as <-. rewrite look_arr. cbn [may_open].
  enough (look_items (Seq (Struct estimate_fields)) l <> None) by (destruct (look_items (Seq (Struct estimate_fields)) l); [discriminate|congruence]).
  clear R. induction F as [|x e l es X F IH]; [discriminate|]. cbn [look_items head_shape tail_shape]. apply estimate_looks in X.
  destruct (look (Struct estimate_fields) x); [|congruence]. destruct (look_items (Seq (Struct estimate_fields)) l); [discriminate|congruence].
Qed.

(** ** Cut bodies *)
Definition container (j : json) : Prop := (exists l, j = JArr l) \/ exists l, j = JObj l.
Lemma container_complete s t j r : value_at s t j -> container j -> forall f, (2 * length t <= f)%nat -> value s f (t ++ r) = Some (j, r).
Proof.
  intros V C. pose proof reader_complete as (_ & RI & RM). destruct V as [s|s|s|s t j N Bn|s t y T|s w O W|s t l O I|s w O W|s t l O M];
    try (destruct C as [[x C]|[x C]]; discriminate C).
  - destruct (number_chars t j N) as (_ & _ & _ & [[z ->]|[x ->]]); destruct C as [[y C]|[y C]]; discriminate C.
  - intros [|f] L; cbn [length] in L; rewrite app_length in L; cbn [length] in L; [lia|]. cbn [app value].
    change (byte_eqb x5b x6e) with false. change (byte_eqb x5b x74) with false. change (byte_eqb x5b x66) with false.
    change (byte_eqb x5b x22) with false. change (byte_eqb x5b x5b) with true. cbv iota.
    rewrite (proj2 (may_open_iff s) O), app_bracket, skip_ws; [|exact W|apply not_blank; cbn; auto]. reflexivity.
  - intros [|f] L; cbn [length] in L; rewrite app_length in L; cbn [length] in L; [lia|]. cbn [app value].
    change (byte_eqb x5b x6e) with false. change (byte_eqb x5b x74) with false. change (byte_eqb x5b x66) with false.
    change (byte_eqb x5b x22) with false. change (byte_eqb x5b x5b) with true. cbv iota. rewrite (proj2 (may_open_iff s) O), app_bracket.
    pose proof (RI s 0%nat t l I f r ltac:(lia)) as E. rewrite rest_0 in E.
    destruct (items_nonclose s 0 t l r I) as (d & q & Eq & D). rewrite Eq in *. apply beq_false in D. now rewrite D, E.
  - intros [|f] L; cbn [length] in L; rewrite app_length in L; cbn [length] in L; [lia|]. cbn [app value].
    change (byte_eqb x7b x6e) with false. change (byte_eqb x7b x74) with false. change (byte_eqb x7b x66) with false.
    change (byte_eqb x7b x22) with false. change (byte_eqb x7b x5b) with false. change (byte_eqb x7b x7b) with true. cbv iota.
    rewrite (proj2 (may_open_iff s) O), app_bracket, skip_ws; [|exact W|apply not_blank; cbn; auto]. reflexivity.
  - intros [|f] L; cbn [length] in L; rewrite app_length in L; cbn [length] in L; [lia|]. cbn [app value].
    change (byte_eqb x7b x6e) with false. change (byte_eqb x7b x74) with false. change (byte_eqb x7b x66) with false.
    change (byte_eqb x7b x22) with false. change (byte_eqb x7b x5b) with false. change (byte_eqb x7b x7b) with true. cbv iota. rewrite (proj2 (may_open_iff s) O), app_bracket.
    pose proof (RM s t l M f r ltac:(lia)) as E.
    destruct (members_nonclose s t l r M) as (d & q & Eq & D). rewrite Eq in *. apply beq_false in D. now rewrite D, E.
Qed.

Lemma whole s t j t' j' r v : value_at s t j -> container j -> value_at s t' j' -> container j' -> ws v -> t ++ v = t' ++ r -> t = t' /\ j = j' /\ r = v.
Proof.
  intros V C V' C' W E. pose proof (container_complete s t j v V C (2 * length t + 2 * length t')%nat ltac:(lia)) as A.
  rewrite E, (container_complete s t' j' r V' C') in A by lia. injection A as -> ->. apply app_inv_tail in E. auto.
Qed.
Lemma cut s p q j j' : document_at s p j -> container j -> document_at s (p ++ q) j' -> container j' -> ws q /\ j = j'.
Proof.
  intros (u & t & v & U & V & T & ->) C (u' & t' & v' & U' & V' & T' & E) C'.
  rewrite <- !app_assoc in E. apply (span blank) in E; [|exact U|exact U'|exact (value_at_not_blank s t j _ T)|exact (value_at_not_blank s t' j' _ T')]. destruct E as [_ E].
  symmetry in E. destruct (whole s t' j' t j (v ++ q) v' T' C' T C V' E) as (_ & -> & Q). split; [|reflexivity]. rewrite <- Q in V'. now apply Forall_app in V'.
Qed.
Lemma record_container ks j vs : record_of ks j vs -> container j.
Proof. intros [(l & -> & _)|[-> _]]; [right|left]; eauto. Qed.
Lemma info_container j a : info_json j a -> container j.
Proof. intros [R _]. exact (record_container _ _ _ R). Qed.
Lemma address_container j a : address_json j a -> container j.
Proof. intros [R _]. exact (record_container _ _ _ R). Qed.
Lemma fees_container j a : fees_json j a -> container j.
Proof. intros (l & R & _). exact (record_container _ _ _ R). Qed.
Lemma rejection_container j a : rejection_json j a -> container j.
Proof. apply record_container. Qed.
Lemma read_only_container j a : read_only_json j a -> container j.
Proof. destruct a; [apply record_container|]. intros [R _]. exact (record_container _ _ _ R). Qed.

Lemma cut_body {A B} s (P : json -> A -> Prop) (k : A -> B) p q x y : (forall j a c, P j a -> P j c -> a = c) -> (forall j a, P j a -> container j) ->
  body_as s P k p (Ok x) -> body_as s P k (p ++ q) (Ok y) -> ws q /\ x = y.
Proof.
  intros F C [(j & a & J & X & E)|[_ E]] [(j' & a' & J' & X' & E')|[_ E']]; try discriminate. injection E as ->. injection E' as ->.
  destruct (cut s p q j j' J (C _ _ X) J' (C _ _ X')) as [W ->]. split; [exact W|]. now rewrite (F _ _ _ X X').
Qed.

(** ** Members *)
Lemma member_filter l k v : member l k v <-> filter (fun m => bytes_eqb (fst m) k) l = [(k, v)].
Proof.
  split.
  - intros (a & b & -> & Na & Nb). rewrite filter_app. cbn [filter fst]. rewrite bytes_eqb_refl.
    assert (Z : forall c, ~ In k (map fst c) -> filter (fun m : bytes * json => bytes_eqb (fst m) k) c = []).
    { induction c as [|[k' v'] c IH]; [reflexivity|]. intros N. cbn [filter fst]. destruct (bytes_eqb k' k) eqn:E.
      - apply bytes_eqb_eq in E. subst k'. exfalso. apply N. now left.
      - apply IH. intros I. apply N. now right. }
    now rewrite !Z.
  - induction l as [|[k' v'] l IH]; cbn [filter fst]; [discriminate|]. destruct (bytes_eqb k' k) eqn:E.
    + apply bytes_eqb_eq in E. subst k'. intros H. injection H as -> H. exists [], l. split; [reflexivity|]. split; [intros []|].
      intros I. apply in_map_iff in I. destruct I as ([k' v''] & Ek & I). cbn in Ek. subst k'.
      assert (Q : In (k, v'') (filter (fun m : bytes * json => bytes_eqb (fst m) k) l)) by (apply filter_In; split; [exact I|apply bytes_eqb_refl]).
      rewrite H in Q. destruct Q.
    + intros H. destruct (IH H) as (a & b & -> & Na & Nb). exists ((k', v') :: a), b. split; [reflexivity|]. split; [|exact Nb].
      intros [I|I]; [|now apply Na]. cbn in I. subst k'. now rewrite bytes_eqb_refl in E.
Qed.
Lemma filter_known ks l k : In k ks -> filter (fun m => bytes_eqb (fst m) k) (known ks l) = filter (fun m => bytes_eqb (fst m) k) l.
Proof.
  intros I. unfold known. induction l as [|[k' v] l IH]; [reflexivity|]. cbn [filter fst]. destruct (existsb (bytes_eqb k') ks) eqn:E; cbn [filter fst].
  - now rewrite IH.
  - destruct (bytes_eqb k' k) eqn:Q; [|exact IH]. apply bytes_eqb_eq in Q. subst k'. exfalso.
    assert (existsb (bytes_eqb k) ks = true) by (apply existsb_exists; exists k; split; [exact I|apply bytes_eqb_refl]). congruence.
Qed.
Lemma permutation_filter {A} (f : A -> bool) l l' : Permutation l l' -> Permutation (filter f l) (filter f l').
Proof.
  induction 1 as [|x l l' P IH|x y l|l l' l'' P IH P' IH']; cbn [filter].
  - constructor.
  - destruct (f x); auto.
  - destruct (f x), (f y); auto. constructor.
  - eapply Permutation_trans; eassumption.
Qed.
Lemma member_known ks l l' k v : In k ks -> Permutation (known ks l) (known ks l') -> member l k v -> member l' k v.
Proof.
  intros I P. rewrite !member_filter, <- (filter_known ks l k I), <- (filter_known ks l' k I). intros H.
  apply (permutation_filter (fun m => bytes_eqb (fst m) k)) in P. rewrite H in P. now apply Permutation_length_1_inv in P.
Qed.
Lemma record_known all ks l l' vs : incl ks all -> Permutation (known all l) (known all l') ->
  record_of ks (JObj l) vs -> record_of ks (JObj l') vs.
Proof.
  intros S P [(l0 & E & F)|[E _]]; [|discriminate]. injection E as <-. left. exists l'. split; [reflexivity|].
  induction F as [|k v ks vs M F IH]; constructor.
  - apply (member_known all l l' k v); [apply S; now left|exact P|exact M].
  - apply IH. intros x X. apply S. now right.
Qed.

(** Two values that read the same. *)
Lemma json_same {A B} (P : json -> A -> Prop) (k : A -> B) j j' x y : (forall j a c, P j a -> P j c -> a = c) ->
  (forall a, P j a <-> P j' a) -> json_as P k j x -> json_as P k j' y -> x = y.
Proof.
  intros F I [(a & X & ->)|[N ->]] [(a' & X' & ->)|[N' ->]].
  - apply I in X. now rewrite (F _ _ _ X X').
  - apply I in X. destruct (N' _ X).
  - apply I in X'. destruct (N _ X').
  - reflexivity.
Qed.

Lemma info_same l l' i : Permutation (known (map str ["peer_version"; "pox_consensus"; "burn_block_height"; "stable_pox_consensus"; "stable_burn_block_height";
    "server_version"; "network_id"; "parent_network_id"; "stacks_tip_height"; "stacks_tip"; "stacks_tip_consensus_hash"; "genesis_chainstate_hash"]%string) l)
    (known (map str ["peer_version"; "pox_consensus"; "burn_block_height"; "stable_pox_consensus"; "stable_burn_block_height";
    "server_version"; "network_id"; "parent_network_id"; "stacks_tip_height"; "stacks_tip"; "stacks_tip_consensus_hash"; "genesis_chainstate_hash"]%string) l') ->
  info_json (JObj l) i -> info_json (JObj l') i.
Proof. intros P [R B]. split; [|exact B]. revert R. apply (record_known _ _ l l' _ (incl_refl _) P). Qed.
Lemma address_same l l' i : Permutation (known (map str ["balance"; "locked"; "unlock_height"; "nonce"; "balance_proof"; "nonce_proof"]%string) l)
    (known (map str ["balance"; "locked"; "unlock_height"; "nonce"; "balance_proof"; "nonce_proof"]%string) l') ->
  address_json (JObj l) i -> address_json (JObj l') i.
Proof. intros P [R B]. split; [|exact B]. revert R. apply (record_known _ _ l l' _ (incl_refl _) P). Qed.
Lemma rejection_same l l' e : Permutation (known (map str ["error"; "reason"; "txid"]%string) l) (known (map str ["error"; "reason"; "txid"]%string) l') ->
  rejection_json (JObj l) e -> rejection_json (JObj l') e.
Proof. intros P. apply (record_known _ _ l l' _ (incl_refl _) P). Qed.
Lemma fees_same l l' e : Permutation (known [str "estimations"%string] l) (known [str "estimations"%string] l') ->
  fees_json (JObj l) e -> fees_json (JObj l') e.
Proof. intros P (x & R & F). exists x. split; [|exact F]. revert R. apply (record_known _ _ l l' _ (incl_refl _) P). Qed.
Lemma read_only_same l l' r : Permutation (known (map str ["okay"; "result"; "cause"]%string) l) (known (map str ["okay"; "result"; "cause"]%string) l') ->
  read_only_json (JObj l) r -> read_only_json (JObj l') r.
Proof.
  intros P. assert (I1 : incl (map str ["okay"; "result"]%string) (map str ["okay"; "result"; "cause"]%string)) by (intros x X; cbn in *; tauto).
  assert (I2 : incl (map str ["okay"; "cause"]%string) (map str ["okay"; "result"; "cause"]%string)) by (intros x X; cbn in *; tauto).
  destruct r as [o s|o s]; cbn [read_only_json].
  - apply (record_known _ _ l l' _ I1 P).
  - intros [C N]. split; [revert C; apply (record_known _ _ l l' _ I2 P)|]. intros o' s' R. apply (N o' s').
    revert R. apply (record_known _ _ l' l _ I1 (Permutation_sym P)).
Qed.

(** ** A node that always answers the same *)
Lemma estimate_of o url t x : estimate_fee (fun _ => o) url t = Ok x -> estimate_result o (Ok x).
Proof.
  unfold estimate_fee. destruct (estimate_request url t) as [rq|e|p|]; cbn [bind]; try discriminate. intros <-.
  destruct o as [r|c r|]; cbn [estimate_result]; [apply into_json_read, parse_fee_iff| |reflexivity]. unfold read_text, io. destruct (rs_text r); reflexivity.
Qed.
Lemma broadcast_of o url t x : broadcast (fun _ => o) url t = Ok x -> broadcast_result o (Ok x).
Proof.
  unfold broadcast. destruct (broadcast_request url t) as [rq|e|p|]; cbn [bind]; try discriminate. intros <-.
  destruct o as [r|c r|]; cbn [broadcast_result]; [|apply into_json_read, parse_broadcast_iff|reflexivity]. unfold read_text, io. destruct (rs_text r); reflexivity.
Qed.
Lemma read_only_of o url addr name fname args sender x : read_only (fun _ => o) url addr name fname args sender = Ok x -> plain_result read_only_json o (Ok x).
Proof.
  unfold read_only. destruct (read_only_request url addr name fname args sender) as [rq|e|p|]; cbn [bind]; try discriminate. intros <-.
  destruct o as [r|c r|]; cbn [plain_result]; [apply into_json_plain, parse_read_only_iff|reflexivity..].
Qed.
