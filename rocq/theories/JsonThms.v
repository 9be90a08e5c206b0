(** Proofs about JSON text (C82, C83). *)

From Coq Require Import Strings.String Sorting.Sorted Lia ZifyBool ZifyNat ZifyN.
From Verif Require Import Base BaseFacts SpecUtf8 Utf8 Utf8Facts Utf8Thms SpecText SpecShow Clarity SpecWire ShowFacts Tx SpecTx F64 F64Show Rpc SpecClient SpecJson SpecF64 F64Thms F64ShowThms F64ReadThms ClientThms FlowThms Json.
Local Open Scope list_scope.
Local Open Scope N_scope.

(** ** Strings *)
Lemma hex_value_fun c n m : hex_value c n -> hex_value c m -> n = m.
Proof. unfold hex_value. lia. Qed.
Lemma code_unit_fun t n m : code_unit t n -> code_unit t m -> n = m.
Proof.
  intros (a & b & c & d & i & j & k & l & -> & A & B & C & D & ->) (a' & b' & c' & d' & i' & j' & k' & l' & E & A' & B' & C' & D' & ->).
  injection E as <- <- <- <-. rewrite (hex_value_fun a i i'), (hex_value_fun b j j'), (hex_value_fun c k k'), (hex_value_fun d l l') by assumption.
  reflexivity.
Qed.
Lemma code_unit_length t n : code_unit t n -> length t = 4%nat.
Proof. intros (a & b & c & d & i & j & k & l & -> & _). reflexivity. Qed.
Lemma short_fun e c c' : In (e, c) short_escapes -> In (e, c') short_escapes -> c = c'.
Proof.
  cbn. intros H H'. repeat (destruct H as [H|H]; [injection H as <- <-; repeat (destruct H' as [H'|H']; [try discriminate H'; now injection H'|]); destruct H'|]).
  destruct H.
Qed.
Lemma short_not_u c : ~ In (x75, c) short_escapes.
Proof. cbn. intuition discriminate. Qed.

Lemma chars_fun t s : chars t s -> forall t' s' r r', chars t' s' -> t ++ x22 :: r = t' ++ x22 :: r' -> t = t' /\ s = s' /\ r = r'.
Proof.
  intros H. induction H as [|c t s L N1 N2 H IH|e c t s I H IH|u n t s U V H IH|u v n m t s U V Bn Bm H IH]; intros t' s' r r' K E;
    inversion K as [|c' t1 s1 L' N1' N2' H'|e' c' t1 s1 I' H'|u' n' t1 s1 U' V' H'|u' v' n' m' t1 s1 U' V' Bn' Bm' H']; subst;
    cbn [app] in E; try (apply (f_equal (@hd byte x00)) in E; cbn [hd] in E; congruence).
  - injection E as <-. auto.
  - injection E as <- E. destruct (IH _ _ _ _ H' E) as (-> & -> & ->). auto.
  - injection E as <- E. destruct (IH _ _ _ _ H' E) as (-> & -> & ->). rewrite (short_fun e c c') by assumption. auto.
  - injection E as -> E. now apply short_not_u in I.
  - injection E as -> E. now apply short_not_u in I.
  - injection E as <- E. now apply short_not_u in I'.
  - injection E as E. rewrite <- !app_assoc in E. apply app_inj_len in E; [|now rewrite (code_unit_length u n U), (code_unit_length u' n' U')].
    destruct E as [<- E]. rewrite (code_unit_fun u n n') by assumption. destruct (IH _ _ _ _ H' E) as (-> & -> & ->). auto.
  - injection E as E. rewrite <- !app_assoc in E. apply app_inj_len in E; [|now rewrite (code_unit_length u n U), (code_unit_length u' n' U')].
    destruct E as [<- E]. pose proof (code_unit_fun u n n' U U'). clear - V Bn' H0. unfold scalar_value in V. lia.
  - injection E as <- E. now apply short_not_u in I'.
  - injection E as E. rewrite <- !app_assoc in E. apply app_inj_len in E; [|now rewrite (code_unit_length u n U), (code_unit_length u' n' U')].
    destruct E as [<- E]. pose proof (code_unit_fun u n n' U U'). clear - V' Bn H0. unfold scalar_value in V'. lia.
  - injection E as E. rewrite <- !app_assoc in E. apply app_inj_len in E; [|now rewrite (code_unit_length u n U), (code_unit_length u' n' U')].
    destruct E as [<- E]. cbn [app] in E. injection E as E. rewrite <- !app_assoc in E.
    apply app_inj_len in E; [|now rewrite (code_unit_length v m V), (code_unit_length v' m' V')]. destruct E as [<- E].
    rewrite (code_unit_fun u n n'), (code_unit_fun v m m') by assumption. destruct (IH _ _ _ _ H' E) as (-> & -> & ->). auto.
Qed.

Lemma string_fun t s t' s' r r' : string_text t s -> string_text t' s' -> t ++ r = t' ++ r' -> t = t' /\ s = s'.
Proof.
  intros (_ & c & C & ->) (_ & c' & C' & ->) E. cbn [app] in E. injection E as E. rewrite <- !app_assoc in E. cbn [app] in E.
  destruct (chars_fun _ _ C _ _ _ _ C' E) as (-> & -> & _). auto.
Qed.

(** ** Numbers *)
Lemma digits_numeric t : Forall digit t -> Forall numeric t.
Proof. apply Forall_impl. intros c D. now left. Qed.
Lemma decimal_numeric n t : decimal n t -> Forall numeric t /\ t <> [] /\ digit (hd x00 t).
Proof.
  intros (D & _ & F). split; [now apply digits_numeric|]. destruct F as [->|(c & r & -> & _)].
  - split; [discriminate|]. now inversion D.
  - split; [discriminate|]. now inversion D.
Qed.
Definition num_head (c : byte) : Prop := digit c \/ c = x2d.
Lemma number_chars t j : number_text t j -> Forall numeric t /\ t <> [] /\ num_head (hd x00 t) /\ ((exists z, j = JInt z) \/ exists x, j = JFloat x).
Proof.
  intros [(z & _ & S & ->)|(_ & m & i & f & e & M & I & F & X & -> & ->)].
  - destruct S as [[_ D]|[_ (r & -> & D)]]; apply decimal_numeric in D; destruct D as (A & B & C).
    + split; [exact A|]. split; [exact B|]. split; [now left|eauto].
    + split; [constructor; [right; cbn; auto|exact A]|]. split; [discriminate|]. split; [now right|eauto].
  - assert (Ii : Forall numeric i /\ i <> [] /\ digit (hd x00 i)).
    { destruct I as [->|[[N D] _]].
      - split; [constructor; [left; unfold digit; cbn; lia|constructor]|]. split; [discriminate|]. unfold digit. cbn. lia.
      - split; [now apply digits_numeric|]. split; [exact N|]. destruct i; [now destruct N|]. now inversion D. }
    destruct Ii as (I1 & I2 & I3). split; [|split; [|split; [|eauto]]].
    + apply Forall_app. split.
      * destruct M as [->| ->]; [constructor|]. constructor; [right; cbn; auto|constructor].
      * apply Forall_app. split; [exact I1|]. apply Forall_app. split.
        -- destruct F as [->|(d & [_ D] & ->)]; [constructor|]. constructor; [right; cbn; auto|now apply digits_numeric].
        -- destruct X as [->|(c & s & d & C & S & [_ D] & ->)]; [constructor|]. constructor.
           ++ right. destruct C as [->| ->]; cbn; auto 10.
           ++ apply Forall_app. split; [|now apply digits_numeric].
              destruct S as [->|[->| ->]]; [constructor|constructor; [right; cbn; auto 10|constructor]..].
    + destruct M as [->| ->]; [|discriminate]. destruct i; [now destruct I2|discriminate].
    + destruct M as [->| ->]; [|now right]. left. destruct i; [now destruct I2|]. exact I3.
Qed.
Lemma number_fun t j j' : number_text t j -> number_text t j' -> j = j'.
Proof.
  intros [(z & B & S & ->)|(N & m & i & f & e & _ & _ & _ & _ & _ & ->)] [(z' & B' & S' & ->)|(N' & m' & i' & f' & e' & _ & _ & _ & _ & _ & ->)].
  - f_equal. exact (signed_fun _ _ _ S S').
  - now apply N' in S.
  - now apply N in S'.
  - reflexivity.
Qed.

(** ** One reading *)
Definition stop (c : byte) : Prop := blank c \/ In c [x2c; x5d; x7d; x3a].
Definition ends (r : bytes) : Prop := match r with [] => True | c :: _ => stop c end.

Lemma stop_not_numeric c : stop c -> ~ numeric c.
Proof.
  intros S K. assert (C : In c [x20; x09; x0a; x0d; x2c; x5d; x7d; x3a]) by (unfold stop, blank in S; cbn in *; tauto). clear S.
  unfold numeric, digit in K. cbn in C.
  repeat (destruct C as [<-|C]; [destruct K as [K|K]; [cbn in K; lia|cbn in K; intuition discriminate]|]). destruct C.
Qed.
Lemma ends_halts r : ends r -> halts numeric r.
Proof. destruct r; cbn; [auto|apply stop_not_numeric]. Qed.

Definition kind (j : json) : N :=
  match j with JNull => 0 | JBool true => 1 | JBool false => 2 | JInt _ | JFloat _ => 3 | JStr _ => 4 | JArr _ => 5 | JObj _ => 6 end.
Definition head_of (c : byte) (k : N) : Prop :=
  match k with
  | 0 => c = x6e | 1 => c = x74 | 2 => c = x66 | 3 => num_head c | 4 => c = x22 | 5 => c = x5b | _ => c = x7b
  end.
Lemma kind_small j : kind j <= 6.
Proof. destruct j as [|[]| | | | |]; cbn; lia. Qed.
Lemma head_fun c k k' : k <= 6 -> k' <= 6 -> head_of c k -> head_of c k' -> k = k'.
Proof.
  intros B B' H H'.
  assert (K : k = 0 \/ k = 1 \/ k = 2 \/ k = 3 \/ k = 4 \/ k = 5 \/ k = 6) by lia.
  assert (K' : k' = 0 \/ k' = 1 \/ k' = 2 \/ k' = 3 \/ k' = 4 \/ k' = 5 \/ k' = 6) by lia. clear B B'.
  repeat (destruct K as [->|K]); try subst k; repeat (destruct K' as [->|K']); try subst k'; try reflexivity;
    cbn [head_of] in H, H'; unfold num_head, digit in H, H';
    try (rewrite H in H'; discriminate H');
    try (rewrite H in H'; destruct H' as [H'|H']; [cbn in H'; lia|discriminate H']);
    try (rewrite H' in H; destruct H as [H|H]; [cbn in H; lia|discriminate H]).
Qed.
Lemma value_head t j : value_text t j -> exists c s, t = c :: s /\ head_of c (kind j).
Proof.
  intros H. destruct H as [| | |t j N|t s (_ & c & _ & ->)|w W|t l I|w W|t l M]; try (eexists _, _; split; [reflexivity|reflexivity]).
  destruct (number_chars t j N) as (_ & Ne & Hd & J). destruct t as [|c s]; [now destruct Ne|]. exists c, s. split; [reflexivity|].
  destruct J as [[z ->]|[x ->]]; exact Hd.
Qed.
Lemma head_not_stop c k : k <= 6 -> head_of c k -> ~ stop c.
Proof.
  intros B H S. unfold stop, blank in S.
  assert (C : In c [x20; x09; x0a; x0d; x2c; x5d; x7d; x3a]) by (cbn in *; tauto). clear S.
  assert (K : k = 0 \/ k = 1 \/ k = 2 \/ k = 3 \/ k = 4 \/ k = 5 \/ k = 6) by lia. clear B.
  cbn in C. repeat (destruct K as [->|K]); try subst k; cbn [head_of] in H; unfold num_head, digit in H;
    try (subst c; intuition discriminate);
    repeat (destruct C as [<-|C]; [destruct H as [H|H]; [cbn in H; lia|discriminate H]|]); destruct C.
Qed.
Lemma same_kind_of t j t' j' r r' : value_text t j -> value_text t' j' -> t ++ r = t' ++ r' -> kind j = kind j'.
Proof.
  intros H H' E. destruct (value_head t j H) as (c & s & -> & C), (value_head t' j' H') as (c' & s' & -> & C').
  cbn [app] in E. injection E as <- _. exact (head_fun c _ _ (kind_small j) (kind_small j') C C').
Qed.

Lemma ws_halts w r c s : r = c :: s -> ~ blank c -> ws w -> halts blank r.
Proof. intros -> N _. exact N. Qed.

Scheme value_mut := Minimality for value_text Sort Prop
  with items_mut := Minimality for items_text Sort Prop
  with members_mut := Minimality for members_text Sort Prop.
Combined Scheme text_mut from value_mut, items_mut, members_mut.

Lemma value_not_blank t j r : value_text t j -> halts blank (t ++ r).
Proof. intros H. destruct (value_head t j H) as (c & s & -> & C). cbn. intros B. apply (head_not_stop c _ (kind_small j) C). now left. Qed.
Lemma string_not_blank t s r : string_text t s -> halts blank (t ++ r).
Proof. intros (_ & c & _ & ->). cbn. unfold blank. cbn. intuition discriminate. Qed.
Lemma ws_ends w c r : ws w -> stop c -> ends (w ++ c :: r).
Proof. intros W S. destruct w as [|x w]; [exact S|]. inversion W; subst. now left. Qed.
Lemma not_blank c : In c [x2c; x5d; x7d; x3a] -> ~ blank c.
Proof. unfold blank. cbn. intros H K. repeat (destruct H as [H|H]; [subst c; intuition discriminate|]). destruct H. Qed.

Lemma items_first t l r c s : items_text t l -> ws c -> c ++ x5d :: s = t ++ r -> False.
Proof.
  intros H W E. assert (exists a v j q, ws a /\ value_text v j /\ t = a ++ v ++ q) as (a & v & j & q & A & V & ->).
  { destruct H as [a t b j A B V|a t b j u l A B V I]; [exists a, t, j, b|exists a, t, j, (b ++ x2c :: u)]; auto. }
  rewrite <- !app_assoc in E. apply (span blank) in E; [|exact W|exact A|apply not_blank; cbn; auto|now apply (value_not_blank v j)].
  destruct E as [_ E]. destruct (value_head v j V) as (x & y & -> & C). cbn [app] in E. injection E as <- _.
  apply (head_not_stop _ _ (kind_small j) C). right. cbn. auto.
Qed.
Lemma members_first t l r c s : members_text t l -> ws c -> c ++ x7d :: s = t ++ r -> False.
Proof.
  intros H W E. assert (exists a k x q, ws a /\ string_text k x /\ t = a ++ k ++ q) as (a & k & x & q & A & S & ->).
  { destruct H as [a k b c0 t d s0 j A B C D S V|a k b c0 t d s0 j u l A B C D S V I]; [exists a, k, s0, (b ++ x3a :: c0 ++ t ++ d)|
      exists a, k, s0, (b ++ x3a :: c0 ++ t ++ d ++ x2c :: u)]; auto. }
  rewrite <- !app_assoc in E. apply (span blank) in E; [|exact W|exact A|apply not_blank; cbn; auto|now apply (string_not_blank k x)].
  destruct E as [_ E]. destruct S as (_ & y & _ & ->). cbn [app] in E. discriminate.
Qed.

Definition one_value (t : bytes) (j : json) : Prop :=
  forall t' j' r r', value_text t' j' -> ends r -> ends r' -> t ++ r = t' ++ r' -> t = t' /\ j = j'.
Definition one_items (t : bytes) (l : list json) : Prop :=
  forall t' l' r r', items_text t' l' -> t ++ x5d :: r = t' ++ x5d :: r' -> t = t' /\ l = l'.
Definition one_members (t : bytes) (l : list (bytes * json)) : Prop :=
  forall t' l' r r', members_text t' l' -> t ++ x7d :: r = t' ++ x7d :: r' -> t = t' /\ l = l'.

Lemma app_bracket (a : bytes) c r : (a ++ [c]) ++ r = a ++ c :: r.
Proof. now rewrite <- app_assoc. Qed.

Lemma next_value t j t' j' b c r b' c' r' : one_value t j -> value_text t' j' -> ws b -> ws b' ->
  t ++ b ++ c :: r = t' ++ b' ++ c' :: r' -> In c [x2c; x5d; x7d; x3a] -> In c' [x2c; x5d; x7d; x3a] ->
  t = t' /\ j = j' /\ b = b' /\ c = c' /\ r = r'.
Proof.
  intros IH V B B' E C C'. destruct (IH t' j' _ _ V (ws_ends b c r B (or_intror C)) (ws_ends b' c' r' B' (or_intror C')) E) as [<- <-].
  apply app_inv_head in E. apply (span blank) in E; [|exact B|exact B'|now apply not_blank..]. destruct E as [<- E]. injection E as <- <-. auto.
Qed.

Lemma one_reading : (forall t j, value_text t j -> one_value t j) /\ (forall t l, items_text t l -> one_items t l)
  /\ (forall t l, members_text t l -> one_members t l).
Proof.
  apply text_mut.
  - intros t' j' r r' V _ _ E. pose proof (same_kind_of _ _ _ _ _ _ text_null V E) as K.
    destruct V as [| | |t j N|t s S|w W|t l I|w W|t l M]; try discriminate K; auto.
    destruct (number_chars t j N) as (_ & _ & _ & [[z ->]|[x ->]]); discriminate K.
  - intros t' j' r r' V _ _ E. pose proof (same_kind_of _ _ _ _ _ _ text_true V E) as K.
    destruct V as [| | |t j N|t s S|w W|t l I|w W|t l M]; try discriminate K; auto.
    destruct (number_chars t j N) as (_ & _ & _ & [[z ->]|[x ->]]); discriminate K.
  - intros t' j' r r' V _ _ E. pose proof (same_kind_of _ _ _ _ _ _ text_false V E) as K.
    destruct V as [| | |t j N|t s S|w W|t l I|w W|t l M]; try discriminate K; auto.
    destruct (number_chars t j N) as (_ & _ & _ & [[z ->]|[x ->]]); discriminate K.
  - intros t j N t' j' r r' V R R' E. pose proof (same_kind_of _ _ _ _ _ _ (text_number t j N) V E) as K.
    destruct (number_chars t j N) as (F & _ & _ & J). assert (K3 : kind j = 3) by (destruct J as [[z ->]|[x ->]]; reflexivity). rewrite K3 in K.
    destruct V as [| | |t' j' N'|t' s S|w W|t' l I|w W|t' l M]; try discriminate K.
    destruct (number_chars t' j' N') as (F' & _). destruct (span numeric t t' r r' F F' (ends_halts r R) (ends_halts r' R') E) as [<- _].
    split; [reflexivity|]. exact (number_fun t j j' N N').
  - intros t s S t' j' r r' V R R' E. pose proof (same_kind_of _ _ _ _ _ _ (text_string t s S) V E) as K.
    destruct V as [| | |t' j' N'|t' s' S'|w W|t' l I|w W|t' l M]; try discriminate K.
    + destruct (number_chars t' j' N') as (_ & _ & _ & [[z ->]|[x ->]]); discriminate K.
    + destruct (string_fun t s t' s' r r' S S' E) as [-> ->]. auto.
  - intros w W t' j' r r' V R R' E. pose proof (same_kind_of _ _ _ _ _ _ (text_no_items w W) V E) as K.
    destruct V as [| | |t' j' N'|t' s' S'|w' W'|t' l I|w' W'|t' l M]; try discriminate K.
    + destruct (number_chars t' j' N') as (_ & _ & _ & [[z ->]|[x ->]]); discriminate K.
    + cbn [app] in E. injection E as E. rewrite !app_bracket in E.
      apply (span blank) in E; [destruct E as [-> _]; auto|exact W|exact W'|apply not_blank; cbn; auto..].
    + cbn [app] in E. injection E as E. rewrite !app_bracket in E. now apply (items_first t' l (x5d :: r') w r I W) in E.
  - intros t l I IH t' j' r r' V R R' E. pose proof (same_kind_of _ _ _ _ _ _ (text_array t l I) V E) as K.
    destruct V as [| | |t' j' N'|t' s' S'|w' W'|t' l' I'|w' W'|t' l' M]; try discriminate K.
    + destruct (number_chars t' j' N') as (_ & _ & _ & [[z ->]|[x ->]]); discriminate K.
    + cbn [app] in E. injection E as E. rewrite !app_bracket in E. symmetry in E. now apply (items_first t l (x5d :: r) w' r' I W') in E.
    + cbn [app] in E. injection E as E. rewrite !app_bracket in E. destruct (IH _ _ _ _ I' E) as [-> ->]. auto.
  - intros w W t' j' r r' V R R' E. pose proof (same_kind_of _ _ _ _ _ _ (text_no_members w W) V E) as K.
    destruct V as [| | |t' j' N'|t' s' S'|w' W'|t' l I|w' W'|t' l M]; try discriminate K.
    + destruct (number_chars t' j' N') as (_ & _ & _ & [[z ->]|[x ->]]); discriminate K.
    + cbn [app] in E. injection E as E. rewrite !app_bracket in E.
      apply (span blank) in E; [destruct E as [-> _]; auto|exact W|exact W'|apply not_blank; cbn; auto..].
    + cbn [app] in E. injection E as E. rewrite !app_bracket in E. now apply (members_first t' l (x7d :: r') w r M W) in E.
  - intros t l M IH t' j' r r' V R R' E. pose proof (same_kind_of _ _ _ _ _ _ (text_object t l M) V E) as K.
    destruct V as [| | |t' j' N'|t' s' S'|w' W'|t' l' I'|w' W'|t' l' M']; try discriminate K.
    + destruct (number_chars t' j' N') as (_ & _ & _ & [[z ->]|[x ->]]); discriminate K.
    + cbn [app] in E. injection E as E. rewrite !app_bracket in E. symmetry in E. now apply (members_first t l (x7d :: r) w' r' M W') in E.
    + cbn [app] in E. injection E as E. rewrite !app_bracket in E. destruct (IH _ _ _ _ M' E) as [-> ->]. auto.
  - intros a t b j A B V IH t' l' r r' I E. destruct I as [a' t' b' j' A' B' V'|a' t' b' j' u' l' A' B' V' I'];
      repeat (rewrite <- !app_assoc in E; cbn [app] in E);
      (apply (span blank) in E; [|exact A|exact A'|now apply (value_not_blank t j)|now apply (value_not_blank t' j')]; destruct E as [<- E]);
      (apply (next_value t j t' j') in E; [|assumption..|cbn; auto|cbn; auto]); destruct E as (<- & <- & <- & E & _); [auto|discriminate].
  - intros a t b j u l A B V IH I IHu t' l' r r' I' E. destruct I' as [a' t' b' j' A' B' V'|a' t' b' j' u' l' A' B' V' I'];
      repeat (rewrite <- !app_assoc in E; cbn [app] in E);
      (apply (span blank) in E; [|exact A|exact A'|now apply (value_not_blank t j)|now apply (value_not_blank t' j')]; destruct E as [<- E]);
      (apply (next_value t j t' j') in E; [|assumption..|cbn; auto|cbn; auto]); destruct E as (<- & <- & <- & E & F); [discriminate|].
    destruct (IHu _ _ _ _ I' F) as [-> ->]. auto.
  - intros a k b c t d s j A B C D S V IH t' l' r r' M E.
    destruct M as [a' k' b' c' t' d' s' j' A' B' C' D' S' V'|a' k' b' c' t' d' s' j' u' l' A' B' C' D' S' V' M'];
      repeat (rewrite <- !app_assoc in E; cbn [app] in E);
      (apply (span blank) in E; [|exact A|exact A'|now apply (string_not_blank k s)|now apply (string_not_blank k' s')]; destruct E as [<- E]);
      (destruct (string_fun k s k' s' _ _ S S' E) as [<- <-]; apply app_inv_head in E);
      (apply (span blank) in E; [|exact B|exact B'|apply not_blank; cbn; auto..]; destruct E as [<- E]; injection E as E);
      (apply (span blank) in E; [|exact C|exact C'|now apply (value_not_blank t j)|now apply (value_not_blank t' j')]; destruct E as [<- E]);
      (apply (next_value t j t' j') in E; [|assumption..|cbn; auto|cbn; auto]); destruct E as (<- & <- & <- & E & _); [auto|discriminate].
  - intros a k b c t d s j u l A B C D S V IH M IHu t' l' r r' M' E.
    destruct M' as [a' k' b' c' t' d' s' j' A' B' C' D' S' V'|a' k' b' c' t' d' s' j' u' l' A' B' C' D' S' V' M'];
      repeat (rewrite <- !app_assoc in E; cbn [app] in E);
      (apply (span blank) in E; [|exact A|exact A'|now apply (string_not_blank k s)|now apply (string_not_blank k' s')]; destruct E as [<- E]);
      (destruct (string_fun k s k' s' _ _ S S' E) as [<- <-]; apply app_inv_head in E);
      (apply (span blank) in E; [|exact B|exact B'|apply not_blank; cbn; auto..]; destruct E as [<- E]; injection E as E);
      (apply (span blank) in E; [|exact C|exact C'|now apply (value_not_blank t j)|now apply (value_not_blank t' j')]; destruct E as [<- E]);
      (apply (next_value t j t' j') in E; [|assumption..|cbn; auto|cbn; auto]); destruct E as (<- & <- & <- & E & F); [discriminate|].
    destruct (IHu _ _ _ _ M' F) as [-> ->]. auto.
Qed.

Lemma document_fun b j j' : document b j -> document b j' -> j = j'.
Proof.
  intros (u & t & v & U & V & T & ->) (u' & t' & v' & U' & V' & T' & E).
  apply (span blank) in E; [|exact U|exact U'|now apply (value_not_blank t j)|now apply (value_not_blank t' j')]. destruct E as [_ E].
  assert (W : forall w, ws w -> ends w) by (intros [|x w] X; [exact I|inversion X; now left]).
  now apply (proj1 one_reading t j T t' j' v v' T' (W v V) (W v' V') E).
Qed.

(** ** What is written *)
Lemma hex_digit_value n : n < 16 -> hex_value (hex_digit n) n.
Proof.
  intros B. unfold hex_digit, hex_value. destruct (n <? 10) eqn:L.
  - apply N.ltb_lt in L. left. rewrite b2n_n2b by lia. lia.
  - apply N.ltb_ge in L. right. right. rewrite b2n_n2b by lia. lia.
Qed.
Lemma escape_chars b t s : chars t s -> chars (escape b ++ t) (b :: s).
Proof.
  intros H.
  assert (P : In b [x22; x5c; x08; x09; x0a; x0c; x0d] \/ ~ In b [x22; x5c; x08; x09; x0a; x0c; x0d]).
  { destruct (in_dec Byte.byte_eq_dec b [x22; x5c; x08; x09; x0a; x0c; x0d]); auto. }
  destruct P as [I|N].
  - cbn in I. repeat (destruct I as [<-|I]; [cbn [escape app]; apply chars_short; [cbn; auto 10|exact H]|]). destruct I.
  - assert (E : escape b = if b2n b <? 32 then str "\u00" ++ [hex_digit (b2n b / 16); hex_digit (b2n b mod 16)] else [b]).
    { destruct b; try reflexivity; exfalso; apply N; cbn; auto 10. }
    rewrite E. clear E. destruct (b2n b <? 32) eqn:L.
    + apply N.ltb_lt in L. change (b :: s) with ([b] ++ s).
      replace [b] with (utf8_text (b2n b)).
      2:{ unfold utf8_text. replace (b2n b <? 128) with true by (symmetry; apply N.ltb_lt; lia). f_equal. now apply octet_eq. }
      change ((str "\u00" ++ [hex_digit (b2n b / 16); hex_digit (b2n b mod 16)]) ++ t)
        with (x5c :: x75 :: [x30; x30; hex_digit (b2n b / 16); hex_digit (b2n b mod 16)] ++ t).
      apply chars_unit; [|left; lia|exact H].
      exists x30, x30, (hex_digit (b2n b / 16)), (hex_digit (b2n b mod 16)), 0, 0, (b2n b / 16), (b2n b mod 16).
      split; [reflexivity|]. split; [left; cbn; lia|]. split; [left; cbn; lia|].
      split; [apply hex_digit_value; clear - L; lia|]. split; [apply hex_digit_value; clear; lia|]. clear. lia.
    + apply N.ltb_ge in L. cbn [app]. apply chars_plain; [exact L|intros ->; apply N; cbn; auto..|exact H].
Qed.
Lemma quoted_text s : utf8 s -> string_text (quoted s) s.
Proof.
  intros U. split; [exact U|]. exists (flat_map escape s). split; [|reflexivity]. clear U.
  induction s as [|b s IH]; [constructor|]. cbn [flat_map]. now apply escape_chars.
Qed.

Section json_induction.
Variable P : json -> Prop.
Hypothesis at_null : P JNull.
Hypothesis at_bool : forall b, P (JBool b).
Hypothesis at_int : forall z, P (JInt z).
Hypothesis at_float : forall t, P (JFloat t).
Hypothesis at_str : forall s, P (JStr s).
Hypothesis at_arr : forall l, Forall P l -> P (JArr l).
Hypothesis at_obj : forall l, Forall (fun kv => P (snd kv)) l -> P (JObj l).
Fixpoint json_induction (j : json) : P j :=
  match j with
  | JNull => at_null
  | JBool b => at_bool b
  | JInt z => at_int z
  | JFloat t => at_float t
  | JStr s => at_str s
  | JArr l => at_arr l ((fix go l := match l return Forall P l with [] => Forall_nil _ | x :: r => Forall_cons _ (json_induction x) (go r) end) l)
  | JObj l => at_obj l ((fix go l := match l return Forall (fun kv => P (snd kv)) l with
                                     | [] => Forall_nil _ | x :: r => Forall_cons _ (json_induction (snd x)) (go r) end) l)
  end.
End json_induction.

Lemma no_ws : ws [].
Proof. constructor. Qed.
Lemma commas_items l : l <> [] -> Forall (fun j => value_text (json_text j) j) l -> items_text (commas (map json_text l)) l.
Proof.
  intros N F. induction F as [|x r V F IH]; [now destruct N|]. destruct r as [|y r].
  - cbn [map commas]. pose proof (items_one [] (json_text x) [] x no_ws no_ws V) as K. cbn [app] in K. now rewrite app_nil_r in K.
  - cbn [map commas]. apply (items_more [] (json_text x) [] x); [apply no_ws..|exact V|]. apply IH. discriminate.
Qed.
Definition pair_text (kv : bytes * json) : bytes := let '(k, v) := kv in quoted k ++ x3a :: json_text v.
Lemma commas_members l : l <> [] -> Forall (fun kv => utf8 (fst kv) /\ value_text (json_text (snd kv)) (snd kv)) l ->
  members_text (commas (map pair_text l)) l.
Proof.
  intros N F. induction F as [|[k v] r [U V] F IH]; [now destruct N|]. cbn [fst snd] in U, V. destruct r as [|y r].
  - cbn [map commas pair_text].
    pose proof (members_one [] (quoted k) [] [] (json_text v) [] k v no_ws no_ws no_ws no_ws (quoted_text k U) V) as K.
    cbn [app] in K. now rewrite app_nil_r in K.
  - change (commas (map pair_text ((k, v) :: y :: r))) with ((quoted k ++ x3a :: json_text v) ++ x2c :: commas (map pair_text (y :: r))).
    rewrite <- app_assoc. cbn [app].
    apply (members_more [] (quoted k) [] [] (json_text v) [] k v); [apply no_ws..|now apply quoted_text|exact V|]. apply IH. discriminate.
Qed.

Lemma sound_text j : sound j -> value_text (json_text j) j.
Proof.
  induction j as [|b|z|t|s|l IH|l IH] using json_induction; intros S; inversion S; subst; cbn [json_text].
  - constructor.
  - destruct b; constructor.
  - apply text_number. left. exists z. split; [assumption|]. split; [apply signed_show; reflexivity|reflexivity].
  - now apply text_number.
  - apply text_string. now apply quoted_text.
  - destruct l as [|x l]; [apply (text_no_items []), no_ws|]. apply text_array, commas_items; [discriminate|].
    clear S. rewrite Forall_forall in *. intros y I. apply IH; auto.
  - destruct l as [|x l]; [apply (text_no_members []), no_ws|]. apply text_object.
    apply (commas_members (x :: l)); [discriminate|]. clear S. rewrite Forall_forall in *. intros y I. destruct (H0 y I). split; [assumption|]. now apply IH.
Qed.
Lemma value_document t j : value_text t j -> document t j.
Proof. intros V. exists [], t, []. split; [apply no_ws|]. split; [apply no_ws|]. split; [exact V|]. now rewrite app_nil_r. Qed.
Lemma text_means j : sound j -> forall j', document (json_text j) j' <-> j' = j.
Proof.
  intros S j'. pose proof (value_document _ _ (sound_text j S)) as D. split; [|now intros ->]. intros D'. exact (document_fun _ _ _ D' D).
Qed.

(** ** Requests *)
Lemma hex_text_ascii b : is_ascii (hex_text b) = true.
Proof. induction b as [|x b IH]; [reflexivity|]. destruct x; exact IH. Qed.
Lemma ascii_utf8 s : is_ascii s = true -> utf8 s.
Proof. intros A. apply utf8_valid_iff. now apply utf8_valid_ascii. Qed.
Lemma hex_text_utf8 b : utf8 (hex_text b).
Proof. apply ascii_utf8, hex_text_ascii. Qed.
Lemma hex_text_inj a b : hex_text a = hex_text b -> a = b.
Proof. intros E. pose proof (hex_text_read a) as A. pose proof (hex_text_read b) as B. rewrite E in A. rewrite A in B. now injection B. Qed.

Definition call_members (sender : bytes) (ws : list wval) : json :=
  JObj [(str "arguments", JArr (map (fun w => JStr (hex_text (wser w))) ws)); (str "sender", JStr sender)].
Definition fee_members (w : wtx) : json :=
  JObj [(str "estimated_len", number (count (ser_tx w))); (str "transaction_payload", JStr (hex_text (ser_payload (w_payload w))))].

Lemma call_body url sender ws : body_bytes (rq_body (post_json url (call_question sender ws))) = json_text (call_members sender ws).
Proof. reflexivity. Qed.
Lemma fee_body url w : body_bytes (rq_body (post_json url (fee_question w))) = json_text (fee_members w).
Proof. reflexivity. Qed.

Lemma call_sound sender ws : utf8 sender -> sound (call_members sender ws).
Proof.
  intros U. constructor. constructor; [|constructor; [|constructor]]; cbn [fst snd].
  - split; [now apply ascii_utf8|]. constructor. apply Forall_forall. intros x I. apply in_map_iff in I. destruct I as (w & <- & _).
    constructor. apply hex_text_utf8.
  - split; [now apply ascii_utf8|]. now constructor.
Qed.
Lemma fee_sound w : count (ser_tx w) < 2 ^ 64 -> sound (fee_members w).
Proof.
  intros B. constructor. constructor; [|constructor; [|constructor]]; cbn [fst snd].
  - split; [now apply ascii_utf8|]. constructor. unfold small_int. lia.
  - split; [now apply ascii_utf8|]. constructor. apply hex_text_utf8.
Qed.
Lemma map_hex_inj l m : map (fun w => JStr (hex_text (wser w))) l = map (fun w => JStr (hex_text (wser w))) m -> map wser l = map wser m.
Proof.
  revert m. induction l as [|x l IH]; intros [|y m] E; try discriminate; [reflexivity|]. cbn [map] in *. injection E as E F.
  apply hex_text_inj in E. rewrite E, (IH m F). reflexivity.
Qed.

(** ** Responses *)
Lemma rate_u64 n : n < 2 ^ 64 -> as_uint 64 (jnum n) = Some n.
Proof.
  intros B. unfold as_uint, jnum. change (2 ^ Z.of_N 64)%Z with 18446744073709551616%Z. change (2 ^ 64) with 18446744073709551616 in B.
  replace (0 <=? Z.of_N n)%Z with true by (symmetry; apply Z.leb_le; lia).
  replace (Z.of_N n <? 18446744073709551616)%Z with true by (symmetry; apply Z.ltb_lt; lia). cbn [andb]. now rewrite N2Z.id.
Qed.
Lemma rate_u32 n : n < 2 ^ 32 -> as_uint 32 (jnum n) = Some n.
Proof.
  intros B. unfold as_uint, jnum. change (2 ^ Z.of_N 32)%Z with 4294967296%Z. change (2 ^ 32) with 4294967296 in B.
  replace (0 <=? Z.of_N n)%Z with true by (symmetry; apply Z.leb_le; lia).
  replace (Z.of_N n <? 4294967296)%Z with true by (symmetry; apply Z.ltb_lt; lia). cbn [andb]. now rewrite N2Z.id.
Qed.
Lemma jnum_sound n : n < 2 ^ 64 -> sound (jnum n).
Proof. intros B. constructor. unfold small_int. lia. Qed.
Lemma jnum_sound32 n : n < 2 ^ 32 -> sound (jnum n).
Proof. intros B. constructor. unfold small_int. lia. Qed.

Lemma reads_back_of {A} (read : json -> option A) j a : sound j -> read j = Some a -> reads_back read (json_text j) a.
Proof.
  intros S R. split.
  - exists j. now apply text_means.
  - intros j' D. apply text_means in D; [now subst|exact S].
Qed.

Ltac each_text := repeat match goal with H : texts (_ :: _) |- _ => inversion_clear H | H : Forall _ (_ :: _) |- _ => inversion_clear H end.
Ltac each_member := constructor; repeat (apply Forall_cons; [split; [now apply ascii_utf8|]|]); [..|apply Forall_nil]; cbn [snd];
  try (constructor; assumption); try (now apply jnum_sound); try (now apply jnum_sound32).

Lemma info_back i : storable_info i -> reads_back parse_info (json_text (info_value i)) i.
Proof.
  intros (T & B & N1 & N2). each_text. apply reads_back_of.
  - unfold info_value. each_member.
  - unfold parse_info. change (struct_of _ (info_value i)) with
      (Some [jnum (ni_peer_version i); JStr (ni_pox_consensus i); jnum (ni_burn_height i); JStr (ni_stable_pox i);
             jnum (ni_stable_burn_height i); JStr (ni_server_version i); jnum (ni_network i); jnum (ni_parent_network i);
             jnum (ni_tip_height i); JStr (ni_tip i); JStr (ni_tip_consensus i); JStr (ni_genesis i)]).
    cbn [as_str]. rewrite !rate_u64, !rate_u32 by assumption. now destruct i.
Qed.
Lemma address_back a : storable_address a -> reads_back parse_address (json_text (address_value a)) a.
Proof.
  intros (T & N1 & N2). each_text. apply reads_back_of.
  - unfold address_value. each_member.
  - unfold parse_address. change (struct_of _ (address_value a)) with
      (Some [JStr (ad_balance a); JStr (ad_locked a); jnum (ad_unlock a); jnum (ad_nonce a); JStr (ad_balance_proof a); JStr (ad_nonce_proof a)]).
    cbn [as_str]. rewrite !rate_u64 by assumption. now destruct a.
Qed.
Lemma broadcast_back r : storable_broadcast r -> reads_back read_broadcast (json_text (broadcast_value r)) r.
Proof.
  destruct r as [s|e]; cbn [storable_broadcast broadcast_value]; intros T.
  - apply reads_back_of; [now constructor|reflexivity].
  - each_text. apply reads_back_of; [unfold rejection_value; each_member|]. destruct e. reflexivity.
Qed.
Lemma read_only_back r : storable_read_only r -> reads_back parse_read_only (json_text (read_only_value r)) r.
Proof.
  destruct r as [b s|b s]; cbn [storable_read_only read_only_value]; intros T; (apply reads_back_of; [each_member; constructor|reflexivity]).
Qed.

Lemma rate_sound r : is_f64 r -> sound (rate_value r).
Proof. destruct r as [neg v|neg|]; intros F; constructor. apply written_text, F. Qed.
Lemma estimate_sound e : fe_fee e < 2 ^ 64 -> is_f64 (fe_rate e) -> sound (estimate_value e).
Proof. intros B F. pose proof (rate_sound _ F). unfold estimate_value. each_member; try assumption. Qed.
Lemma fees_sound l : Forall (fun e => fe_fee e < 2 ^ 64 /\ is_f64 (fe_rate e)) l -> sound (fees_value l).
Proof.
  intros F. assert (L : sound (JArr (map estimate_value l))).
  { constructor. apply Forall_forall. intros x I. apply in_map_iff in I as (e & <- & I). rewrite Forall_forall in F. destruct (F _ I). now apply estimate_sound. }
  unfold fees_value. each_member; try assumption.
Qed.
(** A rate as it comes back. *)
Definition rate_back (r r' : f64) : Prop := exists neg v, r = Fin neg v /\ double_of (f64_text neg v) r'.
Definition estimate_back (e e' : fee_estimate) : Prop := fe_fee e' = fe_fee e /\ rate_back (fe_rate e) (fe_rate e').
Lemma estimate_read e e' : fe_fee e < 2 ^ 64 -> estimate_back e e' -> parse_estimate (estimate_value e) = Some e'.
Proof.
  intros B [E (neg & v & R & D)]. unfold parse_estimate. change (struct_of _ (estimate_value e)) with (Some [jnum (fe_fee e); rate_value (fe_rate e)]).
  cbv beta iota. rewrite rate_u64 by assumption. rewrite R. cbn [rate_value as_f64]. apply float_iff in D. rewrite D. destruct e'. cbn in *. now subst.
Qed.
Lemma fees_read l l' : Forall (fun e => fe_fee e < 2 ^ 64) l -> Forall2 estimate_back l l' -> parse_estimates (map estimate_value l) = Some l'.
Proof.
  intros F B. revert F. induction B as [|e e' l l' E B IH]; intros F; [reflexivity|]. inversion F; subst. cbn [map parse_estimates].
  now rewrite (estimate_read e e'), IH by assumption.
Qed.
Lemma fees_back l l' : Forall (fun e => fe_fee e < 2 ^ 64 /\ is_f64 (fe_rate e)) l -> Forall2 estimate_back l l' ->
  reads_back read_estimate (json_text (fees_value l)) (EsOk l').
Proof.
  intros F B. apply reads_back_of; [now apply fees_sound|]. unfold read_estimate, parse_fee_ok. change (struct_of _ (fees_value l)) with (Some [JArr (map estimate_value l)]).
  cbv beta iota. rewrite (fees_read l l'); [reflexivity| |exact B]. eapply Forall_impl; [|exact F]. now intros e [H _].
Qed.
Lemma reason_back s : utf8 s -> reads_back read_estimate (json_text (JStr s)) (EsErr s).
Proof. intros U. apply reads_back_of; [now constructor|reflexivity]. Qed.
Lemma fees_lost l : Forall (fun e => fe_fee e < 2 ^ 64 /\ is_f64 (fe_rate e)) l -> Exists (fun e => ~ finite (fe_rate e)) l ->
  (exists j, document (json_text (fees_value l)) j)
  /\ forall j, document (json_text (fees_value l)) j -> read_estimate j = None.
Proof.
  intros F I. pose proof (fees_sound l F) as S.
  split; [exists (fees_value l); now apply text_means|]. intros j D. apply text_means in D; [subst j|exact S].
  unfold read_estimate, parse_fee_ok. change (struct_of _ (fees_value l)) with (Some [JArr (map estimate_value l)]).
  assert (P : parse_estimates (map estimate_value l) = None).
  { clear S F. induction I as [e l H|e l I IH]; cbn [map parse_estimates].
    - unfold parse_estimate. change (struct_of _ (estimate_value e)) with (Some [jnum (fe_fee e); rate_value (fe_rate e)]). cbv beta iota.
      destruct (fe_rate e); [destruct H; exact I| |]; cbn [rate_value as_f64]; now destruct (as_uint _ _).
    - rewrite IH. now destruct (parse_estimate _). }
  cbv beta iota. now rewrite P.
Qed.

(** ** Keys of an object *)

Lemma bytes_ltb_iff a : forall b, bytes_ltb a b = true <-> before a b.
Proof.
  induction a as [|x a IH]; intros [|y b]; cbn [bytes_ltb]; split; try discriminate; try (intros H; inversion H; fail).
  - constructor.
  - reflexivity.
  - intros H. apply orb_prop in H. destruct H as [H|H]; [apply before_here; apply N.ltb_lt, H|].
    apply andb_prop in H. destruct H as [E H]. apply N.eqb_eq, b2n_inj in E. subst. apply before_next, IH, H.
  - intros H. inversion H; subst; apply orb_true_intro.
    + left. apply N.ltb_lt. assumption.
    + right. rewrite N.eqb_refl. apply IH. assumption.
Qed.
Lemma before_trans a b c : before a b -> before b c -> before a c.
Proof.
  intros H. revert c. induction H; intros c K; inversion K; subst; try (constructor; lia || auto; fail).
Qed.
Lemma before_irrefl a : ~ before a a.
Proof. induction a; intros H; inversion H; subst; [lia|auto]. Qed.
Lemma before_total a : forall b, before a b \/ a = b \/ before b a.
Proof.
  induction a as [|x a IH]; intros [|y b]; auto using before_end.
  destruct (N.lt_trichotomy (Byte.to_N x) (Byte.to_N y)) as [L|[E|L]]; [left; apply before_here, L| |right; right; apply before_here, L].
  apply b2n_inj in E. subst y. destruct (IH b) as [H|[->|H]]; auto using before_next.
Qed.

Notation keys_sorted := (Sorted.StronglySorted before).

Lemma insert_keys k v l : forall x, In x (map fst (map_insert k v l)) <-> x = k \/ In x (map fst l).
Proof.
  induction l as [|[k' v'] r IH]; intros x; cbn [map_insert map fst In]; [intuition congruence|].
  destruct (bytes_ltb k k'); [cbn [map fst In]; intuition congruence|].
  destruct (bytes_eqb_spec k k') as [->|N]; cbn [map fst In]; [intuition congruence|]. rewrite IH. intuition congruence.
Qed.
Lemma insert_sorted k v l : keys_sorted (map fst l) -> keys_sorted (map fst (map_insert k v l)).
Proof.
  induction l as [|[k' v'] r IH]; cbn [map_insert map fst]; intros S; [repeat constructor|]. inversion S; subst.
  destruct (bytes_ltb k k') eqn:L.
  - apply bytes_ltb_iff in L. cbn [map fst]. constructor; [assumption|]. constructor; [assumption|].
    eapply Forall_impl; [|eassumption]. intros z Z. eapply before_trans; eassumption.
  - destruct (bytes_eqb_spec k k') as [->|N]; cbn [map fst]; [constructor; assumption|]. constructor; [auto|].
    apply Forall_forall. intros x X. apply insert_keys in X. destruct X as [->|X].
    + destruct (before_total k k') as [B|[B|B]]; [apply bytes_ltb_iff in B; congruence|contradiction|exact B].
    + rewrite Forall_forall in H2. auto.
Qed.
Lemma insert_in k v l : keys_sorted (map fst l) -> forall k' v', In (k', v') (map_insert k v l) <->
  (k' = k /\ v' = v) \/ (k' <> k /\ In (k', v') l).
Proof.
  induction l as [|[j u] r IH]; intros S k' v'; cbn [map_insert In]; [intuition congruence|].
  inversion S as [|? ? S' F]; subst. rewrite Forall_forall in F.
  assert (X : forall a, In (j, a) r -> False).
  { intros a I. apply (in_map fst) in I. apply F in I. exact (before_irrefl _ I). }
  destruct (bytes_ltb k j) eqn:L.
  - apply bytes_ltb_iff in L. assert (Y : forall a, In (k, a) ((j, u) :: r) -> False).
    { intros a [[= -> _]|I]; [exact (before_irrefl _ L)|]. apply (in_map fst) in I. apply F in I.
      exact (before_irrefl _ (before_trans _ _ _ L I)). }
    cbn [In]. split.
    + intros [[= <- <-]|I]; [auto|]. right. split; [|exact I]. intros ->. exact (Y _ I).
    + intros [[-> ->]|[_ I]]; auto.
  - destruct (bytes_eqb_spec k j) as [->|N]; cbn [In].
    + split.
      * intros [E|I]; [left; injection E as <- <-; auto|]. right. split; [|auto]. intros ->. exact (X _ I).
      * intros [[-> ->]|[E [[= -> _]|I]]]; auto; contradiction.
    + rewrite (IH S'). split.
      * intros [Q|[I|[E I]]]; [injection Q as <- <-; right; split; [congruence|auto]|auto|auto].
      * intros [[-> ->]|[E [[= -> ->]|I]]]; auto.
Qed.

Lemma map_keys l : keys_sorted (map fst (json_map l)) /\ forall k v, In (k, v) (json_map l) <-> last_value l k v.
Proof.
  unfold json_map.
  assert (G : forall m, keys_sorted (map fst m) ->
    let r := fold_left (fun m '(k, v) => map_insert k v m) l m in
    keys_sorted (map fst r) /\ forall k v, In (k, v) r <-> last_value l k v \/ (~ In k (map fst l) /\ In (k, v) m)).
  { induction l as [|[j u] l IH]; intros m S; cbn [fold_left].
    - split; [exact S|]. intros k v. cbn. split; [auto|]. intros [(p & r & E & _)|[_ I]]; [|exact I]. destruct p; discriminate.
    - destruct (IH (map_insert j u m) (insert_sorted j u m S)) as [S' H]. split; [exact S'|]. intros k v. rewrite H, (insert_in j u m S).
      cbn [map fst In]. split.
      + intros [(p & r & -> & N)|[N [[-> ->]|[E I]]]].
        * left. exists ((j, u) :: p), r. auto.
        * left. exists [], l. auto.
        * right. split; [intuition congruence|exact I].
      + intros [(p & r & E & N)|[N I]].
        * destruct p as [|[j' u'] p]; cbn [app] in E; injection E as -> -> ->; [right; auto|]. left. exists p, r. auto.
        * right. split; [tauto|]. right. split; [intros ->; apply N; auto|exact I]. }
  destruct (G [] (Sorted.SSorted_nil _)) as [S H]. split; [exact S|]. intros k v. rewrite H. cbn [In]. tauto.
Qed.

(** ** What is read can be written *)
Lemma text_sound : (forall t j, value_text t j -> sound j) /\ (forall t l, items_text t l -> Forall sound l)
  /\ (forall t l, members_text t l -> Forall (fun kv => utf8 (fst kv) /\ sound (snd kv)) l).
Proof.
  apply text_mut; try (intros; constructor; fail).
  - intros t j N. destruct (number_chars t j N) as (_ & _ & _ & [[z ->]|[x ->]]); constructor.
    + destruct N as [(z' & S & _ & E)|(_ & m & i & f & e & _ & _ & _ & _ & _ & E)]; [injection E as ->; exact S|discriminate].
    + destruct N as [(z' & _ & _ & E)|N]; [discriminate|]. pose proof N as (_ & m & i & f & e & _ & _ & _ & _ & _ & E). injection E as ->. now right.
  - intros t s [U _]. now constructor.
  - intros w W. constructor. constructor.
  - intros t l I IH. now constructor.
  - intros w W. constructor. constructor.
  - intros t l I IH. now constructor.
  - intros a t b j A B V IH. now constructor.
  - intros a t b j u l A B V IH I IHu. now constructor.
  - intros a k b c t d s j A B C D [U _] V IH. constructor; [now split|constructor].
  - intros a k b c t d s j u l A B C D [U _] V IH M IHu. constructor; [now split|exact IHu].
Qed.
Lemma document_sound b j : document b j -> sound j.
Proof. intros (u & t & v & _ & _ & T & _). exact (proj1 text_sound t j T). Qed.
Lemma record_sound ks j vs : sound j -> record_of ks j vs -> Forall sound vs.
Proof.
  intros S [(l & -> & M)|[-> _]]; inversion S as [| | | | |? L|? L]; subst; [|exact L].
  induction M as [|k v ks vs (a & b & E & _) M IH]; constructor; [|exact IH]. rewrite Forall_forall in L. apply (L (k, v)). rewrite E. apply in_or_app. right. now left.
Qed.
