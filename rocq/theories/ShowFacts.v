(** Lemmas about the display texts of Clarity values. *)

From Coq Require Import Strings.String.
From Coq Require Import DecimalFacts DecimalN.
From Coq Require Import Lia ZifyBool ZifyNat ZifyN.
From Verif Require Import Base BaseFacts Hex HexFacts C32 SpecText SpecAddr Clarity SpecWire SpecShow AddrFacts WireFacts
  ClarityFacts.
Local Open Scope N_scope.

(** ** Decimals *)

Definition step10 (acc : N) (c : byte) : N := 10 * acc + (Byte.to_N c - 48).

Lemma uint_digits d : Forall digit (uint_bytes d).
Proof. induction d; cbn [uint_bytes]; constructor; auto; unfold digit; cbn; lia. Qed.

Lemma uint_acc d : forall p, fold_left step10 (uint_bytes d) (Npos p) = Npos (Pos.of_uint_acc d p).
Proof.
  induction d; intros p; cbn [uint_bytes fold_left Pos.of_uint_acc]; auto;
    match goal with |- fold_left step10 _ (step10 (Npos p) ?c) = Npos (Pos.of_uint_acc _ ?q) =>
      replace (step10 (Npos p) c) with (Npos q) by (unfold step10; cbn [Byte.to_N]; lia) end;
    apply IHd.
Qed.

Lemma uint_value d : decimal_value (uint_bytes d) = N.of_uint d.
Proof.
  unfold decimal_value. change (fun acc c => 10 * acc + (Byte.to_N c - 48)) with step10.
  change (N.of_uint d) with (Pos.of_uint d).
  induction d; cbn [uint_bytes fold_left Pos.of_uint]; auto;
    match goal with |- fold_left step10 _ (step10 0 ?c) = _ =>
      let v := eval vm_compute in (step10 0 c) in change (step10 0 c) with v end;
    try apply uint_acc.
Qed.

Lemma show_N_decimal n : decimal n (show_N n).
Proof.
  unfold show_N. repeat split.
  - apply uint_digits.
  - rewrite uint_value. apply DecimalN.Unsigned.of_to.
  - assert (U : Decimal.unorm (N.to_uint n) = N.to_uint n).
    { rewrite <- DecimalN.Unsigned.to_of, DecimalN.Unsigned.of_to. reflexivity. }
    rewrite <- U. unfold Decimal.unorm. destruct (Decimal.nzhead (N.to_uint n)) eqn:E; cbn [uint_bytes];
      try (right; eexists _, _; split; [reflexivity | discriminate]).
    + left. reflexivity.
    + exfalso. exact (nzhead_nonzero _ _ E).
Qed.

Lemma decimal_fun n m s : decimal n s -> decimal m s -> n = m.
Proof. intros (_ & <- & _) (_ & <- & _). reflexivity. Qed.

Lemma show_N_inj n m : show_N n = show_N m -> n = m.
Proof. intros H. apply (decimal_fun _ _ (show_N n)); [|rewrite H]; apply show_N_decimal. Qed.

Lemma show_Z_signed z : signed_decimal z (show_Z z).
Proof.
  unfold show_Z. destruct (Z.ltb_spec z 0).
  - right. split; [assumption|]. eexists. split; [reflexivity|]. apply show_N_decimal.
  - left. split; [assumption|]. apply show_N_decimal.
Qed.

Lemma decimal_hd n s : decimal n s -> exists c r, s = c :: r /\ digit c /\ Forall digit r.
Proof.
  intros (D & _ & [-> | (c & r & -> & _)]).
  - exists x30, []. split; [reflexivity|]. split; [unfold digit; cbn; lia | constructor].
  - inv D. eauto.
Qed.

Lemma signed_fun n m s : signed_decimal n s -> signed_decimal m s -> n = m.
Proof.
  intros [[P D] | [P (r & -> & D)]] [[P' D'] | [P' (r' & E & D')]].
  - pose proof (decimal_fun _ _ _ D D'). lia.
  - subst s. destruct (decimal_hd _ _ D) as (c & q & E & G & _). injection E as <- _. unfold digit in G. cbn in G. lia.
  - destruct (decimal_hd _ _ D') as (c & q & E & G & _). injection E as <- _. unfold digit in G. cbn in G. lia.
  - injection E as <-. pose proof (decimal_fun _ _ _ D D'). lia.
Qed.

Lemma show_Z_inj n m : show_Z n = show_Z m -> n = m.
Proof. intros H. apply (signed_fun _ _ (show_Z n)); [|rewrite H]; apply show_Z_signed. Qed.

(** ** Tokens *)

Definition nonstop (c : byte) : Prop := c <> x20 /\ c <> x29.
Definition stop (t : bytes) : Prop := match t with [] => True | c :: _ => c = x20 \/ c = x29 end.

Lemma token_split a : forall b t1 t2, Forall nonstop a -> Forall nonstop b -> stop t1 -> stop t2 ->
  a ++ t1 = b ++ t2 -> a = b /\ t1 = t2.
Proof.
  induction a as [|x a IH]; intros [|y b] t1 t2 A B S1 S2 H; cbn in H.
  - auto.
  - subst t1. inv B. destruct H1. cbn in S1. destruct S1; contradiction.
  - subst t2. inv A. destruct H1. cbn in S2. destruct S2; contradiction.
  - injection H as -> H. inv A. inv B. destruct (IH b t1 t2 H3 H5 S1 S2 H) as [-> ->]. auto.
Qed.

(** Splitting at the first occurrence of a separator. *)
Lemma sep_split (x : byte) a : forall b t1 t2, ~ In x a -> ~ In x b ->
  a ++ x :: t1 = b ++ x :: t2 -> a = b /\ t1 = t2.
Proof.
  induction a as [|y a IH]; intros [|z b] t1 t2 A B H; cbn in H.
  - injection H as ->. auto.
  - injection H as -> _. destruct B. left. reflexivity.
  - injection H as -> _. destruct A. left. reflexivity.
  - injection H as -> H. destruct (IH b t1 t2) as [-> ->]; auto; intros I; [apply A | apply B]; right; exact I.
Qed.

Definition byte_in (l : list byte) (c : byte) : bool := existsb (byte_eqb c) l.

Lemma digit_b c : digit c <-> byte_in [x30; x31; x32; x33; x34; x35; x36; x37; x38; x39] c = true.
Proof.
  assert (H : Bool.eqb ((48 <=? Byte.to_N c) && (Byte.to_N c <=? 57))
                  (byte_in [x30; x31; x32; x33; x34; x35; x36; x37; x38; x39] c) = true).
  { revert c. apply all_byte_spec. vm_compute. reflexivity. }
  apply Bool.eqb_prop in H. rewrite <- H. unfold digit. lia.
Qed.

Lemma digit_in c : digit c -> In c [x30; x31; x32; x33; x34; x35; x36; x37; x38; x39].
Proof. rewrite digit_b. apply existsb_byte_in. Qed.

Lemma digit_nonstop c : digit c -> nonstop c.
Proof. intros D. unfold digit in D. split; intros ->; cbn in D; lia. Qed.

Lemma hex_nonstop bs : Forall nonstop (bytes_to_hex bs).
Proof.
  rewrite bytes_to_hex_text. unfold hex_text. apply Forall_forall. intros c I. apply in_flat_map in I.
  destruct I as (b & _ & I).
  assert (H : forallb (fun c => negb (byte_eqb c x20) && negb (byte_eqb c x29)) (lower_hex_digits ++ [x00]) = true)
    by reflexivity.
  rewrite forallb_forall in H.
  assert (C : In c (lower_hex_digits ++ [x00])).
  { cbn [In] in I. assert (N : forall i, In (nth i lower_hex_digits x00) (lower_hex_digits ++ [x00])).
    { intros i. destruct (Nat.lt_ge_cases i (length lower_hex_digits)).
      - apply in_or_app. left. apply nth_In. assumption.
      - rewrite nth_overflow by assumption. apply in_or_app. right. left. reflexivity. }
    destruct I as [<- | [<- | []]]; apply N. }
  specialize (H c C). split; intros ->; discriminate H.
Qed.

(** Addresses: an S, then digits and letters. *)
Lemma spelling_chars h v a : address_spelling h v a ->
  exists t, a = x53 :: t /\ Forall (fun c => nonstop c /\ c <> x2e) t.
Proof.
  intros (t & -> & F & _). exists t. split; [reflexivity|]. apply Forall_forall. intros c I.
  rewrite Forall_forall in F. specialize (F c I).
  assert (H : all_byte (fun c => implb (byte_in [x20; x29; x2e] c) (negb (byte_in (str "0123456789ABCDEFGHIJKLMNOPQRSTVWXYZabcdefghijklmnopqrstvwxyz"%string) c))) = true)
    by (vm_compute; reflexivity).
  pose proof (all_byte_spec _ H c) as Hc. cbn beta in Hc.
  assert (K : byte_in [x20; x29; x2e] c = false).
  { destruct (byte_in [x20; x29; x2e] c); [|reflexivity]. cbn [implb] in Hc.
    unfold crockford_ok in F. apply existsb_byte_in in F. unfold byte_in in Hc. rewrite F in Hc. discriminate. }
  split; [split|]; intros ->; discriminate K.
Qed.

(** ** Lists and tuples as separate functions *)

Fixpoint show_items (first : bool) (l : list cval) : bytes :=
  match l with
  | [] => []
  | x :: r => (if first then [] else str " "%string) ++ display x ++ show_items false r
  end.
Fixpoint show_entries (first : bool) (l : list (bytes * cval)) : bytes :=
  match l with
  | [] => []
  | (k, x) :: r =>
    (if first then [] else str " "%string) ++
    str "("%string ++ k ++ str " "%string ++ display x ++ str ")"%string ++ show_entries false r
  end.
Lemma display_list l : display (CList l) = str "(list "%string ++ show_items true l ++ str ")"%string.
Proof. reflexivity. Qed.
Lemma display_tuple l : display (CTuple l) = str "(tuple "%string ++ show_entries true l ++ str ")"%string.
Proof. reflexivity. Qed.

(** ** The kind of a value can be seen on its text *)

Definition kind (c : cval) : N :=
  match c with
  | CInt _ => 0 | CUInt _ => 1 | CBuffer _ => 2 | CTrue => 3 | CFalse => 4 | CPrinStd _ => 5 | CPrinCon _ _ => 5
  | CRespOk _ => 7 | CRespErr _ => 8 | CNone => 9 | CSome _ => 10 | CList _ => 11 | CTuple _ => 12
  | CAscii _ => 13 | CUtf8 _ => 14 | CLps _ => 15 | CFnArgs _ => 16
  end.

Definition second (s : bytes) : byte := nth 1 s x00.
Definition sniff (s : bytes) : N :=
  match s with
  | x28 :: x6f :: _ => 7
  | x28 :: x65 :: _ => 8
  | x28 :: x73 :: _ => 10
  | x28 :: x6c :: _ => 11
  | x28 :: x74 :: _ => 12
  | x22 :: _ => 13
  | x75 :: x22 :: _ => 14
  | x75 :: _ => 1
  | x74 :: _ => 3
  | x66 :: _ => 4
  | x6e :: _ => 9
  | x53 :: _ => 5
  | x30 :: x78 :: _ => 2
  | _ => 0
  end.

Lemma sniff_digits c r t : digit c \/ c = x2d -> Forall digit r -> stop t -> sniff (c :: r ++ t) = 0.
Proof.
  intros D R S.
  assert (N : forall q, c :: r ++ t <> x30 :: x78 :: q).
  { intros q E. injection E as -> E. destruct r as [|d r]; cbn in E.
    - subst t. cbn in S. destruct S; discriminate.
    - injection E as -> _. inv R. unfold digit in H1. cbn in H1. lia. }
  destruct D as [D | ->]; [|reflexivity].
  apply digit_in in D. cbn [In] in D.
  repeat match type of D with _ \/ _ => destruct D as [<- | D] end; [..|destruct D]; try reflexivity.
  destruct (r ++ t) as [|d q]; [reflexivity|]. cbn. destruct d; try reflexivity. exfalso. exact (N q eq_refl).
Qed.

Lemma sniff_kind c t : clean c -> stop t -> sniff (display c ++ t) = kind c.
Proof.
  destruct c; intros C S; cbn in C; try contradiction; try reflexivity.
  - cbn [display kind]. destruct (show_Z_signed z) as [[_ D] | [_ (r & -> & D)]].
    + destruct (decimal_hd _ _ D) as (d & r & -> & G & R). apply sniff_digits; auto.
    + destruct D as [R _]. apply sniff_digits; auto.
  - cbn [display kind]. destruct (decimal_hd _ _ (show_N_decimal n)) as (d & r & -> & G & R).
    change (str "u"%string) with [x75]. cbn [app]. apply digit_in in G. cbn [In] in G.
    repeat match type of G with _ \/ _ => destruct G as [<- | G] end; [..|destruct G]; reflexivity.
  - destruct C as (h & v & A). destruct (spelling_chars _ _ _ A) as (q & -> & _). reflexivity.
  - destruct C as [(h & v & A) _]. destruct (spelling_chars _ _ _ A) as (q & -> & _). reflexivity.
Qed.

Lemma display_nonempty c t : clean c -> stop t -> display c ++ t <> [] /\
  match display c ++ t with x29 :: _ => False | x20 :: _ => False | _ => True end.
Proof.
  destruct c; intros C S; cbn in C; try contradiction; try (split; [discriminate | exact I]).
  - cbn [display]. destruct (show_Z_signed z) as [[_ D] | [_ (r & -> & D)]].
    + destruct (decimal_hd _ _ D) as (d & r & -> & G & R). apply digit_in in G. cbn [In] in G.
      repeat match type of G with _ \/ _ => destruct G as [<- | G] end; [..|destruct G]; split; cbn; auto; discriminate.
    + split; cbn; auto; discriminate.
  - destruct C as (h & v & A). destruct (spelling_chars _ _ _ A) as (q & -> & _). split; cbn; auto; discriminate.
  - destruct C as [(h & v & A) _]. destruct (spelling_chars _ _ _ A) as (q & -> & _). split; cbn; auto; discriminate.
Qed.

Definition readable (a : cval) : Prop := clean a -> forall b t1 t2, clean b -> stop t1 -> stop t2 ->
  display a ++ t1 = display b ++ t2 -> a = b /\ t1 = t2.

Lemma show_items_stop l t : stop (show_items false l ++ x29 :: t).
Proof. destruct l; cbn; auto. Qed.
Lemma show_entries_stop l t : stop (show_entries false l ++ x29 :: t).
Proof. destruct l as [|[k v] l]; cbn; auto. Qed.

Lemma items_readable l : Forall readable l -> Forall clean l -> forall m b t1 t2, Forall clean m ->
  show_items b l ++ x29 :: t1 = show_items b m ++ x29 :: t2 -> l = m /\ t1 = t2.
Proof.
  induction 1 as [|x l Hx Hl IH]; intros CL [|y m] b t1 t2 CM H.
  - cbn in H. injection H as ->. auto.
  - exfalso. inv CM. cbn [show_items] in H. destruct b.
    + cbn [app] in H. rewrite <- app_assoc in H.
      destruct (display_nonempty y (show_items false m ++ x29 :: t2) H2 (show_items_stop _ _)) as [_ N].
      rewrite <- H in N. exact N.
    + cbn in H. discriminate H.
  - exfalso. inv CL. cbn [show_items] in H. destruct b.
    + cbn [app] in H. rewrite <- app_assoc in H.
      destruct (display_nonempty x (show_items false l ++ x29 :: t1) H2 (show_items_stop _ _)) as [_ N].
      rewrite H in N. exact N.
    + cbn in H. discriminate H.
  - inv CL. inv CM. cbn [show_items] in H. rewrite <- !app_assoc in H. apply app_inv_head in H.
    destruct (Hx H2 _ _ _ H4 (show_items_stop _ _) (show_items_stop _ _) H) as [-> H'].
    destruct (IH H3 m false t1 t2 H5 H') as [-> ->]. auto.
Qed.

Lemma plain_no_space k : plain_name k -> ~ In x20 k.
Proof. intros P I. unfold plain_name in P. rewrite Forall_forall in P. destruct (P _ I). contradiction. Qed.

Lemma entries_readable l : Forall (fun kv => readable (snd kv)) l ->
  Forall (fun kv => plain_name (fst kv) /\ clean (snd kv)) l ->
  forall m b t1 t2, Forall (fun kv => plain_name (fst kv) /\ clean (snd kv)) m ->
  show_entries b l ++ x29 :: t1 = show_entries b m ++ x29 :: t2 -> l = m /\ t1 = t2.
Proof.
  induction 1 as [|[k x] l Hx Hl IH]; intros CL [|[k' y] m] b t1 t2 CM H.
  - cbn in H. injection H as ->. auto.
  - exfalso. cbn in H. destruct b; discriminate H.
  - exfalso. cbn in H. destruct b; discriminate H.
  - inv CL. inv CM. cbn [fst snd] in *. destruct H2 as [P C], H4 as [P' C'].
    cbn [show_entries] in H. rewrite <- !app_assoc in H. apply app_inv_head in H. apply app_inv_head in H.
    change (str " "%string) with [x20] in H. cbn [app] in H.
    apply sep_split in H; [|apply plain_no_space; assumption..]. destruct H as [-> H].
    apply Hx in H; auto; [|cbn; auto..]. destruct H as [-> H]. apply app_inv_head in H.
    destruct (IH H3 m false t1 t2 H5 H) as [-> ->]. auto.
Qed.

Lemma all_readable a : readable a.
Proof.
  induction a using cval_induction; intros C b' t1 t2 C' S1 S2 E;
    pose proof (sniff_kind _ _ C S1) as K; rewrite E, (sniff_kind _ _ C' S2) in K;
    destruct b'; try discriminate K; try (destruct C; fail); clear K.
  - cbn [display] in E. apply token_split in E; auto.
    + destruct E as [E ->]. apply show_Z_inj in E. subst. auto.
    + destruct (show_Z_signed z) as [[_ (D & _)] | [_ (r & -> & (D & _))]].
      * eapply Forall_impl; [|exact D]. apply digit_nonstop.
      * constructor; [split; discriminate|]. eapply Forall_impl; [|exact D]. apply digit_nonstop.
    + destruct (show_Z_signed z0) as [[_ (D & _)] | [_ (r & -> & (D & _))]].
      * eapply Forall_impl; [|exact D]. apply digit_nonstop.
      * constructor; [split; discriminate|]. eapply Forall_impl; [|exact D]. apply digit_nonstop.
  - cbn [display] in E. rewrite <- !app_assoc in E. apply app_inv_head in E. apply token_split in E; auto.
    + destruct E as [E ->]. apply show_N_inj in E. subst. auto.
    + eapply Forall_impl; [|exact (proj1 (show_N_decimal n))]. apply digit_nonstop.
    + eapply Forall_impl; [|exact (proj1 (show_N_decimal n0))]. apply digit_nonstop.
  - cbn [display] in E. rewrite <- !app_assoc in E. apply app_inv_head in E. apply token_split in E; auto using hex_nonstop.
    destruct E as [E ->]. apply bytes_to_hex_inj in E. subst. auto.
  - cbn [display] in E. apply app_inv_head in E. auto.
  - cbn [display] in E. apply app_inv_head in E. auto.
  - cbn [display] in E. cbn in C, C'. destruct C as (h & v & A), C' as (h' & v' & A').
    destruct (spelling_chars _ _ _ A) as (q & -> & Q), (spelling_chars _ _ _ A') as (q' & -> & Q').
    apply token_split in E; auto.
    + destruct E as [E ->]. split; congruence.
    + constructor; [split; discriminate|]. eapply Forall_impl; [|exact Q]. cbn. tauto.
    + constructor; [split; discriminate|]. eapply Forall_impl; [|exact Q']. cbn. tauto.
  - exfalso. cbn [display] in E. cbn in C, C'. destruct C as (h & v & A), C' as [(h' & v' & A') P].
    destruct (spelling_chars _ _ _ A) as (q & -> & Q), (spelling_chars _ _ _ A') as (q' & -> & Q').
    apply token_split in E; auto.
    + destruct E as [E _]. assert (I : In x2e (x53 :: q)).
      { rewrite E. apply in_or_app. right. left. reflexivity. }
      destruct I as [I | I]; [discriminate I|]. rewrite Forall_forall in Q. destruct (Q _ I) as [_ N]. contradiction.
    + constructor; [split; discriminate|]. eapply Forall_impl; [|exact Q]. cbn. tauto.
    + apply Forall_app. split; [constructor; [split; discriminate|]; eapply Forall_impl; [|exact Q']; cbn; tauto|].
      apply Forall_app. split; [repeat constructor; discriminate | exact P].
  - exfalso. cbn [display] in E. cbn in C, C'. destruct C' as (h & v & A), C as [(h' & v' & A') P].
    destruct (spelling_chars _ _ _ A) as (q & -> & Q), (spelling_chars _ _ _ A') as (q' & -> & Q').
    apply token_split in E; auto.
    + destruct E as [E _]. assert (I : In x2e (x53 :: q)).
      { rewrite <- E. apply in_or_app. right. left. reflexivity. }
      destruct I as [I | I]; [discriminate I|]. rewrite Forall_forall in Q. destruct (Q _ I) as [_ N]. contradiction.
    + apply Forall_app. split; [constructor; [split; discriminate|]; eapply Forall_impl; [|exact Q']; cbn; tauto|].
      apply Forall_app. split; [repeat constructor; discriminate | exact P].
    + constructor; [split; discriminate|]. eapply Forall_impl; [|exact Q]. cbn. tauto.
  - cbn [display] in E. cbn in C, C'. destruct C as [(h & v & A) P], C' as [(h' & v' & A') P'].
    destruct (spelling_chars _ _ _ A) as (q & -> & Q), (spelling_chars _ _ _ A') as (q' & -> & Q').
    apply token_split in E; auto.
    + destruct E as [E ->]. change (str "."%string) with [x2e] in E. cbn [app] in E.
      change (x53 :: q ++ x2e :: n) with ((x53 :: q) ++ x2e :: n) in E.
      change (x53 :: q' ++ x2e :: name) with ((x53 :: q') ++ x2e :: name) in E.
      apply sep_split in E.
      * destruct E as [-> ->]. auto.
      * intros [I | I]; [discriminate I|]. rewrite Forall_forall in Q. destruct (Q _ I) as [_ N]. contradiction.
      * intros [I | I]; [discriminate I|]. rewrite Forall_forall in Q'. destruct (Q' _ I) as [_ N]. contradiction.
    + apply Forall_app. split; [constructor; [split; discriminate|]; eapply Forall_impl; [|exact Q]; cbn; tauto|].
      apply Forall_app. split; [repeat constructor; discriminate | exact P].
    + apply Forall_app. split; [constructor; [split; discriminate|]; eapply Forall_impl; [|exact Q']; cbn; tauto|].
      apply Forall_app. split; [repeat constructor; discriminate | exact P'].
  - cbn [display] in E. rewrite <- !app_assoc in E. apply app_inv_head in E.
    apply IHa in E; auto; [|cbn; auto..]. destruct E as [-> E]. apply app_inv_head in E. auto.
  - cbn [display] in E. rewrite <- !app_assoc in E. apply app_inv_head in E.
    apply IHa in E; auto; [|cbn; auto..]. destruct E as [-> E]. apply app_inv_head in E. auto.
  - cbn [display] in E. apply app_inv_head in E. auto.
  - cbn [display] in E. rewrite <- !app_assoc in E. apply app_inv_head in E.
    apply IHa in E; auto; [|cbn; auto..]. destruct E as [-> E]. apply app_inv_head in E. auto.
  - rewrite !display_list in E. rewrite <- !app_assoc in E. apply app_inv_head in E.
    cbn in C, C'. rewrite every_Forall in C, C'.
    destruct (items_readable l H C _ _ _ _ C' E) as [-> ->]. auto.
  - rewrite !display_tuple in E. rewrite <- !app_assoc in E. apply app_inv_head in E.
    cbn in C, C'. rewrite every_Forall in C, C'.
    destruct (entries_readable l H C _ _ _ _ C' E) as [-> ->]. auto.
  - cbn [display app] in E. apply cons_tl in E. rewrite <- !app_assoc in E. cbn [app] in E.
    apply sep_split in E; [|assumption..]. destruct E as [-> ->]. auto.
  - cbn [display] in E. rewrite <- !app_assoc in E. apply app_inv_head in E. cbn [app] in E. apply cons_tl in E.
    rewrite <- !app_assoc in E. cbn [app] in E.
    apply sep_split in E; [|assumption..]. destruct E as [-> ->]. auto.
Qed.

Lemma cl_eq_iff a b : cl_eq a b = true <-> display a = display b.
Proof. apply bytes_eqb_eq. Qed.

Lemma clean_eq a b : clean a -> clean b -> (cl_eq a b = true <-> a = b).
Proof.
  intros C C'. rewrite cl_eq_iff. split; [|intros ->; reflexivity]. intros E.
  apply (all_readable a C b [] [] C' I I). rewrite !app_nil_r. exact E.
Qed.

Lemma cl_eq_refl a : cl_eq a a = true.
Proof. apply cl_eq_iff. reflexivity. Qed.
Lemma cl_eq_sym a b : cl_eq a b = cl_eq b a.
Proof. apply Bool.eq_iff_eq_true. rewrite !cl_eq_iff. split; congruence. Qed.
Lemma cl_eq_trans a b c : cl_eq a b = true -> cl_eq b c = true -> cl_eq a c = true.
Proof. rewrite !cl_eq_iff. congruence. Qed.

(** For the types without nested values and without free text in front of other text, equality is
    always exact. *)
Definition simple_types : list cty := [TInt; TUInt; TBuffer; TTrue; TFalse; TPrinStd; TNone; TAscii; TUtf8; TLps].

Lemma simple_eq t a b : In t simple_types -> built_as t a -> built_as t b -> (cl_eq a b = true <-> a = b).
Proof.
  intros T A B. rewrite cl_eq_iff. split; [|intros ->; reflexivity]. unfold simple_types in T. cbn [In] in T.
  repeat match type of T with _ \/ _ => destruct T as [<- | T] end; [..|destruct T]; cbn [built_as] in A, B;
    repeat match goal with H : exists _, _ |- _ => destruct H end; subst; cbn [display]; intros E; auto.
  - apply show_Z_inj in E. congruence.
  - apply app_inv_head in E. apply show_N_inj in E. congruence.
  - apply app_inv_head in E. apply bytes_to_hex_inj in E. congruence.
  - congruence.
  - apply cons_tl in E. apply app_inv_tail in E. congruence.
  - apply app_inv_head in E. apply cons_tl in E. apply app_inv_tail in E. congruence.
  - congruence.
Qed.

(** ** The text of a value, exactly *)

Fixpoint uint_parse (s : bytes) : Decimal.uint :=
  match s with
  | [] => Decimal.Nil
  | c :: r =>
    match c with
    | x30 => Decimal.D0 | x31 => Decimal.D1 | x32 => Decimal.D2 | x33 => Decimal.D3 | x34 => Decimal.D4
    | x35 => Decimal.D5 | x36 => Decimal.D6 | x37 => Decimal.D7 | x38 => Decimal.D8 | _ => Decimal.D9
    end (uint_parse r)
  end.
Lemma uint_parse_bytes s : Forall digit s -> uint_bytes (uint_parse s) = s.
Proof.
  induction 1 as [|c r D _ IH]; [reflexivity|]. apply digit_in in D. cbn in D.
  repeat (destruct D as [<-|D]; [cbn; rewrite IH; reflexivity|]). contradiction.
Qed.
Lemma nzhead_parse c r : Forall digit (c :: r) -> c <> x30 -> Decimal.nzhead (uint_parse (c :: r)) = uint_parse (c :: r).
Proof.
  intros D N. inv D. apply digit_in in H1. cbn in H1. repeat (destruct H1 as [<-|H1]; [try reflexivity; congruence|]). contradiction.
Qed.
Lemma decimal_show n s : decimal n s <-> show_N n = s.
Proof.
  split.
  - intros (D & V & C). rewrite <- (uint_parse_bytes s D) in *. rewrite uint_value in V. subst n. unfold show_N.
    rewrite DecimalN.Unsigned.to_of. rewrite (uint_parse_bytes s D) in C. f_equal. destruct C as [->|(c & r & -> & C)]; [reflexivity|].
    unfold Decimal.unorm. rewrite (nzhead_parse c r D C). cbn [uint_parse]. destruct c; reflexivity.
  - intros <-. apply show_N_decimal.
Qed.
Lemma signed_show z s : signed_decimal z s <-> show_Z z = s.
Proof.
  split; [|intros <-; apply show_Z_signed]. unfold show_Z. intros [[P D]|[P (r & -> & D)]]; apply decimal_show in D; subst.
  - destruct (Z.ltb_spec z 0); [lia | reflexivity].
  - destruct (Z.ltb_spec z 0); [reflexivity | lia].
Qed.

Lemma spaced_items l : show_items true l = spaced (map display l).
Proof.
  destruct l as [|x l]; [reflexivity|]. cbn [show_items map spaced app]. f_equal.
  revert x. induction l as [|y l IH]; intros _; [reflexivity|]. cbn [show_items map]. rewrite IH by exact y.
  cbn [spaced app]. reflexivity.
Qed.
Definition show_entry (e : bytes * cval) : bytes := x28 :: fst e ++ x20 :: display (snd e) ++ [x29].
Lemma spaced_entries l : show_entries true l = spaced (map show_entry l).
Proof.
  assert (K : forall k x t, str "("%string ++ k ++ str " "%string ++ display x ++ str ")"%string ++ t
                            = show_entry (k, x) ++ t).
  { intros. unfold show_entry. cbn [fst snd app]. rewrite <- !app_assoc. cbn. rewrite <- !app_assoc. reflexivity. }
  destruct l as [|[k x] l]; [reflexivity|]. cbn [show_entries map spaced]. rewrite app_nil_l, K. f_equal.
  revert k x. induction l as [|[k' y] l IH]; intros _ _; [reflexivity|]. cbn [show_entries map]. rewrite K, (IH k' y).
  cbn [spaced map]. reflexivity.
Qed.

Lemma every2_map {A B} (R : A -> B -> Prop) f l ts : Forall (fun x => forall s, R x s <-> f x = s) l ->
  (every2 R l ts <-> ts = map f l).
Proof.
  intros H. revert ts. induction H as [|x l Hx _ IH]; intros [|t ts]; cbn.
  - split; auto.
  - split; [contradiction | discriminate].
  - split; [contradiction | discriminate].
  - rewrite Hx, IH. split; [intros [<- ->]; reflexivity|]. intros E. injection E as -> ->. auto.
Qed.

Lemma shows_display v : forall s, shows v s <-> display v = s.
Proof.
  induction v using cval_induction; intros txt; cbn [shows].
  - apply signed_show.
  - cbn [display]. split; [intros (r & -> & D); apply decimal_show in D; subst; reflexivity|].
    intros <-. eexists. split; [reflexivity | apply show_N_decimal].
  - cbn [display]. rewrite bytes_to_hex_text. split; intros; subst; reflexivity.
  - split; intros; subst; reflexivity.
  - split; intros; subst; reflexivity.
  - split; intros; subst; reflexivity.
  - split; intros; subst; reflexivity.
  - cbn [display]. split; [intros (r & -> & D); apply IHv in D; subst; reflexivity|]. intros <-. eexists. split; [reflexivity | apply IHv; reflexivity].
  - cbn [display]. split; [intros (r & -> & D); apply IHv in D; subst; reflexivity|]. intros <-. eexists. split; [reflexivity | apply IHv; reflexivity].
  - split; intros; subst; reflexivity.
  - cbn [display]. split; [intros (r & -> & D); apply IHv in D; subst; reflexivity|]. intros <-. eexists. split; [reflexivity | apply IHv; reflexivity].
  - rewrite display_list, spaced_items. split.
    + intros (ts & -> & F). apply (every2_map _ _ _ _ H) in F. subst. reflexivity.
    + intros <-. eexists. split; [reflexivity|]. apply (every2_map _ _ _ _ H). reflexivity.
  - rewrite display_tuple, spaced_entries.
    assert (K : forall ts, every2 (fun e t => exists r, t = x28 :: fst e ++ x20 :: r ++ [x29] /\ shows (snd e) r) l ts <-> ts = map show_entry l).
    { intros ts. apply every2_map. eapply Forall_impl; [|exact H]. intros [k x] X t. cbn [fst snd] in *. unfold show_entry. cbn [fst snd]. split.
      - intros (r & -> & D). apply X in D. subst. reflexivity.
      - intros <-. eexists. split; [reflexivity | apply X; reflexivity]. }
    split.
    + intros (ts & -> & F). apply K in F. subst. reflexivity.
    + intros <-. eexists. split; [reflexivity|]. apply K. reflexivity.
  - split; intros; subst; reflexivity.
  - split; intros; subst; reflexivity.
  - split; intros; subst; reflexivity.
  - change (display (CFnArgs l)) with (str "(fn-args "%string ++ show_items true l ++ str ")"%string). rewrite spaced_items. split.
    + intros (ts & -> & F). apply (every2_map _ _ _ _ H) in F. subst. reflexivity.
    + intros <-. eexists. split; [reflexivity|]. apply (every2_map _ _ _ _ H). reflexivity.
Qed.
