(** Reading debug texts: proofs for C69. *)

From Coq Require Import Strings.String.
From Coq Require Import Lia ZifyBool ZifyNat ZifyN.
From Verif Require Import Base BaseFacts Hex HexFacts SpecText SpecAddr Hash C32 Clarity SpecWire SpecShow ShowFacts WireFacts ClarityFacts Tx Builder Debug SpecDebug.
Local Open Scope N_scope.

Fixpoint debug_items (first : bool) (l : list cval) : bytes :=
  match l with [] => [] | x :: r => (if first then [] else str ", "%string) ++ debug x ++ debug_items false r end.
Fixpoint debug_entries (first : bool) (l : list (bytes * cval)) : bytes :=
  match l with
  | [] => []
  | (k, x) :: r => (if first then [] else str ", "%string) ++ k ++ str ": "%string ++ debug x ++ debug_entries false r
  end.
Lemma debug_list l : debug (CList l) = str "ListCV("%string ++ debug_items true l ++ str ")"%string.
Proof. reflexivity. Qed.
Lemma debug_args l : debug (CFnArgs l) = str "FnArguments("%string ++ debug_items true l ++ str ")"%string.
Proof. reflexivity. Qed.
Lemma debug_tuple l : debug (CTuple l) = str "TupleCV("%string ++ debug_entries true l ++ str ")"%string.
Proof. reflexivity. Qed.

Lemma digits_closed s : Forall digit s -> closed_text s.
Proof. intros F I. rewrite Forall_forall in F. specialize (F _ I). vm_compute in F. destruct F. contradiction. Qed.
Lemma show_N_closed n : closed_text (show_N n).
Proof. apply digits_closed, show_N_decimal. Qed.
Lemma show_Z_closed z : closed_text (show_Z z).
Proof.
  destruct (show_Z_signed z) as [[_ (D & _)] | [_ (r & -> & (D & _))]]; [exact (digits_closed _ D)|].
  intros [I | I]; [discriminate I | exact (digits_closed _ D I)].
Qed.
Lemma hex_closed b : closed_text (bytes_to_hex b).
Proof. intros I. pose proof (hex_nonstop b) as F. rewrite Forall_forall in F. destruct (F _ I). contradiction. Qed.

Lemma debug_first c t : exists x r, debug c ++ t = x :: r /\ x <> x29.
Proof. destruct c; cbn; eexists _, _; (split; [reflexivity | discriminate]). Qed.

Definition told (a : cval) : Prop := tidy a -> forall b t1 t2, tidy b -> debug a ++ t1 = debug b ++ t2 -> a = b /\ t1 = t2.

Lemma items_told l : Forall told l -> Forall tidy l -> forall m b t1 t2, Forall tidy m ->
  debug_items b l ++ x29 :: t1 = debug_items b m ++ x29 :: t2 -> l = m /\ t1 = t2.
Proof.
  induction 1 as [|x l Hx Hl IH]; intros CL [|y m] b t1 t2 CM H.
  - cbn in H. injection H as ->. auto.
  - exfalso. cbn [debug_items] in H. destruct b; [|discriminate H]. cbn [app] in H. rewrite <- app_assoc in H.
    destruct (debug_first y (debug_items false m ++ x29 :: t2)) as (c & r & Q & N). rewrite Q in H. congruence.
  - exfalso. cbn [debug_items] in H. destruct b; [|discriminate H]. cbn [app] in H. rewrite <- app_assoc in H.
    destruct (debug_first x (debug_items false l ++ x29 :: t1)) as (c & r & Q & N). rewrite Q in H. congruence.
  - inv CL. inv CM. cbn [debug_items] in H. rewrite <- !app_assoc in H. apply app_inv_head in H.
    destruct (Hx H2 _ _ _ H4 H) as [-> H']. destruct (IH H3 m false t1 t2 H5 H') as [-> ->]. auto.
Qed.

Lemma sep_none (x : byte) k r t : ~ In x k -> k ++ r = x :: t -> k = [].
Proof. destruct k as [|c k]; [reflexivity|]. intros N H. injection H as -> _. exfalso. apply N. left. reflexivity. Qed.

Definition tidy_entry (kv : bytes * cval) : Prop := closed_text (fst kv) /\ ~ In x3a (fst kv) /\ tidy (snd kv).
Lemma entries_told l : Forall (fun kv => told (snd kv)) l -> Forall tidy_entry l -> forall m b t1 t2, Forall tidy_entry m ->
  debug_entries b l ++ x29 :: t1 = debug_entries b m ++ x29 :: t2 -> l = m /\ t1 = t2.
Proof.
  induction 1 as [|[k x] l Hx Hl IH]; intros CL [|[k' y] m] b t1 t2 CM H.
  - cbn in H. injection H as ->. auto.
  - exfalso. inv CM. destruct H2 as (P & _). cbn [fst] in P. cbn [debug_entries] in H. destruct b; [|discriminate H]. cbn [app] in H. rewrite <- !app_assoc in H.
    symmetry in H. pose proof (sep_none _ _ _ _ P H) as ->. discriminate H.
  - exfalso. inv CL. destruct H2 as (P & _). cbn [fst] in P. cbn [debug_entries] in H. destruct b; [|discriminate H]. cbn [app] in H. rewrite <- !app_assoc in H.
    pose proof (sep_none _ _ _ _ P H) as ->. discriminate H.
  - inv CL. inv CM. destruct H2 as (P & Q & C), H4 as (P' & Q' & C'). cbn [fst snd] in *.
    cbn [debug_entries] in H. rewrite <- !app_assoc in H. apply app_inv_head in H.
    change (str ": "%string) with (x3a :: str " "%string) in H. cbn [app] in H. apply sep_split in H; [|assumption..].
    destruct H as [-> H]. apply app_inv_head in H. destruct (Hx C _ _ _ C' H) as [-> H'].
    destruct (IH H3 m false t1 t2 H5 H') as [-> ->]. auto.
Qed.

Lemma close_split a b t1 t2 : closed_text a -> closed_text b -> (a ++ str ")"%string) ++ t1 = (b ++ str ")"%string) ++ t2 -> a = b /\ t1 = t2.
Proof. intros A B H. rewrite <- !app_assoc in H. exact (sep_split x29 a b t1 t2 A B H). Qed.

Lemma all_told a : told a.
Proof.
  induction a using cval_induction; intros C b' t1 t2 C' E; destruct b'; try discriminate E;
    rewrite ?debug_list, ?debug_args, ?debug_tuple in E; cbn [debug] in E; rewrite <- ?(app_assoc (str _)) in E; apply app_inv_head in E.
  - apply close_split in E; auto using show_Z_closed. destruct E as [E ->]. apply show_Z_inj in E. subst. auto.
  - apply close_split in E; auto using show_N_closed. destruct E as [E ->]. apply show_N_inj in E. subst. auto.
  - cbn [display] in E. rewrite <- !(app_assoc (str _)) in E. apply app_inv_head in E.
    apply close_split in E; auto using hex_closed. destruct E as [E ->]. apply bytes_to_hex_inj in E. subst. auto.
  - auto.
  - auto.
  - apply close_split in E; auto. destruct E as [-> ->]. auto.
  - destruct C as (A & B & D), C' as (A' & B' & D'). cbn [display] in E. apply close_split in E.
    + destruct E as [E ->]. apply (sep_split x2e) in E; auto. destruct E as [-> ->]. auto.
    + intros I. rewrite !in_app_iff in I. destruct I as [I|[[I|[]]|I]]; [auto | discriminate I | auto].
    + intros I. rewrite !in_app_iff in I. destruct I as [I|[[I|[]]|I]]; [auto | discriminate I | auto].
  - rewrite <- !app_assoc in E. apply IHa in E; auto. destruct E as [-> E]. apply app_inv_head in E. auto.
  - rewrite <- !app_assoc in E. apply IHa in E; auto. destruct E as [-> E]. apply app_inv_head in E. auto.
  - auto.
  - rewrite <- !app_assoc in E. apply all_readable in E; auto; [|cbn; auto..]. destruct E as [-> E]. apply app_inv_head in E. auto.
  - cbn in C, C'. rewrite every_Forall in C, C'. rewrite <- !app_assoc in E.
    destruct (items_told l H C _ _ _ _ C' E) as [-> ->]. auto.
  - cbn in C, C'. rewrite every_Forall in C, C'. rewrite <- !app_assoc in E.
    destruct (entries_told l H C _ _ _ _ C' E) as [-> ->]. auto.
  - apply close_split in E; auto. destruct E as [-> ->]. auto.
  - apply close_split in E; auto. destruct E as [-> ->]. auto.
  - apply close_split in E; auto. destruct E as [-> ->]. auto.
  - cbn in C, C'. rewrite every_Forall in C, C'. rewrite <- !app_assoc in E.
    destruct (items_told l H C _ _ _ _ C' E) as [-> ->]. auto.
Qed.

(** ** Post-conditions *)

Definition dend (t : bytes) : Prop := match t with [] => True | c :: _ => c = x20 \/ c = x2c end.

Lemma code_told a b t1 t2 : dend t1 -> dend t2 -> debug_code a ++ t1 = debug_code b ++ t2 -> a = b /\ t1 = t2.
Proof.
  intros D1 D2 H. destruct a, b; cbn in H; try discriminate H; try (injection H as H; subst; auto; fail);
    injection H as H; subst; cbn in D1, D2; intuition discriminate.
Qed.

Lemma number_told n m t1 t2 : dend t1 -> dend t2 -> show_N n ++ t1 = show_N m ++ t2 -> n = m /\ t1 = t2.
Proof.
  intros D1 D2 H.
  assert (forall k, Forall (fun c => ~ (c = x20 \/ c = x2c)) (show_N k)) as F.
  { intros k. eapply Forall_impl; [|exact (proj1 (show_N_decimal k))]. intros c D [-> | ->]; vm_compute in D; destruct D; contradiction. }
  assert (show_N n = show_N m /\ t1 = t2) as [E ->].
  { revert H. pose proof (F n) as A. pose proof (F m) as B. revert A B. generalize (show_N n) (show_N m). clear -D1 D2.
    intros a. induction a as [|x a IH]; intros [|y b] A B H; cbn [app] in H; auto.
    - exfalso. subst t1. inv B. cbn in D1. contradiction.
    - exfalso. subst t2. inv A. cbn in D2. contradiction.
    - inv A. inv B. injection H as -> H. destruct (IH b) as [-> ->]; auto. }
  apply show_N_inj in E. auto.
Qed.

Lemma asset_told a b t1 t2 : tidy_asset a -> tidy_asset b -> debug_asset a ++ t1 = debug_asset b ++ t2 -> a = b /\ t1 = t2.
Proof.
  destruct a as [a c s], b as [a' c' s']. intros (A & C & S) (A' & C' & S') H. cbn [ai_addr ai_contract ai_asset] in *.
  unfold debug_asset in H. cbn [ai_addr ai_contract ai_asset] in H. rewrite <- !app_assoc in H. apply app_inv_head in H.
  apply all_told in H; auto. destruct H as [E H]. injection E as ->. apply app_inv_head in H.
  apply all_told in H; auto. destruct H as [E H]. injection E as ->. apply app_inv_head in H.
  apply all_told in H; auto. destruct H as [E H]. injection E as ->. apply app_inv_head in H. auto.
Qed.

Lemma cond_told a b t1 t2 : tidy_cond a -> tidy_cond b -> debug_cond a ++ t1 = debug_cond b ++ t2 -> a = b /\ t1 = t2.
Proof.
  intros A B H. destruct a, b; try discriminate H; cbn [debug_cond] in H; rewrite <- !app_assoc in H; apply app_inv_head in H; cbn [tidy_cond] in A, B.
  - apply all_told in H; auto. destruct H as [-> H]. apply app_inv_head in H.
    apply number_told in H; [|right; reflexivity..]. destruct H as [-> H]. apply app_inv_head in H.
    apply code_told in H; [|left; reflexivity..]. destruct H as [-> H]. apply app_inv_head in H. auto.
  - destruct A as [A A'], B as [B B'].
    apply all_told in H; auto. destruct H as [-> H]. apply app_inv_head in H.
    apply number_told in H; [|right; reflexivity..]. destruct H as [-> H]. apply app_inv_head in H.
    apply code_told in H; [|right; reflexivity..]. destruct H as [-> H]. apply app_inv_head in H.
    apply asset_told in H; auto. destruct H as [-> H]. apply app_inv_head in H. auto.
  - destruct A as (A & V & A'), B as (B & W & B').
    apply all_told in H; auto. destruct H as [-> H]. apply app_inv_head in H.
    apply all_told in H; auto. destruct H as [-> H]. apply app_inv_head in H.
    apply code_told in H; [|right; reflexivity..]. destruct H as [-> H]. apply app_inv_head in H.
    apply asset_told in H; auto. destruct H as [-> H]. apply app_inv_head in H. auto.
Qed.

Lemma tail_told a : forall b, Forall tidy_cond a -> Forall tidy_cond b -> debug_tail a = debug_tail b -> a = b.
Proof.
  induction a as [|x a IH]; intros [|y b] A B H; [reflexivity | discriminate H | discriminate H|].
  inv A. inv B. cbn [debug_tail] in H. apply app_inv_head in H. apply cond_told in H; auto. destruct H as [-> H].
  rewrite (IH b); auto.
Qed.

Lemma debug_cond_first c t : exists x r, debug_cond c ++ t = x :: r /\ x <> x5d.
Proof. destruct c; cbn; eexists _, _; (split; [reflexivity | discriminate]). Qed.

Lemma conds_told a b : Forall tidy_cond a -> Forall tidy_cond b -> debug_conds a = debug_conds b -> a = b.
Proof.
  intros A B H. unfold debug_conds in H. apply app_inv_head in H. destruct a as [|x a], b as [|y b]; [reflexivity| | |].
  - destruct (debug_cond_first y (debug_tail b)) as (c & r & Q & N). rewrite Q in H. injection H as E _. congruence.
  - destruct (debug_cond_first x (debug_tail a)) as (c & r & Q & N). rewrite Q in H. injection H as E _. congruence.
  - inv A. inv B. apply cond_told in H; auto. destruct H as [-> H]. rewrite (tail_told a b); auto.
Qed.

Lemma conds_eq_iff a b : conds_eq a b = true <-> debug_conds a = debug_conds b.
Proof. apply bytes_eqb_eq. Qed.

Lemma debug_inj a b : tidy a -> tidy b -> debug a = debug b -> a = b.
Proof. intros A B H. apply (all_told a A b [] [] B). rewrite H. reflexivity. Qed.

(** ** Equality of payloads and builders *)

Lemma args_display_list l : display (CFnArgs l) = str "(fn-args "%string ++ show_items true l ++ str ")"%string.
Proof. reflexivity. Qed.

Lemma args_eq l m : every clean l -> every clean m -> (cl_eq (CFnArgs l) (CFnArgs m) = true <-> l = m).
Proof.
  intros A B. rewrite cl_eq_iff, !args_display_list. split; [|intros ->; reflexivity]. intros H. apply app_inv_head in H.
  rewrite every_Forall in A, B. apply (items_readable l) with (b := true) (t1 := []) (t2 := []) (m := m) in H; auto; [tauto|].
  apply Forall_forall. intros x _. apply all_readable.
Qed.
Lemma lps_eq s r : cl_eq (CLps s) (CLps r) = true <-> s = r.
Proof. apply bytes_eqb_eq. Qed.
Lemma std_eq s r : cl_eq (CPrinStd s) (CPrinStd r) = true <-> s = r.
Proof. apply bytes_eqb_eq. Qed.
Lemma address_eq_iff a b : address_eq a b = true <-> a = b.
Proof.
  unfold address_eq. rewrite andb_true_iff, bytes_eqb_eq, byte_eqb_eq. destruct a, b. cbn.
  split; [intros [-> ->]; reflexivity | intros H; inversion H; auto].
Qed.
Lemma anchor_eq_iff a b : anchor_eq a b = true <-> a = b.
Proof. destruct a, b; cbn; intuition discriminate. Qed.
Lemma pcmode_eq_iff a b : pcmode_eq a b = true <-> a = b.
Proof. destruct a, b; cbn; intuition discriminate. Qed.
