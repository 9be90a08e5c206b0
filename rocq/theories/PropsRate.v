(** C92, C93: fee rates as floating-point numbers, read from JSON and written to it. *)

From Coq Require Import Strings.String Lia.
From Verif Require Import Base BaseFacts SpecText SpecShow Clarity SpecWire Tx SpecTx TxFacts F64 F64Show F64Fast Rpc SpecClient ClientThms Json SpecJson SpecF64 F64Thms F64ReadThms F64Error JsonThms
     JsonRead SpecBody JsonReadThms LookThms BodyThms PropsTx.
Local Open Scope string_scope.
Local Open Scope list_scope.
Local Open Scope N_scope.

(** ** C92 *)

Lemma rate_f64 j r : sound j -> rate_of j r -> is_f64 r.
Proof.
  destruct j as [| |z|t| | |]; try (intros _ []; fail); cbn [rate_of]; intros S H.
  - destruct H as (v & C & ->). split; [apply C|]. apply (int_finite (Z.abs_N z)); [|exact C]. inversion_clear S as [| |? B| | | |]. clear - B. unfold small_int in B. lia.
  - pose proof H as (neg & i & f & e & ki & ri & kf & rf & v & _ & _ & _ & _ & ->). exact (read_double _ _ _ H).
Qed.
(** What a node's estimates are given as: every rate is a double about as large as the number in the body. *)
Theorem C92_estimate : forall b j url t es, document b j -> estimate_fee (fun _ => outcome_of fee_shape (Body b)) url t = Ok (EsOk es) ->
  exists l, record_of [str "estimations"] j [JArr l]
  /\ Forall2 (fun x e => exists r, record_of (map str ["fee"; "fee_rate"]) x [number (fe_fee e); r] /\ rate_about r (fe_rate e) /\ is_f64 (fe_rate e)) l es.
Proof.
  intros b j url t es D E. apply estimate_of, (estimate_body (Body b)) in E. cbn [raw_estimate] in E.
  apply (body_json looks_fees fees_json _ b j _ D (fun j' a => fees_look j j' a) (fees_looks j)) in E.
  destruct E as [(a & (l & R & F) & E)|[_ E]]; [|discriminate]. injection E as <-. exists l. split; [exact R|].
  pose proof (record_sound _ _ _ (document_sound b j D) R) as S. inversion_clear S as [|? ? Sl _]. inversion_clear Sl as [| | | | |? L|].
  clear R D. induction F as [|x e l es (r & Rx & _ & Q) F IH]; inversion_clear L as [|? ? Sx L']; constructor; [|now apply IH]. exists r. split; [exact Rx|].
  split; [now apply rate_is_about|]. pose proof (record_sound _ _ _ Sx Rx) as Sr. inversion_clear Sr as [|? ? _ Sr']. inversion_clear Sr' as [|? ? Sr _].
  now apply (rate_f64 r).
Qed.
Print Assumptions C92_estimate.

(** Numbers of no more than 2^53 and powers of ten between -22 and 22: as close as can be. *)
Theorem C92_exact : forall t neg int frac ex v, number_of t neg int frac ex -> significand int frac <= 2 ^ 53 ->
  (-22 <= power frac ex <= 22)%Z -> closest_to (significand int frac) (power frac ex) v -> as_f64 (JFloat t) = Some (Fin neg v).
Proof.
  intros t neg int frac ex v T S P C. apply as_f64_iff. apply (exact_read t neg int frac ex v T); try assumption.
  - eapply N.le_lt_trans; [exact S|reflexivity].
  - destruct (N.eq_dec (significand int frac) (2 ^ 53)) as [->|H]; [apply double_pow|]. apply double_small. apply N.le_neq. split; [exact S|exact H].
Qed.
Print Assumptions C92_exact.
Theorem C92_integer : forall z, exists v, closest (Z.abs_N z) 1 v /\ as_f64 (JInt z) = Some (Fin (z <? 0)%Z v)
  /\ (Z.abs_N z < 2 ^ 64 -> v < infinite).
Proof. intros z. exists (f64_of_int (Z.abs_N z)). split; [apply closest_int|]. split; [reflexivity|]. intros L. exact (int_finite _ _ L (closest_int _)). Qed.
Print Assumptions C92_integer.

(** Other numbers: within one part in 2^50, or one smallest positive number. *)
Theorem C92_error : forall t neg int frac ex neg' v n d, number_of t neg int frac ex -> as_f64 (JFloat t) = Some (Fin neg' v) ->
  ten_fraction (significand int frac) (power frac ex) n d -> neg' = neg /\ about n d v.
Proof. intros t neg int frac ex neg' v n d T R F. apply as_f64_iff in R. now apply (read_about t neg int frac ex neg' v n d). Qed.
Print Assumptions C92_error.
(** Users expect the closest one.  Not so. *)
(** As [as_f64], computed on smaller numbers. *)
Lemma as_f64_fast t : as_f64 (JFloat t) = fast_of_text t. Proof. exact (of_text_fast t). Qed.
Theorem C92_nearest_refuted :
  ~ (forall t neg int frac ex v, number_of t neg int frac ex -> closest_to (significand int frac) (power frac ex) v -> v < infinite ->
       as_f64 (JFloat t) = Some (Fin neg v)).
Proof.
  intros H. specialize (H (str "498.83194054982084") false (str "498") (str "83194054982084") 0%Z (4387772151524755 * 2 ^ 1031)).
  assert (T : number_of (str "498.83194054982084") false (str "498") (str "83194054982084") 0).
  { exists [], (str ".83194054982084"), []. split; [reflexivity|]. split; [reflexivity|]. split; [|split; [|left; auto]].
    - right. split; [split; [discriminate|repeat constructor; unfold digit; cbn; lia]|discriminate].
    - right. split; [|reflexivity]. split; [discriminate|repeat constructor; unfold digit; cbn; lia]. }
  assert (C : closest_to (significand (str "498") (str "83194054982084")) (power (str "83194054982084") 0) (4387772151524755 * 2 ^ 1031)).
  { exists 49883194054982084, (10 ^ 14). split; [right; repeat split; reflexivity|]. apply closest_iff; [reflexivity|]. rewrite round_fast by discriminate. vm_compute. reflexivity. }
  specialize (H T C). assert (U : 4387772151524755 * 2 ^ 1031 < infinite) by (rewrite infinite_is; vm_compute; reflexivity). specialize (H U).
  assert (X : match as_f64 (JFloat (str "498.83194054982084")) with Some (Fin _ w) => w =? 4387772151524755 * 2 ^ 1031 | _ => false end = false)
    by (rewrite as_f64_fast; vm_compute; reflexivity).
  rewrite H, N.eqb_refl in X. discriminate.
Qed.
Print Assumptions C92_nearest_refuted.

(** Numbers that are too large are refused, others never. *)
Theorem C92_range : forall t neg int frac ex n d, number_of t neg int frac ex -> ten_fraction (significand int frac) (power frac ex) n d ->
  ((2 ^ 50 + 1) * (2 ^ 1024 * d) <= n * 2 ^ 50 -> as_f64 (JFloat t) = None)
  /\ (n * 2 ^ 50 <= (2 ^ 50 - 1) * (2 ^ 1024 * d) -> exists v, as_f64 (JFloat t) = Some (Fin neg v)).
Proof.
  intros t neg int frac ex n d T F. split; intros L.
  - destruct (as_f64 (JFloat t)) as [r|] eqn:E; [|reflexivity]. exfalso. apply as_f64_iff in E. exact (read_none t neg int frac ex n d r T F L E).
  - destruct (read_ok t neg int frac ex n d T F L) as (v & R). exists v. now apply as_f64_iff.
Qed.
Print Assumptions C92_range.
(** What is read is a double and not infinite. *)
Theorem C92_finite : forall t r, as_f64 (JFloat t) = Some r -> finite r /\ is_f64 r.
Proof.
  intros t r E. apply as_f64_iff in E. cbn [rate_of] in E. pose proof E as (neg & i & f & e & ki & ri & kf & rf & v & _ & _ & _ & _ & ->).
  split; [exact I|exact (read_double _ _ _ E)].
Qed.
Print Assumptions C92_finite.

Example C92_ex : as_f64 (JFloat (str "-1.5e3")) = Some (Fin true (1500 * one)) /\ as_f64 (JFloat (str "1e309")) = None
  /\ as_f64 (JFloat (str "5e-324")) = Some (Fin false 1) /\ as_f64 (JFloat (str "2e-324")) = Some (Fin false 0)
  /\ as_f64 (JInt 9007199254740993) = Some (Fin false (9007199254740992 * one))
  /\ as_f64 (JFloat (str "184467440737095516160.25")) = Some (Fin false (184467440737095516160 * one))
  /\ as_f64 (JFloat (str "1e-99999999999")) = Some (Fin false 0) /\ as_f64 (JFloat (str "0e99999999999")) = Some (Fin false 0).
Proof. repeat (split; [first [rewrite as_f64_fast | idtac]; vm_compute; reflexivity|]). rewrite as_f64_fast. vm_compute. reflexivity. Qed.
Example C92_estimate_ex :
  estimate_fee (fun _ => outcome_of fee_shape (Body (str "{""estimations"":[{""fee"":9,""fee_rate"":-4},[8,3]]}"))) (str "http://n") ex_tx
    = Ok (EsOk [{| fe_fee := 9; fe_rate := Fin true (4 * one) |}; {| fe_fee := 8; fe_rate := Fin false (3 * one) |}]).
Proof. vm_compute. reflexivity. Qed.

(** ** C93 *)

(** A rate is written with the fewest digits that tell it from other doubles, and of those the closest. *)
Theorem C93_shortest : forall neg v, 0 < v -> double v -> v < infinite ->
  exists c k, fewest v c k /\ stands_for (json_text (rate_value (Fin neg v))) neg c k.
Proof. intros neg v P V _. exact (written_fewest neg v P V). Qed.
Print Assumptions C93_shortest.
(** What is written is a JSON number of which nothing but the digits and the exponent count; infinities and NaN are [null]. *)
Theorem C93_number : forall r, is_f64 r ->
  (finite r -> forall j, document (json_text (rate_value r)) j <-> j = JFloat (json_text (rate_value r)))
  /\ (~ finite r -> json_text (rate_value r) = str "null").
Proof.
  intros [neg v|neg|] F; split; intros H; try (destruct H; exact I); try reflexivity.
  intros j. cbn [rate_value json_text]. exact (text_means (JFloat (f64_text neg v)) (sound_float _ (written_text neg v (proj1 F))) j).
Qed.
Print Assumptions C93_number.
(** Different doubles are written differently. *)
Theorem C93_distinct : forall a b, is_f64 a -> is_f64 b -> finite a -> finite b -> json_text (rate_value a) = json_text (rate_value b) -> a = b.
Proof.
  intros [neg v| |] [neg' v'| |] A B Fa Fb E; try destruct Fa; try destruct Fb. cbn [rate_value json_text] in E.
  destruct (written_distinct neg v neg' v' (proj1 A) (proj1 B) E) as [-> ->]. reflexivity.
Qed.
Print Assumptions C93_distinct.
Lemma rate_fast neg v : json_text (rate_value (Fin neg v)) = fast_text neg v. Proof. exact (text_fast neg v). Qed.
Example C93_ex : json_text (rate_value (Fin false 0)) = str "0.0" /\ json_text (rate_value (Fin true 0)) = str "-0.0"
  /\ json_text (rate_value (Fin false (5404319552844596 * 2 ^ 1020))) = str "0.30000000000000004"
  /\ json_text (rate_value (Fin true (one * 10 ^ 22))) = str "-1e22" /\ json_text (rate_value (Fin false (one * 10 ^ 15))) = str "1000000000000000.0"
  /\ json_text (rate_value (Fin false 1)) = str "5e-324" /\ json_text (rate_value (Fin false (1234 * one))) = str "1234.0".
Proof. repeat (split; [rewrite rate_fast; vm_compute; reflexivity|]). rewrite rate_fast. vm_compute. reflexivity. Qed.
