(** C82, C83: what goes over the wire and into files is JSON that says what was meant. *)

From Coq Require Import Strings.String Sorting.Sorted Lia.
From Verif Require Import Base BaseFacts SpecUtf8 SpecText SpecShow Clarity SpecWire WireFacts Tx SpecTx TxFacts F64 Rpc SpecClient ClientThms Json SpecJson SpecF64 F64Thms F64Show F64Fast F64ReadThms F64Error JsonThms.
Local Open Scope string_scope.
Local Open Scope list_scope.
Local Open Scope N_scope.

(** ** C82 *)

(** A text stands for at most one value. *)
Theorem C82_unambiguous : forall b j j', document b j -> document b j' -> j = j'.
Proof. exact document_fun. Qed.
Print Assumptions C82_unambiguous.

(** The members of a request's object come in byte order of their keys, each key once, with the value it was given last. *)
Theorem C82_keys : forall l, Sorted.StronglySorted before (map fst (json_map l))
  /\ forall k v, In (k, v) (json_map l) <-> last_value l k v.
Proof. exact map_keys. Qed.
Print Assumptions C82_keys.

(** What is written stands for the value, and for no other. *)
Theorem C82_text : forall j, sound j -> forall j', document (json_text j) j' <-> j' = j.
Proof. exact text_means. Qed.
Print Assumptions C82_text.

(** The body of a read-only call: whatever the sender's characters, one sender and one list of arguments. *)
Theorem C82_call : forall url addr name fname args sender ws, Forall2 means args ws -> Forall (wall fits1) ws -> utf8 sender ->
  exists rq, read_only_request url addr name fname args sender = Ok rq
  /\ (exists j, document (body_bytes (rq_body rq)) j)
  /\ forall j, document (body_bytes (rq_body rq)) j ->
       exists l, j = JObj l /\ length l = 2%nat /\ member l (str "sender") (JStr sender)
         /\ member l (str "arguments") (JArr (map (fun w => JStr (hex_text (wser w))) ws)).
Proof.
  intros url addr name fname args sender ws M F U. unfold read_only_request. rewrite (hex_args_ok args ws M F). cbn [map_err bind].
  rewrite map_map. eexists. split; [reflexivity|]. cbn [rq_body].
  change (body_bytes _) with (json_text (call_members sender ws)). split.
  - exists (call_members sender ws). apply text_means; [now apply call_sound|reflexivity].
  - intros j D. apply text_means in D; [|now apply call_sound]. subst j. eexists. split; [reflexivity|]. split; [reflexivity|]. split.
    + eexists [_], []. split; [reflexivity|]. split; [|intros []]. intros [H|[]]. discriminate.
    + eexists [], [_]. split; [reflexivity|]. split; [intros []|]. intros [H|[]]. discriminate.
Qed.
Print Assumptions C82_call.

(** Calls whose bodies are the same bytes ask the same. *)
Theorem C82_call_same : forall url addr name fname args sender ws rq url' addr' name' fname' args' sender' ws' rq',
  Forall2 means args ws -> Forall (wall fits1) ws -> utf8 sender -> read_only_request url addr name fname args sender = Ok rq ->
  Forall2 means args' ws' -> Forall (wall fits1) ws' -> utf8 sender' -> read_only_request url' addr' name' fname' args' sender' = Ok rq' ->
  body_bytes (rq_body rq) = body_bytes (rq_body rq') -> sender = sender' /\ map wser ws = map wser ws'.
Proof.
  intros url addr name fname args sender ws rq url' addr' name' fname' args' sender' ws' rq' M F U R M' F' U' R' B.
  unfold read_only_request in R, R'. rewrite (hex_args_ok args ws M F) in R. rewrite (hex_args_ok args' ws' M' F') in R'.
  cbn [map_err bind] in R, R'. rewrite map_map in R, R'. injection R as <-. injection R' as <-. cbn [rq_body] in B.
  change (json_text (call_members sender ws) = json_text (call_members sender' ws')) in B.
  assert (E : call_members sender' ws' = call_members sender ws).
  { apply (proj1 (text_means _ (call_sound sender ws U) _)). rewrite B. apply text_means; [now apply call_sound|reflexivity]. }
  unfold call_members in E. injection E as E1 E2. split; [now symmetry|]. symmetry. now apply map_hex_inj.
Qed.
Print Assumptions C82_call_same.

(** The body of a fee request: the payload and the length of the transaction. *)
Theorem C82_fee : forall url t w, tx_means t w -> fits_tx w -> count (ser_tx w) < 2 ^ 64 ->
  exists rq, estimate_request url t = Ok rq
  /\ (exists j, document (body_bytes (rq_body rq)) j)
  /\ forall j, document (body_bytes (rq_body rq)) j ->
       exists l, j = JObj l /\ length l = 2%nat /\ member l (str "transaction_payload") (JStr (hex_text (ser_payload (w_payload w))))
         /\ member l (str "estimated_len") (JInt (Z.of_N (count (ser_tx w)))).
Proof.
  intros url t w M F B. unfold estimate_request.
  rewrite (proj2 (payload_iff (tx_payload t) (ser_payload (w_payload w)))).
  2:{ exists (w_payload w). split; [apply M|]. split; [apply F|reflexivity]. }
  rewrite (proj2 (tx_iff t (ser_tx w)) (ex_intro _ w (conj M (conj F eq_refl)))). cbn [map_err bind]. rewrite HexFacts.bytes_to_hex_text.
  eexists. split; [reflexivity|]. cbn [rq_body]. change (body_bytes _) with (json_text (fee_members w)). split.
  - exists (fee_members w). apply text_means; [now apply fee_sound|reflexivity].
  - intros j D. apply text_means in D; [|now apply fee_sound]. subst j. eexists. split; [reflexivity|]. split; [reflexivity|]. split.
    + eexists [_], []. split; [reflexivity|]. split; [|intros []]. intros [H|[]]. discriminate.
    + eexists [], [_]. split; [reflexivity|]. split; [intros []|]. intros [H|[]]. discriminate.
Qed.
Print Assumptions C82_fee.

(** A sender trying to close the string and add arguments of its own: quoted, and not confused with another call. *)
Definition ex_sender : bytes := str "SP""],""arguments"":[""00\" ++ [x0a].
Example C82_ex : exists rq, read_only_request (str "http://n") (str "A") (str "c") (str "f") [CUInt 1; CTrue] ex_sender = Ok rq
  /\ body_bytes (rq_body rq)
     = str "{""arguments"":[""0100000000000000000000000000000001"",""03""],""sender"":""SP\""],\""arguments\"":[\""00\\\n""}"
  /\ Forall2 means [CUInt 1; CTrue] [WUInt 1; WTrue] /\ Forall (wall fits1) [WUInt 1; WTrue] /\ utf8 ex_sender.
Proof.
  eexists. split; [reflexivity|]. split; [vm_compute; reflexivity|]. split; [repeat constructor|]. split; [repeat constructor|].
  now apply ascii_utf8.
Qed.

(** ** C83 *)

(** Responses written as JSON are read back. *)
Theorem C83_info : forall i, storable_info i -> reads_back parse_info (json_text (info_value i)) i.
Proof. exact info_back. Qed.
Print Assumptions C83_info.
Theorem C83_address : forall a, storable_address a -> reads_back parse_address (json_text (address_value a)) a.
Proof. exact address_back. Qed.
Print Assumptions C83_address.
Theorem C83_broadcast : forall r, storable_broadcast r -> reads_back read_broadcast (json_text (broadcast_value r)) r.
Proof. exact broadcast_back. Qed.
Print Assumptions C83_broadcast.
Theorem C83_read_only : forall r, storable_read_only r -> reads_back parse_read_only (json_text (read_only_value r)) r.
Proof. exact read_only_back. Qed.
Print Assumptions C83_read_only.
(** Estimates too, if their rates are decimal numbers of up to 15 digits; the others up to the last places of their rates. *)
Theorem C83_fees : forall l, Forall (fun e => fe_fee e < 2 ^ 64 /\ short_decimal (fe_rate e)) l ->
  reads_back read_estimate (json_text (fees_value l)) (EsOk l).
Proof.
  intros l F. apply fees_back.
  - eapply Forall_impl; [|exact F]. intros e [B (neg & v & c & k & E & C & K & H)]. split; [exact B|]. rewrite E. exact (read_double _ _ _ (text_back neg v c k C K H)).
  - induction F as [|e l [B (neg & v & c & k & E & C & K & H)] F IH]; constructor; [|exact IH]. split; [reflexivity|]. exists neg, v. rewrite E. split; [reflexivity|].
    exact (text_back neg v c k C K H).
Qed.
Print Assumptions C83_fees.
Theorem C83_fees_near : forall l, Forall (fun e => fe_fee e < 2 ^ 64 /\ is_f64 (fe_rate e) /\ finite (fe_rate e)) l ->
  exists l', Forall2 near_estimate l l' /\ reads_back read_estimate (json_text (fees_value l)) (EsOk l').
Proof.
  intros l F. assert (H : exists l', Forall2 near_estimate l l' /\ Forall2 estimate_back l l').
  { induction F as [|e l (B & D & N) F (l' & A & C)]; [exists []; split; constructor|]. destruct (fe_rate e) as [neg v| |] eqn:E; try destruct N. destruct D as [D U].
    destruct (written_read neg v D U) as (w & R & L). exists ({| fe_fee := fe_fee e; fe_rate := Fin neg w |} :: l'). split; constructor; try assumption.
    - split; [reflexivity|]. exists neg, v, w. destruct (read_double _ _ _ R) as [D' U']. repeat split; assumption.
    - split; [reflexivity|]. exists neg, v. split; assumption. }
  destruct H as (l' & A & C). exists l'. split; [exact A|]. apply fees_back; [|exact C].
  eapply Forall_impl; [|exact F]. intros e (B & D & _). now split.
Qed.
Print Assumptions C83_fees_near.

(** Users expect finite rates to be read back unchanged.  They are not: 498.83194054982084, the shortest text of a double, is read as
    another one. *)
Definition odd_estimate : fee_estimate := {| fe_fee := 1; fe_rate := Fin false (4387772151524755 * 2 ^ 1031) |}.
Lemma odd_double : double (4387772151524755 * 2 ^ 1031) /\ 4387772151524755 * 2 ^ 1031 < infinite.
Proof.
  split; [exists 4387772151524755, 1031; split; [reflexivity|reflexivity]|]. rewrite infinite_is. vm_compute. reflexivity.
Qed.
Lemma one_read v : read_estimate (fees_value [{| fe_fee := 1; fe_rate := Fin false v |}])
  = match float_of_text (f64_text false v) with Some r => Some (EsOk [{| fe_fee := 1; fe_rate := r |}]) | None => None end.
Proof.
  assert (E : parse_estimate (estimate_value {| fe_fee := 1; fe_rate := Fin false v |})
    = match float_of_text (f64_text false v) with Some r => Some {| fe_fee := 1; fe_rate := r |} | None => None end) by reflexivity.
  assert (P : parse_fee_ok (fees_value [{| fe_fee := 1; fe_rate := Fin false v |}])
    = match parse_estimate (estimate_value {| fe_fee := 1; fe_rate := Fin false v |}) with Some e => Some [e] | None => None end) by reflexivity.
  unfold read_estimate. rewrite P, E. destruct (float_of_text (f64_text false v)); reflexivity.
Qed.
Lemma odd_read : match read_estimate (fees_value [odd_estimate]) with
  | Some (EsOk [e]) => match fe_rate e with Fin _ w => w =? 4387772151524755 * 2 ^ 1031 | _ => false end
  | _ => false end = false.
Proof. unfold odd_estimate. rewrite one_read, text_fast, of_text_fast. vm_compute. reflexivity. Qed.
Theorem C83_fees_refuted :
  ~ (forall l, Forall (fun e => fe_fee e < 2 ^ 64 /\ is_f64 (fe_rate e) /\ finite (fe_rate e)) l ->
       reads_back read_estimate (json_text (fees_value l)) (EsOk l)).
Proof.
  intros H. assert (F : Forall (fun e => fe_fee e < 2 ^ 64 /\ is_f64 (fe_rate e)) [odd_estimate]) by (constructor; [split; [reflexivity|exact odd_double]|constructor]).
  destruct (H [odd_estimate]) as [_ R]; [constructor; [split; [reflexivity|split; [exact odd_double|exact I]]|constructor]|].
  specialize (R (fees_value [odd_estimate]) (proj2 (text_means _ (fees_sound _ F) _) eq_refl)). pose proof odd_read as O. rewrite R in O.
  cbn [fe_rate odd_estimate] in O. rewrite N.eqb_refl in O. discriminate.
Qed.
Print Assumptions C83_fees_refuted.
Theorem C83_reason : forall s, utf8 s -> reads_back read_estimate (json_text (JStr s)) (EsErr s).
Proof. exact reason_back. Qed.
Print Assumptions C83_reason.

(** Finding: estimates with a rate that is infinite or not a number are written, but not as anything that can be read. *)
Theorem C83_rate_lost : forall l, Forall (fun e => fe_fee e < 2 ^ 64 /\ is_f64 (fe_rate e)) l -> Exists (fun e => ~ finite (fe_rate e)) l ->
  (exists j, document (json_text (fees_value l)) j)
  /\ forall j, document (json_text (fees_value l)) j -> read_estimate j = None.
Proof. exact fees_lost. Qed.
Print Assumptions C83_rate_lost.

Definition ex_rate : f64 := Fin false (5 * 2 ^ 1072).
Lemma ex_rate_short : short_decimal ex_rate.
Proof.
  exists false, (5 * 2 ^ 1072), 125, (-2)%Z. split; [reflexivity|]. split; [reflexivity|]. split; [lia|].
  exists 125, 100. split; [right; repeat split; reflexivity|]. apply closest_iff; [reflexivity|]. rewrite round_fast by discriminate. vm_compute. reflexivity.
Qed.
Definition ex_info : node_info :=
  {| ni_peer_version := 402653196; ni_pox_consensus := str "ab"; ni_burn_height := 18446744073709551615; ni_stable_pox := [];
     ni_stable_burn_height := 0; ni_server_version := str "node ""1""" ++ [x0a]; ni_network := 4294967295; ni_parent_network := 1;
     ni_tip_height := 7; ni_tip := [xc3; xa9]; ni_tip_consensus := [x01]; ni_genesis := str "g" |}.
Example C83_ex : storable_info ex_info
  /\ json_text (fees_value [{| fe_fee := 200; fe_rate := ex_rate |}; {| fe_fee := 7; fe_rate := Inf true |}])
     = str "{""estimations"":[{""fee"":200,""fee_rate"":1.25},{""fee"":7,""fee_rate"":null}]}"
  /\ json_text (broadcast_value (BcErr {| be_error := str "e"; be_reason := [x09]; be_txid := [x1f] |}))
     = str "{""error"":""e"",""reason"":""\t"",""txid"":""\u001f""}"
  /\ short_decimal ex_rate.
Proof.
  split; [|split; [cbn -[f64_text N.mul N.pow]; rewrite text_fast; vm_compute; reflexivity
                  |split; [vm_compute; reflexivity|exact ex_rate_short]]].
  split; [|split; [|split]]; cbn; try lia.
  - repeat constructor; try (now apply ascii_utf8). exists [233]. split; [constructor; [left; lia|constructor]|reflexivity].
  - repeat constructor; lia.
Qed.
