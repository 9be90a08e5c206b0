(** C91: what a client's method returns is determined by the bytes the node sends. *)

From Coq Require Import Strings.String Sorting.Permutation Lia.
From Verif Require Import Base BaseFacts SpecUtf8 SpecText SpecShow Clarity SpecWire WireFacts Tx SpecTx TxFacts F64 Rpc SpecClient ClientThms Json SpecJson SpecF64 F64Thms JsonThms JsonRead SpecBody JsonReadThms LookThms BodyThms PropsTx PropsClient.
Local Open Scope string_scope.
Local Open Scope list_scope.
Local Open Scope N_scope.

(** ** What each method makes of a body *)
Theorem C91_info : forall node url,
  raw_plain looks_info info_json (node (get (url ++ str "/v2/info"))) (info (fun rq => outcome_of info_shape (node rq)) url).
Proof. intros node url. apply plain_body. apply (info_result (fun rq => outcome_of info_shape (node rq))). Qed.
Print Assumptions C91_info.

Theorem C91_address : forall node url addr,
  raw_plain looks_address address_json (node (get (url ++ str "/v2/accounts/" ++ addr))) (address_info_of (fun rq => outcome_of address_shape (node rq)) url addr).
Proof. intros node url addr. apply plain_body. apply (address_result (fun rq => outcome_of address_shape (node rq))). Qed.
Print Assumptions C91_address.

Theorem C91_read_only : forall node url addr name fname args sender ws, Forall2 means args ws -> Forall (wall fits1) ws ->
  raw_plain looks_read_only read_only_json
    (node (post_json (url ++ str "/v2/contracts/call-read/" ++ addr ++ str "/" ++ name ++ str "/" ++ fname) (call_question sender ws)))
    (read_only (fun rq => outcome_of read_only_shape (node rq)) url addr name fname args sender).
Proof. intros node url addr name fname args sender ws M F. apply plain_body. now apply (read_only_asks (fun rq => outcome_of read_only_shape (node rq))). Qed.
Print Assumptions C91_read_only.

Theorem C91_broadcast : forall node url t w, tx_means t w -> fits_tx w ->
  raw_broadcast (node (post_bytes (url ++ str "/v2/transactions") (ser_tx w))) (broadcast (fun rq => outcome_of rejection_shape (node rq)) url t).
Proof. intros node url t w M F. apply broadcast_body. now apply (broadcast_sends (fun rq => outcome_of rejection_shape (node rq))). Qed.
Print Assumptions C91_broadcast.

Theorem C91_estimate : forall node url t w, tx_means t w -> fits_tx w ->
  raw_estimate (node (post_json (url ++ str "/v2/fees/transaction") (fee_question w))) (estimate_fee (fun rq => outcome_of fee_shape (node rq)) url t).
Proof. intros node url t w M F. apply estimate_body. now apply (estimate_asks (fun rq => outcome_of fee_shape (node rq))). Qed.
Print Assumptions C91_estimate.

(** Which leaves one result for each body. *)
Theorem C91_determined :
  (forall r x y, raw_plain looks_info info_json r x -> raw_plain looks_info info_json r y -> x = y)
  /\ (forall r x y, raw_plain looks_address address_json r x -> raw_plain looks_address address_json r y -> x = y)
  /\ (forall r x y, raw_plain looks_read_only read_only_json r x -> raw_plain looks_read_only read_only_json r y -> x = y)
  /\ (forall r x y, raw_broadcast r x -> raw_broadcast r y -> x = y)
  /\ (forall r x y, raw_estimate r x -> raw_estimate r y -> x = y).
Proof.
  repeat split; intros [b|c b|] x y; cbn [raw_plain raw_broadcast raw_estimate]; try congruence.
  - apply body_as_fun, (iff_fun _ _ parse_info_iff).
  - apply body_as_fun, (iff_fun _ _ parse_address_iff).
  - apply body_as_fun, (iff_fun _ _ parse_read_only_iff).
  - apply body_text_fun.
  - apply body_as_fun, (iff_fun _ _ parse_broadcast_iff).
  - apply body_as_fun, (iff_fun _ _ parse_fee_iff).
  - apply body_text_fun.
Qed.
Print Assumptions C91_determined.

(** The reader accepts the texts of the grammar, all of them and nothing else.  Where everything is looked at that grammar is
    JSON, nested no deeper than allowed and without numbers too large. *)
Theorem C91_reader : forall s b j, read_json s b = Some j <-> document_at s b j.
Proof. exact read_json_iff. Qed.
Print Assumptions C91_reader.
Theorem C91_any : forall d b j, document_at (Any d) b j <-> document b j /\ (nesting j <= d)%nat /\ all_finite j.
Proof. exact any_iff. Qed.
Print Assumptions C91_any.

(** A body that is JSON is read for what it says; for [read_only] it must not be nested deeper than 127 nor have numbers
    that are too large. *)
Theorem C91_json : forall b j, document b j ->
  (forall url, json_as info_json (fun a => a) j (info (fun _ => outcome_of info_shape (Body b)) url))
  /\ (forall url addr, json_as address_json (fun a => a) j (address_info_of (fun _ => outcome_of address_shape (Body b)) url addr))
  /\ (forall url addr name fname args sender ws, Forall2 means args ws -> Forall (wall fits1) ws ->
        ((nesting j <= 127)%nat -> all_finite j ->
           json_as read_only_json (fun a => a) j (read_only (fun _ => outcome_of read_only_shape (Body b)) url addr name fname args sender))
        /\ (~ ((nesting j <= 127)%nat /\ all_finite j) ->
           read_only (fun _ => outcome_of read_only_shape (Body b)) url addr name fname args sender = Err RIo))
  /\ (forall url t w, tx_means t w -> fits_tx w -> json_as fees_json EsOk j (estimate_fee (fun _ => outcome_of fee_shape (Body b)) url t))
  /\ (forall url t w c, tx_means t w -> fits_tx w ->
        json_as rejection_json BcErr j (broadcast (fun _ => outcome_of rejection_shape (Status c b)) url t)).
Proof.
  intros b j D. split; [|split; [|split; [|split]]].
  - intros url. apply (body_json looks_info info_json _ b j _ D (fun j' a => info_look j j' a) (info_looks j)). exact (C91_info (fun _ => Body b) url).
  - intros url addr. apply (body_json looks_address address_json _ b j _ D (fun j' a => address_look j j' a) (address_looks j)). exact (C91_address (fun _ => Body b) url addr).
  - intros url addr name fname args sender vs M F. pose proof (C91_read_only (fun _ => Body b) url addr name fname args sender vs M F) as R. cbn [raw_plain] in R.
    split.
    + intros L Fj. apply (body_json looks_read_only read_only_json _ b j _ D (fun j' a => read_only_look j j' a)); [|exact R].
      intros a _. unfold looks_read_only. rewrite look_any, (proj2 (fits_iff 127 j) (conj L Fj)). discriminate.
    + intros L. destruct R as [(j' & a & D' & _)|[_ R]]; [|exact R]. exfalso. apply any_iff in D'. destruct D' as [D' L'].
      rewrite (document_fun b j' j D' D) in L'. now apply L.
  - intros url t w M F. apply (body_json looks_fees fees_json _ b j _ D (fun j' a => fees_look j j' a) (fees_looks j)). exact (C91_estimate (fun _ => Body b) url t w M F).
  - intros url t w c M F. apply (body_json looks_rejection rejection_json _ b j _ D (fun j' a => rejection_look j j' a) (rejection_looks j)).
    exact (C91_broadcast (fun _ => Status c b) url t w M F).
Qed.
Print Assumptions C91_json.

(** Users expect a body to be refused if it is not JSON, and not to be refused because of members nobody looks at.  Neither
    holds: there are bodies that are not JSON and are accepted, and JSON bodies with a good result that are refused. *)
Definition spoilt : bytes :=
  str "{""balance"":""0x1"",""locked"":""0x0"",""unlock_height"":0,""nonce"":7,""balance_proof"":"""",""nonce_proof"":"""",""x"":[""\ud800"",{"""
    ++ [xff] ++ str """:1}]}".
Theorem C91_not_json_refuted :
  ~ (forall b url addr a, address_info_of (fun _ => outcome_of address_shape (Body b)) url addr = Ok a -> exists j, document b j).
Proof.
  intros H. destruct (H spoilt (str "http://n") (str "S1")
    {| ad_balance := str "0x1"; ad_locked := str "0x0"; ad_unlock := 0; ad_nonce := 7; ad_balance_proof := []; ad_nonce_proof := [] |}) as (j & D);
    [vm_compute; reflexivity|].
  revert D. eapply not_json; [vm_compute; reflexivity..].
Qed.
Print Assumptions C91_not_json_refuted.
Fixpoint nested (n : nat) : json := match n with O => JNull | S m => JArr [nested m] end.
Fixpoint nested_text (n : nat) : bytes := match n with O => str "null" | S m => x5b :: nested_text m ++ [x5d] end.
Definition deep_text : bytes := str "{""okay"":true,""result"":""0x03"",""x"":" ++ nested_text 127 ++ str "}".
Definition deep_json : json := JObj [(str "okay", JBool true); (str "result", JStr (str "0x03")); (str "x", nested 127)].
Theorem C91_deep_refuted :
  ~ (forall b j r url addr name fname args sender ws, Forall2 means args ws -> Forall (wall fits1) ws -> document b j -> read_only_json j r ->
       read_only (fun _ => outcome_of read_only_shape (Body b)) url addr name fname args sender = Ok r).
Proof.
  intros H. specialize (H deep_text deep_json (ROk true (str "0x03")) (str "http://n") (str "S1") (str "c") (str "f") [] (str "S2") []
    (Forall2_nil _) (Forall_nil _)).
  assert (D : document deep_text deep_json) by (apply (any_iff 128), read_json_iff; vm_compute; reflexivity).
  specialize (H D). assert (R : read_only_json deep_json (ROk true (str "0x03"))) by (apply parse_read_only_iff; vm_compute; reflexivity).
  specialize (H R). vm_compute in H. discriminate H.
Qed.
Print Assumptions C91_deep_refuted.
Definition large_json : json := JObj [(str "okay", JBool true); (str "result", JStr (str "0x03")); (str "x", JFloat (str "1e309"))].
Lemma large_number : number_text (str "1e309") (JFloat (str "1e309")).
Proof.
  right. split.
  - intros z _ [[_ (D & _)]|[_ (r & E & _)]]; [|discriminate]. inversion_clear D as [|? ? _ D']. inversion_clear D' as [|? ? D _].
    unfold digit in D. cbn in D. lia.
  - exists [], [x31], [], (str "e309"). split; [now left|]. split.
    + right. split; [split; [discriminate|]|discriminate]. constructor; [unfold digit; cbn; lia|constructor].
    + split; [now left|]. split; [|split; reflexivity]. right. exists x65, [], (str "309"). split; [now left|]. split; [now left|].
      split; [|reflexivity]. split; [discriminate|]. repeat constructor; unfold digit; cbn; lia.
Qed.
Lemma large_sound : sound large_json.
Proof.
  constructor. repeat (apply Forall_cons; [split; [now apply ascii_utf8|]|]); [..|apply Forall_nil]; cbn [snd]; constructor.
  - now apply ascii_utf8.
  - exact large_number.
Qed.
Theorem C91_large_refuted :
  ~ (forall b j r url addr name fname args sender ws, Forall2 means args ws -> Forall (wall fits1) ws -> document b j -> read_only_json j r ->
       (nesting j <= 127)%nat ->
       read_only (fun _ => outcome_of read_only_shape (Body b)) url addr name fname args sender = Ok r).
Proof.
  intros H. specialize (H (json_text large_json) large_json (ROk true (str "0x03")) (str "http://n") (str "S1") (str "c") (str "f") [] (str "S2") []
    (Forall2_nil _) (Forall_nil _) (proj2 (text_means _ large_sound _) eq_refl)).
  assert (R : read_only_json large_json (ROk true (str "0x03"))) by (apply parse_read_only_iff; vm_compute; reflexivity).
  specialize (H R). assert (L : (nesting large_json <= 127)%nat) by (apply Nat.leb_le; vm_compute; reflexivity). specialize (H L). vm_compute in H. discriminate H.
Qed.
Print Assumptions C91_large_refuted.

(** Every body has one text; it is made of characters, and is the body itself if that is. *)
Theorem C91_text : forall b, (exists t, mended b t) /\ (forall t t', mended b t -> mended b t' -> t = t')
  /\ (forall t, mended b t -> utf8 t) /\ (utf8 b -> mended b b).
Proof.
  intros b. split; [exists (lossy b); apply lossy_mended|]. split; [intros t t' M; now apply mended_fun|].
  split; [apply mended_utf8|apply utf8_mended].
Qed.
Print Assumptions C91_text.

(** A body cut short, or with anything but blanks behind it, is never taken for the whole. *)
Theorem C91_whole : forall p q,
  (forall url x y, info (fun _ => outcome_of info_shape (Body p)) url = Ok x -> info (fun _ => outcome_of info_shape (Body (p ++ q))) url = Ok y -> ws q /\ x = y)
  /\ (forall url addr x y, address_info_of (fun _ => outcome_of address_shape (Body p)) url addr = Ok x ->
        address_info_of (fun _ => outcome_of address_shape (Body (p ++ q))) url addr = Ok y -> ws q /\ x = y)
  /\ (forall url addr name fname args sender x y, read_only (fun _ => outcome_of read_only_shape (Body p)) url addr name fname args sender = Ok x ->
        read_only (fun _ => outcome_of read_only_shape (Body (p ++ q))) url addr name fname args sender = Ok y -> ws q /\ x = y)
  /\ (forall url t x y, estimate_fee (fun _ => outcome_of fee_shape (Body p)) url t = Ok x ->
        estimate_fee (fun _ => outcome_of fee_shape (Body (p ++ q))) url t = Ok y -> ws q /\ x = y)
  /\ (forall url t c x y, broadcast (fun _ => outcome_of rejection_shape (Status c p)) url t = Ok x ->
        broadcast (fun _ => outcome_of rejection_shape (Status c (p ++ q))) url t = Ok y -> ws q /\ x = y).
Proof.
  intros p q. split; [|split; [|split; [|split]]].
  - intros url x y X Y. pose proof (C91_info (fun _ => Body p) url) as Bx. pose proof (C91_info (fun _ => Body (p ++ q)) url) as By.
    cbv beta in Bx, By. rewrite X in Bx. rewrite Y in By. apply (cut_body looks_info info_json (fun a => a) p q x y (iff_fun _ _ parse_info_iff) info_container Bx By).
  - intros url addr x y X Y. pose proof (C91_address (fun _ => Body p) url addr) as Bx. pose proof (C91_address (fun _ => Body (p ++ q)) url addr) as By.
    cbv beta in Bx, By. rewrite X in Bx. rewrite Y in By. apply (cut_body looks_address address_json (fun a => a) p q x y (iff_fun _ _ parse_address_iff) address_container Bx By).
  - intros url addr name fname args sender x y X Y. apply read_only_of, (plain_body looks_read_only _ (Body p)) in X. apply read_only_of, (plain_body looks_read_only _ (Body (p ++ q))) in Y.
    apply (cut_body looks_read_only read_only_json (fun a => a) p q x y (iff_fun _ _ parse_read_only_iff) read_only_container X Y).
  - intros url t x y X Y. apply estimate_of, (estimate_body (Body p)) in X. apply estimate_of, (estimate_body (Body (p ++ q))) in Y.
    apply (cut_body looks_fees fees_json EsOk p q x y (iff_fun _ _ parse_fee_iff) fees_container X Y).
  - intros url t c x y X Y. apply broadcast_of, (broadcast_body (Status c p)) in X. apply broadcast_of, (broadcast_body (Status c (p ++ q))) in Y.
    apply (cut_body looks_rejection rejection_json BcErr p q x y (iff_fun _ _ parse_broadcast_iff) rejection_container X Y).
Qed.
Print Assumptions C91_whole.

(** The order of members, members of other names, and everything else about the writing of a body are irrelevant. *)
Theorem C91_layout : forall b b' l l', document b (JObj l) -> document b' (JObj l') ->
  (Permutation (known (map str ["peer_version"; "pox_consensus"; "burn_block_height"; "stable_pox_consensus"; "stable_burn_block_height";
      "server_version"; "network_id"; "parent_network_id"; "stacks_tip_height"; "stacks_tip"; "stacks_tip_consensus_hash";
      "genesis_chainstate_hash"]) l)
     (known (map str ["peer_version"; "pox_consensus"; "burn_block_height"; "stable_pox_consensus"; "stable_burn_block_height";
      "server_version"; "network_id"; "parent_network_id"; "stacks_tip_height"; "stacks_tip"; "stacks_tip_consensus_hash";
      "genesis_chainstate_hash"]) l') ->
   forall url, info (fun _ => outcome_of info_shape (Body b)) url = info (fun _ => outcome_of info_shape (Body b')) url)
  /\ (Permutation (known (map str ["balance"; "locked"; "unlock_height"; "nonce"; "balance_proof"; "nonce_proof"]) l)
        (known (map str ["balance"; "locked"; "unlock_height"; "nonce"; "balance_proof"; "nonce_proof"]) l') ->
      forall url addr, address_info_of (fun _ => outcome_of address_shape (Body b)) url addr = address_info_of (fun _ => outcome_of address_shape (Body b')) url addr)
  /\ (Permutation (known (map str ["okay"; "result"; "cause"]) l) (known (map str ["okay"; "result"; "cause"]) l') ->
      (nesting (JObj l) <= 127)%nat -> (nesting (JObj l') <= 127)%nat -> all_finite (JObj l) -> all_finite (JObj l') ->
      forall url addr name fname args sender, read_only (fun _ => outcome_of read_only_shape (Body b)) url addr name fname args sender
        = read_only (fun _ => outcome_of read_only_shape (Body b')) url addr name fname args sender)
  /\ (Permutation (known [str "estimations"] l) (known [str "estimations"] l') ->
      forall url t, estimate_fee (fun _ => outcome_of fee_shape (Body b)) url t = estimate_fee (fun _ => outcome_of fee_shape (Body b')) url t)
  /\ (Permutation (known (map str ["error"; "reason"; "txid"]) l) (known (map str ["error"; "reason"; "txid"]) l') ->
      forall url t c c', broadcast (fun _ => outcome_of rejection_shape (Status c b)) url t = broadcast (fun _ => outcome_of rejection_shape (Status c' b')) url t).
Proof.
  intros b b' l l' D D'.
  assert (G : forall A s (p : json -> option A) (P : json -> A -> Prop), (forall j a, p j = Some a <-> P j a) ->
    (forall i j a, look s i = Some j -> (P j a <-> P i a)) -> (forall a, P (JObj l) a -> look s (JObj l) <> None) ->
    (forall a, P (JObj l') a -> look s (JObj l') <> None) ->
    (forall a, P (JObj l) a <-> P (JObj l') a) -> into_json p (reply s b) = into_json p (reply s b')).
  { intros A s p P I Lk N N' S. apply (json_same P (fun a => a) (JObj l) (JObj l') _ _ (iff_fun p P I) S).
    - apply (body_json s P _ b _ _ D (fun j' a => Lk _ j' a) N). apply read_as_body, (into_json_plain p P _ I).
    - apply (body_json s P _ b' _ _ D' (fun j' a => Lk _ j' a) N'). apply read_as_body, (into_json_plain p P _ I). }
  split; [|split; [|split; [|split]]].
  - intros H url. apply (G _ _ _ _ parse_info_iff info_look (info_looks _) (info_looks _)). intros z.
    split; [now apply info_same|apply info_same; now apply Permutation_sym].
  - intros H url addr. apply (G _ _ _ _ parse_address_iff address_look (address_looks _) (address_looks _)). intros z.
    split; [now apply address_same|apply address_same; now apply Permutation_sym].
  - intros H L L' Fl Fl' url addr name fname args sender. unfold read_only. destruct (read_only_request _ _ _ _ _ _); cbn [bind]; [|reflexivity..].
    apply (G _ _ _ _ parse_read_only_iff read_only_look).
    + intros z _. unfold looks_read_only. rewrite look_any, (proj2 (fits_iff 127 _) (conj L Fl)). discriminate.
    + intros z _. unfold looks_read_only. rewrite look_any, (proj2 (fits_iff 127 _) (conj L' Fl')). discriminate.
    + intros z. split; [now apply read_only_same|apply read_only_same; now apply Permutation_sym].
  - intros H url t. unfold estimate_fee. destruct (estimate_request url t); cbn [bind outcome_of]; [|reflexivity..].
    rewrite (G _ fee_shape _ _ parse_fee_iff fees_look (fees_looks _) (fees_looks _)); [reflexivity|]. intros x. split; [now apply fees_same|apply fees_same; now apply Permutation_sym].
  - intros H url t c c'. unfold broadcast. destruct (broadcast_request url t); cbn [bind outcome_of]; [|reflexivity..].
    rewrite (G _ rejection_shape _ _ parse_broadcast_iff rejection_look (rejection_looks _) (rejection_looks _)); [reflexivity|]. intros x.
    split; [now apply rejection_same|apply rejection_same; now apply Permutation_sym].
Qed.
Print Assumptions C91_layout.

(** ** A case of each *)
Definition ex_address : bytes := str " {""nonce"":7 ,""balance"":""0x\u00E9\ud83d\uDE00"",
  ""x"":[1.5e3,{},[],null,true],""locked"" : ""\/"", ""unlock_height"":18446744073709551615,""nonce_proof"":"""",""balance_proof"":""p""}
".
Example C91_ex :
  address_info_of (fun _ => outcome_of address_shape (Body ex_address)) (str "http://n") (str "S1")
    = Ok {| ad_balance := str "0x" ++ [xc3; xa9; xf0; x9f; x98; x80]; ad_locked := str "/"; ad_unlock := 18446744073709551615; ad_nonce := 7;
            ad_balance_proof := str "p"; ad_nonce_proof := [] |}
  /\ address_info_of (fun _ => outcome_of address_shape (Body (firstn 150 ex_address))) (str "http://n") (str "S1") = Err RIo
  /\ address_info_of (fun _ => outcome_of address_shape (Body (ex_address ++ str "}"))) (str "http://n") (str "S1") = Err RIo
  /\ address_info_of (fun _ => outcome_of address_shape (Body (str "{""nonce"":07}"))) (str "http://n") (str "S1") = Err RIo
  /\ broadcast (fun _ => outcome_of rejection_shape (Body [x22; xff; xe2; x82; x22])) (str "http://n") ex_tx = Ok (BcOk [x22; xef; xbf; xbd; xef; xbf; xbd; x22])
  /\ broadcast (fun _ => outcome_of rejection_shape (Status 400 (str "{""txid"":""00"",""reason"":""r"",""error"":""e"",""reason_data"":{}}"))) (str "http://n") ex_tx
     = Ok (BcErr {| be_error := str "e"; be_reason := str "r"; be_txid := str "00" |})
  /\ estimate_fee (fun _ => outcome_of fee_shape (Body (str "{""estimations"":[{""fee_rate"":1e2,""fee"":9},[8,-0]]}"))) (str "http://n") ex_tx
     = Ok (EsOk [{| fe_fee := 9; fe_rate := Fin false (100 * one) |}; {| fe_fee := 8; fe_rate := Fin true 0 |}])
  /\ read_only (fun _ => outcome_of read_only_shape (Body (str "{""okay"":true,""result"":""0x03""}"))) (str "http://n") (str "S1") (str "c") (str "f") [CUInt 1] (str "S2")
     = Ok (ROk true (str "0x03")).
Proof. vm_compute. repeat split. Qed.
