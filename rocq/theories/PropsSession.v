(** C98: what a node sees of the calls made on clients. *)

From Coq Require Import Strings.String.
From Verif Require Import Base BaseFacts SpecText Clarity SpecWire Tx SpecTx Builder SpecSign Rpc SpecClient Session SpecSession SessionThms
  PropsClarity PropsTx PropsSign PropsClient.
Local Open Scope N_scope.

(** ** C98 *)

(** Whatever node and state: the calls send one request each, the documented one, in order; calls with values that do not fit send none. *)
Theorem C98_session : forall S (net : node S) l s, session net s l (fst (make_calls net l s)) (snd (make_calls net l s)).
Proof. intros S net l s. apply run_session. Qed.
Print Assumptions C98_session.
Theorem C98_one_course : forall S (net : node S) l s s' r, session net s l s' r -> s' = fst (make_calls net l s).
Proof. intros S net l s s' r H. exact (session_state net s l s' r H _ _ (run_session net l s)). Qed.
Print Assumptions C98_one_course.

(** So a node that keeps a log finds in it exactly the documented requests, whatever it answers. *)
Theorem C98_log : forall S (net : node S) l qs s log, Forall2 (fun x q => asks (fst x) (snd x) q) l qs ->
  snd (fst (make_calls (logged net) l (s, log))) = log ++ flat_map asked qs
  /\ fst (fst (make_calls (logged net) l (s, log))) = fst (make_calls net l s)
  /\ snd (make_calls (logged net) l (s, log)) = snd (make_calls net l s).
Proof.
  intros S net l qs s log A. destruct (logged_calls net l qs A s log) as [E R]. rewrite E. repeat split. exact R.
Qed.
Print Assumptions C98_log.
Theorem C98_documented : forall url c, (exists q, asks url c q) /\ forall q q', asks url c q -> asks url c q' -> q = q'.
Proof. intros url c. split; [apply asks_total | apply asks_fun]. Qed.
Print Assumptions C98_documented.

(** The results are those of C51. *)
Theorem C98_results : forall S (net : node S) url s,
  (snd (info_in net url s) = info (fun q => snd (net s q)) url)
  /\ (forall a, snd (address_in net url a s) = address_info_of (fun q => snd (net s q)) url a)
  /\ (forall t, snd (estimate_in net url t s) = estimate_fee (fun q => snd (net s q)) url t)
  /\ (forall t, snd (broadcast_in net url t s) = broadcast (fun q => snd (net s q)) url t)
  /\ (forall a n f args w, snd (read_only_in net url a n f args w s) = read_only (fun q => snd (net s q)) url a n f args w).
Proof. intros S net url s. apply call_results. Qed.
Print Assumptions C98_results.

(** A node's pool holds, in order and once for each call, the transactions whose broadcast returned an id, none of those refused,
    and perhaps those whose broadcast broke off. *)
Theorem C98_pool : forall S (net : node S) pool l s, pooling net pool ->
  exists b, pool (fst (make_calls net l s)) = pool s ++ b /\ settled_by l (snd (make_calls net l s)) b.
Proof. intros S net pool l s P. exact (session_pool net pool P _ _ _ _ (run_session net l s)). Qed.
Print Assumptions C98_pool.

(** Users expect an error from [broadcast] to mean that the transaction was not taken. It does not. *)
Definition deaf : node (list bytes) := fun s q =>
  match rq_body q with BBytes b => (s ++ [b], OTransport) | _ => (s, OTransport) end.
Definition mute : node (list bytes) := fun s q =>
  match rq_body q with BBytes b => (s ++ [b], OOk {| rs_text := None; rs_json := None |}) | _ => (s, OTransport) end.
Theorem C98_error_refuted : forall t w url, tx_means t w -> fits_tx w ->
  (pooling deaf (fun s => s) /\ broadcast_in deaf url t [] = ([ser_tx w], Err (RUreq None)))
  /\ (pooling mute (fun s => s) /\ broadcast_in mute url t [] = ([ser_tx w], Err RIo)).
Proof.
  intros t w url M F. unfold broadcast_in, exchange. rewrite (broadcast_request_ok url t w M F). repeat split.
  - intros s q. unfold deaf. destruct (rq_body q); cbn [fst snd]; auto.
  - intros s q. unfold mute. destruct (rq_body q); reflexivity.
Qed.
Print Assumptions C98_error_refuted.

(** A node that takes small transactions. *)
Definition small_node : node (list bytes) := fun s q =>
  match rq_body q, ex_http q with BBytes b, OOk r => (s ++ [b], OOk r) | _, o => (s, o) end.
Lemma small_pooling : pooling small_node (fun s => s).
Proof. intros s q. unfold small_node. destruct (rq_body q); cbn [fst snd]; try reflexivity. destruct (ex_http q); cbn [fst snd]; auto. Qed.
(** A memo of 40 bytes does not fit. *)
Definition unfit_tx : tx :=
  unsigned NetMocknet pk1 180 7 AnAny PcDeny [] (PTransfer (CPrinStd sample_addr) 1 (repeat x61 40)).
Example C98_ex : pooling small_node (fun s => s)
  /\ let run := make_calls small_node [(str "http://n", CallBroadcast ex_unsigned); (str "http://m", CallInfo);
                                       (str "http://n", CallBroadcast ex_tx); (str "http://n", CallBroadcast unfit_tx)] [[x00]] in
     map (fun x => match x with AnsBroadcast (Ok (BcOk _)) => 1 | AnsBroadcast (Ok (BcErr _)) => 2
                    | AnsBroadcast (Err (RClarity _)) => 3 | AnsInfo (Err (RUreq None)) => 4 | _ => 5 end) (snd run) = [1; 4; 2; 3]
     /\ exists e, fst run = [[x00]; e].
Proof. split; [exact small_pooling|]. vm_compute. split; [reflexivity|]. eexists. reflexivity. Qed.
