(** Lemmas behind the theorems about runs of calls. *)

From Coq Require Import Strings.String.
From Verif Require Import Base BaseFacts Hex HexFacts SpecText Clarity SpecWire WireFacts ClarityFacts Tx SpecTx TxTotal TxFacts
  Rpc SpecClient ClientThms Session SpecSession.
Local Open Scope N_scope.

Lemma some_inj {A} (x y : A) : Some x = Some y -> x = y. Proof. congruence. Qed.

(** ** Requests *)

Lemma broadcast_request_ok url t w : tx_means t w -> fits_tx w ->
  broadcast_request url t = Ok (post_bytes (url ++ str "/v2/transactions"%string) (ser_tx w)).
Proof.
  intros M F. unfold broadcast_request.
  rewrite (proj2 (tx_iff t (ser_tx w)) (ex_intro _ w (conj M (conj F eq_refl)))). reflexivity.
Qed.
Lemma estimate_request_ok url t w : tx_means t w -> fits_tx w ->
  estimate_request url t = Ok (post_json (url ++ str "/v2/fees/transaction"%string) (fee_question w)).
Proof.
  intros M F. unfold estimate_request.
  rewrite (proj2 (payload_iff (tx_payload t) (ser_payload (w_payload w)))).
  2:{ exists (w_payload w). repeat split; [apply M | apply F]. }
  rewrite (proj2 (tx_iff t (ser_tx w)) (ex_intro _ w (conj M (conj F eq_refl)))). cbn [map_err bind].
  rewrite bytes_to_hex_text. reflexivity.
Qed.
Lemma read_only_request_ok url a n f args sender ws : Forall2 means args ws -> Forall (wall fits1) ws ->
  read_only_request url a n f args sender
  = Ok (post_json (url ++ str "/v2/contracts/call-read/"%string ++ a ++ str "/"%string ++ n ++ str "/"%string ++ f) (call_question sender ws)).
Proof.
  intros M F. unfold read_only_request. rewrite (hex_args_ok args ws M F). cbn [map_err bind]. rewrite map_map. reflexivity.
Qed.

Lemma broadcast_request_none url t : (forall w, tx_means t w -> ~ fits_tx w) -> exists e, broadcast_request url t = Err (RClarity e).
Proof. intros N. destruct (not_encodable t N) as [e H]. exists e. unfold broadcast_request. rewrite H. reflexivity. Qed.
Lemma estimate_request_none url t : (forall w, tx_means t w -> ~ fits_tx w) -> exists e, estimate_request url t = Err (RClarity e).
Proof.
  intros N. destruct (not_encodable t N) as [e H]. unfold estimate_request.
  destruct (enc_payload_settled (tx_payload t)) as [[p P]|[p P]]; rewrite P; cbn [map_err bind]; [exists e; rewrite H | exists p]; reflexivity.
Qed.
Lemma read_only_request_none url a n f args sender : (forall ws, Forall2 means args ws -> ~ Forall (wall fits1) ws) ->
  exists e, read_only_request url a n f args sender = Err (RClarity e).
Proof.
  intros N. destruct (hex_args_settled args) as [[hs H]|[e H]].
  - apply hex_args_means in H. destruct H as (ws & M & F). destruct (N _ M F).
  - exists e. unfold read_only_request. rewrite H. reflexivity.
Qed.

Lemma fits_or_not t : (exists w, tx_means t w /\ fits_tx w) \/ (forall w, tx_means t w -> ~ fits_tx w).
Proof.
  destruct (enc_tx_settled t) as [[e H]|[e H]].
  - left. apply tx_iff in H. destruct H as (w & M & F & _). exists w. auto.
  - right. intros w M F. rewrite (proj2 (tx_iff t (ser_tx w)) (ex_intro _ w (conj M (conj F eq_refl)))) in H. discriminate.
Qed.
Lemma asks_total url c : exists q, asks url c q.
Proof.
  destruct c as [|a|t|t|a n f args sender]; cbn [asks]; eauto.
  - destruct (fits_or_not t) as [(w & M & F)|N]; eexists; [left; exists w | right]; eauto.
  - destruct (fits_or_not t) as [(w & M & F)|N]; eexists; [left; exists w | right]; eauto.
  - destruct (hex_args_settled args) as [[hs H]|[e H]].
    + apply hex_args_means in H. destruct H as (ws & M & F). eexists. left. exists ws. eauto.
    + eexists. right. split; [|reflexivity]. intros ws M F. rewrite (hex_args_ok args ws M F) in H. discriminate.
Qed.

(** ** One call *)

Lemma call_sent {S} (net : node S) url c q s s1 o : asks url c (Some q) -> net s q = (s1, o) ->
  exists a, make_call net url c s = (s1, a) /\ answers c o a.
Proof.
  destruct c as [|a|t|t|a n f args sender]; cbn [asks make_call]; intros A N.
  - apply some_inj in A. subst q. eexists. unfold info_in, exchange.
    change (info_request url) with (get (url ++ str "/v2/info"%string)). rewrite N. split; [reflexivity|].
    exact (info_result (fun _ => o) url).
  - apply some_inj in A. subst q. eexists. unfold address_in, exchange.
    change (address_request url a) with (get (url ++ str "/v2/accounts/"%string ++ a)). rewrite N. split; [reflexivity|].
    exact (address_result (fun _ => o) url a).
  - destruct A as [(w & M & F & Q)|[_ Q]]; [|discriminate]. apply some_inj in Q. subst q. eexists. unfold estimate_in, exchange.
    pose proof (estimate_asks (fun _ => o) url t w M F) as R. unfold estimate_fee in R.
    rewrite (estimate_request_ok url t w M F) in *. rewrite N. split; [reflexivity|]. exact R.
  - destruct A as [(w & M & F & Q)|[_ Q]]; [|discriminate]. apply some_inj in Q. subst q. eexists. unfold broadcast_in, exchange.
    pose proof (broadcast_sends (fun _ => o) url t w M F) as R. unfold broadcast in R.
    rewrite (broadcast_request_ok url t w M F) in *. rewrite N. split; [reflexivity|]. exact R.
  - destruct A as [(ws & M & F & Q)|[_ Q]]; [|discriminate]. apply some_inj in Q. subst q. eexists. unfold read_only_in, exchange.
    pose proof (read_only_asks (fun _ => o) url a n f args sender ws M F) as R. unfold read_only in R.
    rewrite (read_only_request_ok url a n f args sender ws M F) in *. rewrite N. split; [reflexivity|]. exact R.
Qed.
Lemma call_kept {S} (net : node S) url c s : asks url c None -> exists a, make_call net url c s = (s, a) /\ refuses c a.
Proof.
  destruct c as [|a|t|t|a n f args sender]; cbn [asks make_call]; intros A; [discriminate | discriminate|..];
    destruct A as [(w & _ & _ & Q)|[N _]]; try discriminate.
  - destruct (estimate_request_none url t N) as [e E]. eexists. unfold estimate_in, exchange. rewrite E. split; [reflexivity|]. cbn. eauto.
  - destruct (broadcast_request_none url t N) as [e E]. eexists. unfold broadcast_in, exchange. rewrite E. split; [reflexivity|]. cbn. eauto.
  - destruct (read_only_request_none url a n f args sender N) as [e E]. eexists. unfold read_only_in, exchange. rewrite E.
    split; [reflexivity|]. cbn. eauto.
Qed.

(** The results are those of the functions without effects. *)
Lemma call_results {S} (net : node S) url s :
  (snd (info_in net url s) = info (fun q => snd (net s q)) url)
  /\ (forall a, snd (address_in net url a s) = address_info_of (fun q => snd (net s q)) url a)
  /\ (forall t, snd (estimate_in net url t s) = estimate_fee (fun q => snd (net s q)) url t)
  /\ (forall t, snd (broadcast_in net url t s) = broadcast (fun q => snd (net s q)) url t)
  /\ (forall a n f args w, snd (read_only_in net url a n f args w s) = read_only (fun q => snd (net s q)) url a n f args w).
Proof.
  unfold info_in, address_in, estimate_in, broadcast_in, read_only_in, exchange, info, address_info_of, call, estimate_fee, broadcast, read_only.
  repeat split; intros.
  - destruct (net s (info_request url)); reflexivity.
  - destruct (net s (address_request url a)); reflexivity.
  - destruct (estimate_request url t) as [q| | |]; cbn [bind]; [destruct (net s q) |..]; reflexivity.
  - destruct (broadcast_request url t) as [q| | |]; cbn [bind]; [destruct (net s q) |..]; reflexivity.
  - destruct (read_only_request url a n f args w) as [q| | |]; cbn [bind]; [destruct (net s q) |..]; reflexivity.
Qed.

(** ** Runs *)

Lemma run_session {S} (net : node S) l : forall s, session net s l (fst (make_calls net l s)) (snd (make_calls net l s)).
Proof.
  induction l as [|[url c] l IH]; intros s; cbn [make_calls]; [constructor|].
  destruct (asks_total url c) as [[q|] A].
  - destruct (net s q) as [s1 o] eqn:N. destruct (call_sent net url c q s s1 o A N) as (a & -> & R).
    specialize (IH s1). destruct (make_calls net l s1) as [s2 r]. eapply session_sent; eauto.
  - destruct (call_kept net url c s A) as (a & -> & R). specialize (IH s). destruct (make_calls net l s) as [s2 r].
    eapply session_kept; eauto.
Qed.

Lemma asks_fun url c q q' : asks url c q -> asks url c q' -> q = q'.
Proof.
  destruct c as [|a|t|t|a n f args sender]; cbn [asks]; intros A B; try congruence;
    destruct A as [(w & M & F & ->)|[N ->]], B as [(v & M' & F' & ->)|[N' ->]]; try reflexivity.
  all: try (now destruct (N _ M' F')); try (now destruct (N' _ M F)); f_equal.
  - pose proof (estimate_request_ok url t w M F) as X. rewrite (estimate_request_ok url t v M' F') in X. congruence.
  - pose proof (broadcast_request_ok url t w M F) as X. rewrite (broadcast_request_ok url t v M' F') in X. congruence.
  - pose proof (read_only_request_ok url a n f args sender w M F) as X. rewrite (read_only_request_ok url a n f args sender v M' F') in X. congruence.
Qed.
Lemma session_state {S} (net : node S) s l s1 r1 : session net s l s1 r1 -> forall s2 r2, session net s l s2 r2 -> s1 = s2.
Proof.
  induction 1 as [s|s url c q s1 o a l s2 r A N R _ IH|s url c a l s2 r A R _ IH]; intros s3 r3 H3; inversion H3; subst.
  - reflexivity.
  - match goal with B : asks url c (Some _) |- _ => pose proof (asks_fun _ _ _ _ A B) as E end. injection E as <-.
    match goal with M : net s q = _ |- _ => rewrite N in M; injection M as <- <- end. eapply IH; eassumption.
  - match goal with B : asks url c None |- _ => pose proof (asks_fun _ _ _ _ A B) as E end. discriminate.
  - match goal with B : asks url c (Some _) |- _ => pose proof (asks_fun _ _ _ _ A B) as E end. discriminate.
  - eapply IH; eassumption.
Qed.

Lemma logged_calls {S} (net : node S) l : forall qs, Forall2 (fun x q => asks (fst x) (snd x) q) l qs -> forall s log,
  fst (make_calls (logged net) l (s, log)) = (fst (make_calls net l s), log ++ flat_map asked qs)
  /\ snd (make_calls (logged net) l (s, log)) = snd (make_calls net l s).
Proof.
  induction l as [|[url c] l IH]; intros qs A s log; inversion A as [|x q l' qs' A1 A2]; subst; cbn [make_calls flat_map].
  - rewrite app_nil_r. auto.
  - cbn [fst snd] in A1. destruct q as [q|]; cbn [asked].
    + destruct (net s q) as [s1 o] eqn:N.
      assert (N' : logged net (s, log) q = ((s1, log ++ [q]), o)) by (unfold logged; cbn [fst snd]; rewrite N; reflexivity).
      assert (X : make_call (logged net) url c (s, log) = ((s1, log ++ [q]), snd (make_call net url c s))
                  /\ fst (make_call net url c s) = s1).
      { destruct c as [|a|t|t|a n f args sender]; cbn [asks make_call] in *.
        - apply some_inj in A1. subst q. unfold info_in, exchange. change (info_request url) with (get (url ++ str "/v2/info"%string)).
          rewrite N, N'. split; reflexivity.
        - apply some_inj in A1. subst q. unfold address_in, exchange. change (address_request url a) with (get (url ++ str "/v2/accounts/"%string ++ a)).
          rewrite N, N'. split; reflexivity.
        - destruct A1 as [(w & M & F & Q)|[_ Q]]; [|discriminate]. apply some_inj in Q. subst q. unfold estimate_in, exchange.
          rewrite (estimate_request_ok url t w M F), N, N'. split; reflexivity.
        - destruct A1 as [(w & M & F & Q)|[_ Q]]; [|discriminate]. apply some_inj in Q. subst q. unfold broadcast_in, exchange.
          rewrite (broadcast_request_ok url t w M F), N, N'. split; reflexivity.
        - destruct A1 as [(w & M & F & Q)|[_ Q]]; [|discriminate]. apply some_inj in Q. subst q. unfold read_only_in, exchange.
          rewrite (read_only_request_ok url a n f args sender w M F), N, N'. split; reflexivity. }
      destruct X as [-> X]. destruct (make_call net url c s) as [s1' a]. cbn [fst snd] in X |- *. subst s1'.
      destruct (IH qs' A2 s1 (log ++ [q])) as [I J].
      destruct (make_calls (logged net) l (s1, log ++ [q])) as [x r]. destruct (make_calls net l s1) as [s2 r2]. cbn [fst snd] in *.
      subst. rewrite <- app_assoc. auto.
    + assert (X : make_call (logged net) url c (s, log) = ((s, log), snd (make_call net url c s)) /\ fst (make_call net url c s) = s).
      { destruct c as [|a|t|t|a n f args sender]; cbn [asks make_call] in *; [discriminate | discriminate|..];
          destruct A1 as [(w & _ & _ & Q)|[Nf _]]; try discriminate.
        - destruct (estimate_request_none url t Nf) as [e E]. unfold estimate_in, exchange. rewrite E. split; reflexivity.
        - destruct (broadcast_request_none url t Nf) as [e E]. unfold broadcast_in, exchange. rewrite E. split; reflexivity.
        - destruct (read_only_request_none url a n f args sender Nf) as [e E]. unfold read_only_in, exchange. rewrite E. split; reflexivity. }
      destruct X as [-> X]. destruct (make_call net url c s) as [s1' a]. cbn [fst snd] in X |- *. subst s1'.
      destruct (IH qs' A2 s log) as [I J].
      destruct (make_calls (logged net) l (s, log)) as [x r]. destruct (make_calls net l s) as [s2 r2]. cbn [fst snd] in *. subst. auto.
Qed.

(** ** The pool *)

Lemma session_pool {S} (net : node S) pool : pooling net pool -> forall s l s' r, session net s l s' r ->
  exists b, pool s' = pool s ++ b /\ settled_by l r b.
Proof.
  intros P s l s' r H. induction H as [s|s url c q s1 o a l s2 r A N R _ (b & E & B)|s url c a l s2 r A R _ (b & E & B)].
  - exists []. rewrite app_nil_r. split; [reflexivity | constructor].
  - specialize (P s q). rewrite N in P. cbn [fst snd] in P.
    destruct c as [|x|t|t|x n f args sender]; cbn [asks] in A.
    1-3, 5: exists b; split; [|constructor; [discriminate | exact B]]; rewrite E; f_equal.
    + apply some_inj in A. subst q. exact P.
    + apply some_inj in A. subst q. exact P.
    + destruct A as [(w & _ & _ & Q)|[_ Q]]; [|discriminate]. apply some_inj in Q. subst q. exact P.
    + destruct A as [(w & _ & _ & Q)|[_ Q]]; [|discriminate]. apply some_inj in Q. subst q. exact P.
    + destruct A as [(w & M & F & Q)|[_ Q]]; [|discriminate]. apply some_inj in Q. subst q. cbn [post_bytes rq_body] in P.
      destruct a as [ | | |out| ]; cbn [answers] in R; try contradiction.
      destruct o as [rs|code rs|]; cbn [broadcast_result] in R.
      * exists (ser_tx w :: b). rewrite E, P, <- app_assoc. split; [reflexivity|]. unfold read_text in R.
        destruct (rs_text rs); subst out; [econstructor; eauto|]. eapply settled_lost_taken; eauto.
      * exists b. rewrite E, P. split; [reflexivity|]. destruct R as [(j & e & _ & _ & ->)|[_ ->]]; [econstructor; eauto|].
        eapply settled_lost; eauto.
      * subst out. destruct P as [P|P]; [exists (ser_tx w :: b) | exists b]; rewrite E, P; [rewrite <- app_assoc|]; (split; [reflexivity|]).
        -- eapply settled_lost_taken; eauto.
        -- eapply settled_lost; eauto.
  - exists b. split; [exact E|]. destruct c as [|x|t|t|x n f args sender]; try (constructor; [discriminate | exact B]).
    destruct a as [ | | |out| ]; cbn [refuses] in R; try contradiction. destruct R as [e ->]. apply settled_unfit; [|exact B].
    cbn [asks] in A. destruct A as [(w & _ & _ & Q)|[Nf _]]; [discriminate | exact Nf].
Qed.
