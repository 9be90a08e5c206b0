(** Specification of what post-conditions do when a transaction runs (SIP-005, "Transaction post-conditions"), on the
    wire format and on the library's own conditions.  What moves while a transaction runs is a list of movements, each out
    of one account.  The library does not appear in the first part. *)

From Verif Require Import Base SpecText SpecAddr Clarity SpecWire Tx SpecTx.
Local Open Scope N_scope.

Definition wval_dec : forall a b : wval, {a = b} + {a <> b}.
Proof.
  pose proof (list_eq_dec Byte.byte_eq_dec) as Bs. pose proof Byte.byte_eq_dec as B.
  fix IH 1. intros a b. decide equality; try apply Bs; try apply B.
  - apply Z.eq_dec.
  - apply N.eq_dec.
  - apply (list_eq_dec IH).
  - apply list_eq_dec. intros [k v] [k' v']. destruct (Bs k k') as [->|N]; [|right; congruence].
    destruct (IH v v') as [->|N]; [left; reflexivity | right; congruence].
  - apply (list_eq_dec IH).
Defined.

Definition wasset_dec (a b : wasset) : {a = b} + {a <> b}.
Proof. decide equality; (apply (list_eq_dec Byte.byte_eq_dec) || apply Byte.byte_eq_dec). Defined.

(** ** On the wire *)

(** Micro-STX, units of a fungible token, or one named token leave an account. *)
Inductive movement :=
| MStx (who : wval) (amount : N)
| MFt (who : wval) (asset : wasset) (amount : N)
| MNft (who : wval) (asset : wasset) (token : wval).

Definition source (m : movement) : wval := match m with MStx w _ | MFt w _ _ | MNft w _ _ => w end.

(** All that leaves an account, whatever comes back. *)
Fixpoint stx_sent (who : wval) (ms : list movement) : N :=
  match ms with
  | [] => 0
  | MStx w n :: r => (if wval_dec w who then n else 0) + stx_sent who r
  | _ :: r => stx_sent who r
  end.
Fixpoint ft_sent (who : wval) (a : wasset) (ms : list movement) : N :=
  match ms with
  | [] => 0
  | MFt w b n :: r => (if wval_dec w who then if wasset_dec b a then n else 0 else 0) + ft_sent who a r
  | _ :: r => ft_sent who a r
  end.

(** Codes 1 to 5 compare the amount sent with the stated one; 16 says the token is sent, 17 that it is not. *)
Definition amount_code (code : byte) (sent stated : N) : Prop :=
  code = x01 /\ sent = stated \/ code = x02 /\ stated < sent \/ code = x03 /\ stated <= sent
  \/ code = x04 /\ sent < stated \/ code = x05 /\ sent <= stated.
Definition token_code (code : byte) (sent : Prop) : Prop := code = x10 /\ sent \/ code = x11 /\ ~ sent.

Definition holds (ms : list movement) (c : wcond) : Prop :=
  match c with
  | WcSTX who code amount => amount_code code (stx_sent who ms) amount
  | WcFT who a code amount => amount_code code (ft_sent who a ms) amount
  | WcNFT who a token code => token_code code (In (MNft who a token) ms)
  end.

Definition covers (m : movement) (c : wcond) : Prop :=
  match c, m with
  | WcSTX who _ _, MStx who' _ => who = who'
  | WcFT who a _ _, MFt who' a' _ => who = who' /\ a = a'
  | WcNFT who a token _, MNft who' a' token' => who = who' /\ a = a' /\ token = token'
  | _, _ => False
  end.

(** A run of a call stands iff each condition holds and, in mode 2, each movement is covered by a condition.  A token
    transfer carries no conditions, and its mode does not matter. *)
Definition run_stands (w : wtx) (ms : list movement) : Prop :=
  match w_payload w with
  | WpTransfer _ _ _ => w_conds w = []
  | WpCall _ _ _ _ _ => Forall (holds ms) (w_conds w)
                        /\ (w_pcmode w = x02 -> Forall (fun m => Exists (covers m) (w_conds w)) ms)
  end.

(** A node that is sent these bytes lets a run with these movements stand. *)
Definition node_stands (b : bytes) (ms : list movement) : Prop := exists w, b = ser_tx w /\ wf_tx w /\ run_stands w ms.

(** ** By the names the library gives *)

(** [EQ], [GT], [GTE], [LT], [LTE] compare amounts; [HasNot] and [Has] say whether the account still has the token. *)
Definition amount_named (k : cond_code) (sent stated : N) : Prop :=
  match k with
  | CcEQ => sent = stated | CcGT => sent > stated | CcGTE => sent >= stated | CcLT => sent < stated | CcLTE => sent <= stated
  | CcHas | CcHasNot => False
  end.
Definition token_named (k : cond_code) (sent : Prop) : Prop :=
  match k with CcHasNot => sent | CcHas => ~ sent | _ => False end.

Definition promised (ms : list movement) (c : condition) : Prop :=
  match c with
  | CondSTX addr amount k => exists who, means addr who /\ amount_named k (stx_sent who ms) amount
  | CondFT addr amount k i => exists who a, means addr who /\ asset_means i a /\ amount_named k (ft_sent who a ms) amount
  | CondNFT addr token k i =>
    exists who a t, means addr who /\ asset_means i a /\ means token t /\ token_named k (In (MNft who a t) ms)
  end.

Definition about (m : movement) (c : condition) : Prop :=
  match c, m with
  | CondSTX addr _ _, MStx who _ => means addr who
  | CondFT addr _ _ i, MFt who a _ => means addr who /\ asset_means i a
  | CondNFT addr token _ i, MNft who a t => means addr who /\ asset_means i a /\ means token t
  | _, _ => False
  end.

Definition is_call (p : payload) : Prop := match p with PCall _ _ _ _ => True | PTransfer _ _ _ => False end.

(** What someone who wrote the transaction with the library expects of its runs. *)
Definition expected (t : tx) (ms : list movement) : Prop :=
  (is_call (tx_payload t) -> Forall (promised ms) (tx_conds t)
     /\ (tx_pcmode t = PcDeny -> Forall (fun m => Exists (about m) (tx_conds t)) ms))
  /\ (~ is_call (tx_payload t) -> tx_conds t = []).

(** The same transaction with other conditions and another mode. *)
Definition with_conds (t : tx) (m : pc_mode) (l : list condition) : tx :=
  {| tx_ver := tx_ver t; tx_chain := tx_chain t; tx_auth := tx_auth t; tx_anchor := tx_anchor t; tx_pcmode := m;
     tx_conds := l; tx_payload := tx_payload t |}.
