(** Specification of whole errands: from an account to the bytes a node receives, and from a node's answer to a value.
    Built from the wire formats of SpecWire.v and SpecTx.v; no reference to the model's code. *)

From Coq Require Import Strings.String.
From Verif Require Import Base Sha2 SpecText SpecAddr C32 Clarity SpecWire Tx SpecTx SpecSign Builder.
Local Open Scope N_scope.

(** The bytes of a transaction with one P2PKH signature, for a network. *)
Definition signed_wire (n : network) (key_hash : bytes) (fee nonce : N) (anchor : anchor_mode) (mode : pc_mode) (conds : list wcond)
  (p : wpayload) (sig : bytes) : wtx :=
  {| w_version := match n with NetMainnet => x00 | _ => x80 end;
     w_chain := match n with NetMainnet => 1 | _ => 2147483648 end;
     w_auth := WaStandard (WsSingle x00 key_hash nonce fee sig);
     w_anchor := anchor_code anchor; w_pcmode := pcmode_code mode; w_conds := conds; w_payload := p |}.

(** Post-conditions that mean something and fit the wire. *)
Definition conds_wire (l : list condition) (ws : list wcond) : Prop :=
  Forall2 cond_means l ws /\ count ws < 2 ^ 32 /\ Forall wf_cond ws.

(** How a node writes a Clarity value and a transaction id in its answers. *)
Definition value_answer (w : wval) : bytes := str "0x"%string ++ hex_text (wser w).
Definition txid_answer (w : wtx) : bytes := x22 :: hex_text (sha512_256 (ser_tx w)) ++ [x22].
