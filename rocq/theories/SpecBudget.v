(** Specification of programs that pay as long as their budget lasts. *)

From Verif Require Import Base Builder Rpc Session SpecWire SpecPay SpecSecret.
Local Open Scope N_scope.

(** One program after another. *)
Fixpoint after {A B} (p : program A) (f : A -> program B) : program B := match p with
  | Return a => f a
  | Address i v k => Address i v (fun x => after (k x) f)
  | PublicKey i k => PublicKey i (fun x => after (k x) f)
  | BuildTransfer i d k => BuildTransfer i d (fun x => after (k x) f)
  | BuildCall i d k => BuildCall i d (fun x => after (k x) f)
  | NextSignature i h typ fee nonce k => NextSignature i h typ fee nonce (fun x => after (k x) f)
  | SignTx i t k => SignTx i t (fun x => after (k x) f)
  | OriginSigns i g k => OriginSigns i g (fun x => after (k x) f)
  | SponsorSigns i g k => SponsorSigns i g (fun x => after (k x) f)
  | NewSponsor t c k => NewSponsor t c (fun x => after (k x) f)
  | Verify a h k => Verify a h (fun x => after (k x) f)
  | VerifyOrigin t k => VerifyOrigin t (fun x => after (k x) f)
  | Ask url c k => Ask url c (fun x => after (k x) f)
  end.

(** What a payer means to pay and where it sends it: the next draft may depend on all answers so far. *)
Inductive plans := Done | Pay (url : bytes) (d : stx_transfer) (next : list rpc_answer -> plans).

(** No course of answers makes them exceed [b]. *)
Fixpoint within (b : N) (q : plans) : Prop := match q with
  | Done => True
  | Pay _ d next => (exists to, sound_draft d to) /\ st_amount d + st_fee d <= b /\ forall x, within (b - (st_amount d + st_fee d)) (next x)
  end.

(** The payer: each draft is paid with [pay], and what that has heard decides about the next. *)
Fixpoint payer (pay : bytes -> stx_transfer -> program (list rpc_answer)) (q : plans) : program unit := match q with
  | Done => Return tt
  | Pay url d next => after (pay url d) (fun x => payer pay (next x))
  end.
