(** The wallet tests of /repo/stacks/src/wallet.rs:139-189, replayed.

    These are tests of the model, not theorems.  The [Check] makes the build fail unless the VM
    evaluates the boolean to [true]; no proof term is kept, because the independent checker has no VM. *)

From Coq Require Import Strings.String.
From Verif Require Import Base Sha2 Hash C32 Words Mnemonic Wallet Secp Hd.
Local Open Scope string_scope.
Local Open Scope N_scope.

Definition test_phrase : bytes :=
  str "sound idle panel often situate develop unit text design antenna vendor screen opinion balcony share trigger accuse scatter visa uniform brass update opinion media".

Definition addresses (w : wallet bip_hd) (i : N) : wallet bip_hd * list (res (wallet_err bip_hd) bytes) :=
  let '(w', r) := get_account w i in
  (w', map (fun v => let* a := r in get_address a v)
           [MainnetP2PKH; MainnetP2SH; TestnetP2PKH; TestnetP2SH]).

Definition same (r : res (wallet_err bip_hd) bytes) (s : string) : bool :=
  match r with Ok a => bytes_eqb a (str s) | _ => false end.

(** Both tests on one wallet (the second lookup runs after the first). *)
Definition vec_wallet (phrase : bytes) : bool :=
  match from_secret_key phrase : res (wallet_err bip_hd) (wallet bip_hd) with
  | Ok w =>
    let '(w1, a0) := addresses w 0 in
    let '(_, a1) := addresses w1 1 in
    forallb (fun p => same (fst p) (snd p))
      (combine a0 ["SP384CVPNDTYA0E92TKJZQTYXQHNZSWGCAG7SAPVB"; "SM384CVPNDTYA0E92TKJZQTYXQHNZSWGCAGRD22C9";
                   "ST384CVPNDTYA0E92TKJZQTYXQHNZSWGCAH0ER64E"; "SN384CVPNDTYA0E92TKJZQTYXQHNZSWGCAKNRHMGW"])
    && forallb (fun p => same (fst p) (snd p))
      (combine a1 ["SP23K7K2V45JFZVBMQBE8R0PP8SQG7HZF9473KBD"; "SM23K7K2V45JFZVBMQBE8R0PP8SQG7HZFB7DZ2RK";
                   "ST23K7K2V45JFZVBMQBE8R0PP8SQG7HZFA6Z68VE"; "SN23K7K2V45JFZVBMQBE8R0PP8SQG7HZFAFNYMDJ"])
  | _ => false
  end.
Check (eq_refl true <: vec_wallet test_phrase = true).

(** The word list is the published one: digest of english.txt (one word a line).  The first and last sentences of the test
    vectors of BIP-39, for 12 and 24 words. *)
Check (eq_refl true <: bytes_eqb (sha256 (concat (map (fun w => w ++ [x0a])%list english)))
  [x2f; x5e; xed; x53; xa4; x72; x7b; x4b; xf8; x88; x0d; x8f; x3f; x19; x9e; xfc;
   x90; xe5; x85; x03; x64; x6d; x9f; xf8; xef; xf3; xa2; xed; x3b; x24; xdb; xda] = true).
Fixpoint list_eqb (a b : list N) : bool :=
  match a, b with
  | [], [] => true
  | x :: r, y :: q => (x =? y) && list_eqb r q
  | _, _ => false
  end.
Definition parses (words : list bytes) (numbers : list N) : bool :=
  match parse_phrase (spaced words) with inr ns => list_eqb ns numbers | inl _ => false end.
Check (eq_refl true <: parses (repeat (str "abandon") 11 ++ [str "about"])%list (repeat 0 11 ++ [3])%list = true).
Check (eq_refl true <: parses (repeat (str "zoo") 11 ++ [str "wrong"])%list (repeat 2047 11 ++ [2037])%list = true).
Check (eq_refl true <: parses (repeat (str "abandon") 23 ++ [str "art"])%list (repeat 0 23 ++ [102])%list = true).
Check (eq_refl true <: parses (repeat (str "zoo") 23 ++ [str "vote"])%list (repeat 2047 23 ++ [1967])%list = true).
