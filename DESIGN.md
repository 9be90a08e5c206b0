# Formal model of 52/stacks.rs in Rocq: design

Source: `/repo` (read as text, never built). Model and proofs: `/verif/rocq/theories`, Coq 8.16.1,
standard library only.

## 1. Trusted base

* Coq's kernel (with its VM, used by `vm_compute` on closed terms in examples and vectors).
* The axioms printed by the `Print Assumptions` line under every theorem: none (section 5).
* The reading of the Rust source recorded in the comment above each definition, which cites file and lines.
* Modelling conventions:
  * a `u8` is Coq's `Byte.byte` (256 constructors); `Vec<u8>`/`&[u8]` is `list byte`; `String`/`&str`
    is the list of its UTF-8 bytes; "is a Rust string" is the predicate `utf8_valid`, which is a
    hypothesis only where it matters;
  * wider integers are `N`/`Z`, with the range written out (`u32`, `u64`, `u128`, `i128`) wherever the
    Rust type is what bounds the value; lengths (`usize`) are taken to be 64 bits wide and memory to suffice for what is held,
    so a length never overflows;
  * a `Result<T,E>` returned by code which may panic is `res E T := Ok | Err | Panic | NoFuel`.
    `Panic` covers out-of-bounds indexing/slicing, `unwrap` on `None`/`Err`, `unimplemented!`, `assert!`
    and arithmetic overflow. The repository sets no `overflow-checks` profile, so overflow panics in
    debug/test builds and wraps in release builds; the model takes the debug reading, the theorems about
    overflow (C52, C54) say so, and `Release.v` has the release reading of every function where this matters (C86);
  * `NoFuel` is the out-of-fuel result of the recursive decoder; it is proved unreachable (C19).
* SHA-256, SHA-512/256 (crate `ring`) and RIPEMD-160 (crate `ripemd`) are implemented concretely in
  Gallina and checked on published vectors. Proofs only use their output lengths. Collision resistance is
  never assumed: theorems conclude "... or these two strings collide", naming the two strings in terms of
  the theorem's own variables. ("There is a collision" alone would be trivially true.)
* secp256k1 is *not* axiomatised: functions that sign or recover take a record `ecdsa` of functions
  (`pubkey_of`, `sign_rec`, `recover`). Theorems which need something of the curve take it as an explicit
  hypothesis: `ecdsa_correct E` (SpecSign.v: valid keys have 33-byte public keys, sign valid messages with
  65-byte signatures, and recovery returns the signer's key) and, for C62 and C63, `binds_digest E`
  (SpecBind.v: one signature yields the same key for two digests only if these agree modulo the group
  order). Simple instances (`toy`, `shift`) serve in the examples.
* These hypotheses are proved of the published algorithms: `Secp.v` implements the curve, RFC 6979 signing with
  low s, and key recovery, and `EcSign.v` proves `ecdsa_correct secp` and `binds_digest secp` (C77). What remains
  trusted is that the crate `secp256k1` computes these functions; `VectorsSign.v` replays the repository's own
  signed transactions. One liberty: libsecp256k1 tries nonces until one works, `Secp.v` tries 16 and then the
  nonces 1 and 2, which is proved to succeed.
* BIP-32/BIP-39 likewise: record `hd`, hypothesis `hd_correct`, instance `toy_hd`; `Hd.v` has the published
  functions, and `CurveThms.v` proves `hd_correct secp bip_hd` (C77). `VectorsWallet.v` replays the wallet tests
  and checks the digest of the word list. The crate `bip32` also refuses a child whose tweak is zero; `Hd.v` follows the
  standard, which allows it.
* Floating-point numbers: a finite `f64` is a sign and a multiple of 2^-1074. The operations are those of IEEE 754, which
  `F64Thms.v` proves against a definition of "closest, ties to even" (SpecF64.v). Trusted: that the processor rounds so, that
  `serde_json` is built without its feature `float_roundtrip` (the repository does not ask for it), and that `ryu` writes the
  shortest digits it promises. `F64Fast.v` proves that the same results come out of computing with smaller numbers; only examples
  are evaluated that way, so that checking them is quick.

## 2. What is modelled

| code | model file | not modelled / simplified |
|---|---|---|
| `crypto/hex.rs` | `Hex.v` | - |
| `crypto/b58.rs` | `B58.v` | - |
| `crypto/c32.rs` | `C32.v` | - |
| `crypto/hash.rs` | `Sha2.v`, `Ripemd.v`, `Hash.v` | secp256k1 internals: parameter, and `Secp.v` for the published algorithms |
| `clarity/mod.rs`, `impl.rs`, `macro.rs` | `Clarity.v`, `Utf8.v`, `Debug.v` (debug texts, equality by text), `Macro.v` (`clarity!`, `post_condition!`), `Cost.v` (work, nested calls, reserved memory) | user-defined `Clarity` impls only as the result of their `encode`, in `Own.v`; running out of stack or memory is only counted, in `Cost.v`; macro arguments of types that no arm accepts |
| `transaction/*.rs` | `Tx.v`, `Signer.v`, `Builder.v`, `Setters.v` (the setters `typed_builder` generates, by its documentation), `Release.v` (wrapping arithmetic), `Calls.v` (all calls of the interface and the unimplemented decoders), `Own.v` (user-defined `Clarity`, `Payload`, `Condition` and `Network` types in values, transactions, signer, builders and requests), `Kind.v` (user-defined `SpendingCondition` types in transactions, signer and requests) | user-defined types whose `encode` gives different results from call to call or that override `len` or `hex`; panics of a user-defined condition's `reset`, `fee`, `nonce`, `mode`, `req_signatures`, `set_fee`, `set_nonce`; the source of `typed_builder` |
| `wallet.rs` | `Wallet.v`, `Mnemonic.v`, `Hd.v` | BIP-39/BIP-32 arithmetic: parameter, and `Hd.v` for the published algorithms; phrases are read by `Mnemonic.v` over the published list `Words.v`, for ASCII text (the crate's Unicode normalisation is left out) |
| `rpc.rs` | `Rpc.v`, `Session.v` (the calls with their effect on a node), `Json.v` (JSON text written, derived `Serialize`), `JsonRead.v` (bodies received: `into_json`, `into_string`), `F64.v`, `F64Show.v` (fee rates: IEEE 754, reading and writing) | HTTP transport: a request is mapped to an outcome, or to a status and the bytes of a body, by an arbitrary function; numbers of 2^31 digits; the tables by which `ryu` finds the digits of a number (the digits themselves are modelled); a syntax tree is made first and the struct filled from it, while `serde_json` does both at once (what is skipped, and how deep nesting may be, are modelled) |
| derived `PartialEq`, `Ord` | `Order.v` (hashes, codes, modes, modifications, networks, conditions, responses, accounts, wallets), `Debug.v` (the rest) | comparisons of errors |
| error enums of all modules | `Messages.v` (their texts) | texts written by other crates (`#[error(transparent)]`) |
| `stacks_derive`, `derive.rs` | `Derive.v` (generated code), `Expand.v` (choice of code by the macro) | tokenisation and parsing by `syn`/`darling`: the macro's input is the parsed struct |

The vectors files `Vectors.v`, `VectorsSign.v` and `VectorsWallet.v` run the model on the expected outputs hard-coded in
the repository's own tests. They are checks of fidelity, not proofs of properties.

## 3. Specifications and proofs

Specifications live in `Spec*.v` and do not mention model helpers (only the model's data types):

* `SpecText.v`, `SpecAddr.v`: hexadecimal notation; positional numerals (big-endian value plus number of leading
  zeros) for c32 and base58; address texts.
* `SpecWire.v`: abstract syntax `wval` of SIP-005 wire values with literal constants, serializer `wser`, the
  relation `means` between values and wire values, and well-formedness. Unique readability (no encoding is a
  prefix of another's) is proved in `WireFacts.v`.
* `SpecUtf8.v`: octets and UTF-8 (RFC 3629).
* `SpecShow.v`: display texts. `SpecDebug.v`: values and conditions whose debug texts can be told apart.
* `SpecTx.v`: the same as SpecWire for payloads, post-conditions, authorizations, transactions.
* `SpecSign.v`: digests, signature chains, scripts, addresses, satisfied conditions, histories of operations, plans.
* `SpecRefuse.v`: one signing step as plain record updates.
* `SpecBind.v`: moved signatures, named coincidences of hashes, lengths.
* `SpecNode.v`: a node's layout, network and authorization checks on bytes, after SIP-005, without reference to the
  library's signing or verification code.
* `SpecFlow.v`: the transaction of a whole errand, and how nodes write values and ids in their answers.
* `SpecCharge.v`: the address a node charges, and what opens it.
* `SpecAdmit.v`: a node's rules for names, values, recipients and condition codes (SIP-002, SIP-005), on the wire.
* `SpecClient.v`: wallet histories, derived structs, requests and responses.
* `SpecMessages.v`: a text read as wording, numbers, byte lists and characters. `SpecMacro.v`: what a macro call builds.
* `SpecExpand.v`: the meaning of a field from its type as written.
* `SpecPhrase.v`: the words of a text, BIP-39 sentences as numbers in base 2048, the faults of a text that is none.
* `SpecTree.v`: HMAC, PBKDF2, BIP-39 seeds and BIP-32 derivation, private and public, as published.
* `SpecJson.v`: JSON text after RFC 8259, as a relation between bytes and values.
* `SpecF64.v`: doubles and the closest one to a fraction (IEEE 754), number texts, what `serde_json` makes of them, shortest
  digits.
* `SpecSetters.v`: what a chain of setters asks for.
* `SpecOwn.v`: bytes and failures of values and transactions with parts of the user's own, signing histories over them.
* `SpecKind.v`: which methods of a spending condition are called with what, and what a condition owes in return.
* `SpecSession.v`: the request each call is for, runs of calls against a node with a state, pools of transactions.
* `SpecStruct.v`: what the fields of a struct hold, said of the tuple on the wire.
* `SpecLedger.v`: balances and nonces, and what becomes of them when nodes take transactions (SIP-005); transfers of a key.
* `SpecPay.v`: a program that asks a node for an account's nonce, builds, signs and broadcasts a transfer; nodes that keep that ledger.
* `SpecInvoke.v`: the same for contract calls, and the limits a draft sets.
* `SpecEstimate.v`: the same for a transfer whose fee a node is asked for; one signature good for two fees.
* `SpecPending.v`: nodes that answer first and take transactions later; programs that count the nonces themselves.
* `SpecSecret.v`: programs that use the library with keys they cannot look into; worlds that differ only in the keys.
* `SpecLoss.v`: histories in which nobody forges the signatures of a key.
* `SpecErrand.v`: the same for keys that sign transfers and calls.
* `SpecFavour.v`: the same for keys that sign as sponsor only.
* `SpecBill.v`: the same for keys that sign any transactions as origin.
* `SpecRun.v`: what a run of a program asks its accounts' keys to sign, and worlds that agree on just that.
* `SpecBudget.v`: payers that decide by what they hear, and their budgets.
* `SpecNets.v`: which networks a transaction cannot tell apart; addresses of other networks.
* `SpecShare.v`: accounts of several owners on that ledger, and what it takes to act for them.
* `SpecOrder.v`: total orders, the order of a dictionary, numbers, the accounts a wallet holds.
* `SpecRelease.v`: what a release build may do differently from a debug build.
* `SpecPlace.v`: the places of a transaction where signatures stand and the digest at each.
* `SpecStop.v`: the calls that abort, one clause per reason.
* `SpecCond.v`: which runs of a transaction a node lets stand, by its post-conditions (SIP-005; that transfers carry no
  conditions is the rule of the reference node), and the same by the names of the library.
* `SpecBody.v`: the results of the client's methods in terms of the bytes of a body (RFC 8259, Unicode's substitution of
  maximal subparts).
* `SpecFault.v`: the first fault of an address text, value, transaction or byte string, with the error that names it.
* `SpecCurve.v`: ECDSA verification and key recovery after SEC 1, on affine points.

The curve is proved from the ground up in `Ec*.v`: Fermat and Pocklington (`EcNum.v`), the two primes by certificates
(`EcPrime.v`), the field (`EcField.v`), polynomials, the coordinate ring and its ideals (`EcPoly.v`, `EcRing.v`,
`EcIdeal.v`), associativity of the addition law by ideal classes (`EcGroup.v`), multiples (`EcMul.v`), the order of the base
point by a checked addition chain (`EcOrder.v`), Jacobian coordinates and square roots (`EcJac.v`), the ECDSA equations
(`EcEcdsa.v`), bytes (`EcSign.v`), every point is a multiple of the base point by counting cosets (`EcCount.v`),
recovery against SEC 1 (`EcRecover.v`).

Proofs: `*Facts.v`, `*Total.v`, `*Thms.v`, ... Property theorems: `PropsText.v` (C01-C13), `PropsClarity.v` (C14-C27, C55,
C56), `PropsTx.v` (C28-C35, C46), `PropsSign.v` (C36-C45, C47, C52-C54, C57-C59), `PropsClient.v` (C48-C51, C60),
`PropsExpand.v` (C61), `PropsBind.v` (C62, C63, C45), `PropsLength.v` (C64), `PropsNode.v` (C65, C54),
`PropsFlow.v` (C66, C67), `PropsAdmit.v` (C68), `PropsDebug.v` (C69), `PropsRefuse.v` (C70), `PropsUtf8.v` (C71),
`PropsNet.v` (C72, C73), `PropsCharge.v` (C74),
`PropsMessages.v` (C75), `PropsMacro.v` (C76), `PropsCurve.v` (C77-C79), `PropsCost.v` (C80), `PropsTwin.v` (C81),
`PropsJson.v` (C82, C83), `PropsTree.v` (C84), `PropsFault.v` (C85),
`PropsRelease.v` (C86), `PropsPlace.v` (C87), `PropsPhrase.v` (C88),
`PropsStop.v` (C89), `PropsCond.v` (C90), `PropsBody.v` (C91), `PropsRate.v` (C92, C93), `PropsSetters.v` (C94), `PropsOwn.v` (C95),
`PropsKind.v` (C96), `PropsOrder.v` (C97), `PropsSession.v` (C98), `PropsStruct.v` (C99), `PropsLedger.v` (C100), `PropsPay.v` (C101), `PropsShare.v` (C102),
`PropsInvoke.v` (C103), `PropsSponsor.v` (C104), `PropsEstimate.v` (C105),
`PropsPending.v` (C106),
`PropsReceive.v` (C107), `PropsNets.v` (C108), `PropsSecret.v` (C109), `PropsLoss.v` (C110),
`PropsErrand.v` (C111), `PropsFavour.v` (C112),
`PropsBill.v` (C113),
`PropsRun.v` (C114), `PropsBudget.v` (C115).

## 4. Property by property

`P` = proved for all inputs; `R` = the natural statement is false of the code: a `_refuted` theorem with a concrete
witness, plus a theorem giving the exact domain where it does hold. The statement in `properties.jsonl` then says what
holds and marks the failure as a finding.

| id | how |
|---|---|
| C01, C02 | P. induction on the byte list; character classification by exhaustive case on `byte` |
| C03, C04, C05 | P. bit-buffer invariant (`value so far`, `bits carried`) for encode and decode, then uniqueness of positional numerals |
| C06, C07, C08 | P from C03-C05; C08 parsing half R |
| C09 | R for `c32check_decode("")`, `c32check_encode` with version >= 32, `Address::from_str` on a checksummed non-20-byte payload; P elsewhere |
| C10 | R on non-empty all-zero input; P exactly elsewhere |
| C11 | P. carry invariant |
| C12 | R for characters above U+00FF; P for the rest |
| C13 | R for short inputs; P elsewhere |
| C14-C17 | P. structural induction on values / induction on fuel, R for addresses of payloads that are not 20 bytes |
| C18 | P for 14 types, R for `StringUtf8` |
| C19 | P for trailing bytes and termination, R for panics on short input |
| C20, C21 | P for encode; R for decode |
| C22, C23, C26, C27, C55 | P |
| C24 | R for containers and contract principals; P on values with unambiguous text |
| C25 | P without double insertion; R for inserting a present key |
| C28 | P up to padding; R for memos |
| C29, C30 | P |
| C31 | P; R for condition codes |
| C32, C33 | P via unique readability of the layout; C33 R for recipients that are not proper values |
| C34, C35 | P with explicit collision disjunct |
| C36-C38, C40-C43, C45, C58 | P under `ecdsa_correct` where signing is involved; invariants by induction on operation lists |
| C39 | P exact characterisation; R for "exactly the threshold" and "at least one" |
| C44 | R; `Auth::verify` on standard auth checks nothing |
| C46 | P |
| C47 | P; R for sponsored builds |
| C48, C49, C60 | P; refinement of the cache to a finite map over a pure function |
| C50 | P exact semantics, R for optional and String fields |
| C51 | P over arbitrary transports |
| C52 | P; R for panics of verify (176 keys) |
| C53 | P |
| C54 | P; finding about thresholds of 0 and numbers above 16 |
| C56 | R |
| C57 | impossibility over all operation sequences |
| C59 | P with explicit collision disjunct |
| C61 | P exact acceptance and reading; findings about `response`, qualified and generic types |
| C62, C63 | P under `ecdsa_correct` and `binds_digest`, with named coincidences; R without signatures; any sponsor will do |
| C64 | P; finding about estimates for multi-sig transactions |
| C65 | P; findings about surplus signatures and numbers above 16 |
| C66 | P under `hd_correct` and `ecdsa_correct`; composition of the modules |
| C67 | exact texts; findings |
| C68 | P exact criterion; R for every rule |
| C69 | P on texts without closing parenthesis; R otherwise |
| C70 | P exact outcomes |
| C71 | P; induction on fuel, arithmetic of the four forms |
| C72 | P for the addresses; findings about wrong nodes and the mocknet |
| C73 | P for parts without slash; R otherwise |
| C74 | P under `hd_correct` and `ecdsa_correct`, with named collisions; finding about multi-signature versions |
| C75 | P, from the exact error theorems of the other claims; R for Base58 checksums |
| C76 | P; matching of arms on token lists, induction on values; finding about `clarity!(Buffer)` |
| C77 | P; group law by ideal classes, primality certificates, counting |
| C78 | P with no hypothesis on cryptography; C36-C38, C60, C62, C66 over C77 |
| C79 | exact; R for the stability of transaction ids |
| C80 | P by induction on the recursion; R for linear work, bounded stack and memory |
| C81 | P for earlier signatures and for the origin of sponsored transactions; findings for the last signature and surplus ones |
| C82 | P by mutual induction on the grammar; text formatter modelled after `serde_json` |
| C83 | P; rates of up to 15 digits exactly, others up to the last places; R for exactness of all; finding for infinite rates |
| C84 | P; exact, against BIP-32 over the points of C77 |
| C85 | P; both directions for every error, by mutual induction on faults and strong induction on length |
| C86 | P, R; findings: signatures counted modulo 256, oversign guard modulo 65536 |
| C87 | P; up to named coincidences of hashes |
| C88 | P; exact, for ASCII texts |
| C89 | P; both directions, one case per call of the interface (`Calls.v`); all clauses are findings |
| C90 | P, R; findings: the documented meaning of Allow, conditions on transfers, a further condition in mode Deny |
| C91 | P, R; findings: bodies that are not JSON are accepted, good ones refused for nesting or numbers nobody looks at |
| C92 | P; error bounds over the rationals; R for the closest double |
| C93 | P |
| C94 | P; exact, both builders |
| C95 | P; values, transactions, signer, builders and requests with user-defined types; F: ambiguous boundary between user-defined conditions and payload |
| C96 | P; exact calls, over conditions given by their methods alone; R: `Auth::verify` without sponsor, a `reset` that keeps signatures |
| C97 | P; lexicographic orders, map equality under a no-duplicates invariant; R for zeros and for looked-up accounts |
| C98 | P over arbitrary nodes with state, induction on the run; R for errors after the transaction was taken |
| C99 | P over arbitrary answers, induction on the type of the field; R for absent optional integers and quoted strings |
| C100 | P over arbitrary ledgers, contracts and histories, induction on histories and series; R for calls without conditions and transfers of nothing or to oneself; R for a retry with the next nonce |
| C101 | P over arbitrary nodes, ledgers, accounts and drafts, induction on series of calls; R for a program run again after a broken-off answer |
| C102 | P over arbitrary ledgers, transactions, key lists and thresholds; R for thresholds and key counts outside 1 to 16 and for keys listed twice |
| C103 | P over arbitrary nodes, ledgers, contracts, accounts and drafts; R for ids of calls that do nothing |
| C104 | P over arbitrary transactions, sponsors, contracts, ledgers and histories |
| C105 | P over arbitrary nodes, ledgers, accounts, drafts and fees; R for a limit to the fee a node can quote |
| C106 | P over arbitrary nodes, ledgers, drafts and histories, induction on queues and histories; R for two ids meaning two payments |
| C107 | P over arbitrary nodes, ledgers, payers and recipients (up to exhibited hash collisions); R for the P2SH address holding money its key can spend |
| C108 | P over arbitrary nodes, ledgers and later histories (induction on histories); R for replay between testnet and mocknet, and for recipients of another network |
| C109 | P over arbitrary programs (interaction trees, induction on the program), nodes and pairs of worlds |
| C110 | P over arbitrary histories (induction), up to exhibited hash coincidences; unforgeability of signatures is a hypothesis on the history |
| C111 | P over arbitrary histories and runs of contracts (induction), up to exhibited hash coincidences; unforgeability of signatures is a hypothesis on the history |
| C112 | P over arbitrary histories and runs of contracts (induction), up to exhibited hash coincidences; unforgeability of signatures is a hypothesis on the history |
| C113 | P over arbitrary transactions, histories and runs of contracts (induction), up to exhibited hash coincidences; unforgeability of signatures is a hypothesis on the history |
| C114 | P over arbitrary programs, nodes, runs and histories (induction on the program), up to exhibited hash coincidences; unforgeability of signatures is a hypothesis on the history |
| C115 | P over arbitrary adaptive payers, nodes and histories (induction on the payer), up to exhibited hash coincidences; unforgeability of signatures is a hypothesis on the history |

## 5. Print Assumptions

Every property theorem is followed by `Print Assumptions`. All of them print "Closed under the global context": no axiom,
neither of the standard library nor of this development.

## 6. Wrong programs

`seeded/LOG.jsonl` records deliberate bugs put into a scratch copy of the model: the definition edited, the edit, the
claims it falsifies, the theorems that stopped proving, and the theorems tightened where a bug went unnoticed.
For most entries `failed` was found as follows: whatever no longer checks is noted, set aside in the scratch copy, and the build
goes on; `failed` lists the property theorems that no longer check or whose proof rests on something that does not. A theorem
listed for the second reason has lost its proof; that its statement has become false was not checked for each. The lemmas that
broke first are in the entry's note.
