{"id": "C01", "title": "Hex encoding is lossless", "statement": "For every byte string b, hex_to_bytes(bytes_to_hex(b)) returns exactly b, and bytes_to_hex(b) is exactly two lowercase hex digits per byte (high nibble first).", "quantifier": "all byte strings of every length", "why_tests_cant": "the existing test samples random strings; losslessness must hold for all of them", "anchors": ["stacks/src/crypto/hex.rs:bytes_to_hex", "stacks/src/crypto/hex.rs:hex_to_bytes", "stacks/src/crypto/hex.rs:HexIterator"]}
{"id": "C02", "title": "Hex decoding accepts exactly well-formed hex", "statement": "hex_to_bytes(s) never panics; it succeeds iff s has even byte length and consists only of 0-9a-fA-F, and then bytes_to_hex of the result is s in lower case; an odd length gives UnpaddedHex carrying s and its length, any other bad input gives BadChar.", "quantifier": "all strings", "why_tests_cant": "infinitely many malformed strings; error classification must be exhaustive", "anchors": ["stacks/src/crypto/hex.rs:HexIterator::new", "stacks/src/crypto/hex.rs:HexIterator::next", "stacks/src/crypto/hex.rs:hex_to_bytes"]}
{"id": "C03", "title": "C32 encoding is lossless", "statement": "For every byte string b, c32_encode(b) succeeds and c32_decode of the result returns exactly b.", "quantifier": "all byte strings, including ones with leading zero bytes and the empty string", "why_tests_cant": "random strings almost never start with zero bytes or exercise every bit alignment", "anchors": ["stacks/src/crypto/c32.rs:c32_encode", "stacks/src/crypto/c32.rs:c32_decode"]}
{"id": "C04", "title": "C32 encoding is the positional base-32 form", "statement": "c32_encode(b) is the unique string over 0123456789ABCDEFGHJKMNPQRSTVWXYZ whose base-32 big-endian value equals the base-256 big-endian value of b and which has exactly one leading '0' per leading zero byte of b.", "quantifier": "all byte strings", "why_tests_cant": "a value-level specification cannot be sampled; interoperability with other Stacks tools needs the exact string", "anchors": ["stacks/src/crypto/c32.rs:c32_encode", "stacks/src/crypto/c32.rs:C32_ALPHABET"]}
{"id": "C05", "title": "C32 decoding accepts exactly Crockford strings and normalises", "statement": "c32_decode(s) never panics; it succeeds iff s is made of alphanumerics other than U/u; letters are case-insensitive, O/o reads as 0 and I/i/L/l as 1; re-encoding the result gives s with exactly those substitutions applied. Non-ASCII input gives BadInput, any other bad character gives BadChar of the last bad character of s.", "quantifier": "all strings", "why_tests_cant": "acceptance set and normalisation must be exact for every string", "anchors": ["stacks/src/crypto/c32.rs:c32_decode", "stacks/src/crypto/c32.rs:C32_BYTE_MAP"]}
{"id": "C06", "title": "C32 addresses round-trip", "statement": "For every payload h and every supported version v in {20,21,22,26}, c32_address(h,v) succeeds with a string s starting with 'S' and c32_address_decode(s) returns exactly (h,v); likewise c32check_encode/c32check_decode for every version below 32.", "quantifier": "all payloads of every length, all versions", "why_tests_cant": "losing one address means losing funds; tests sample random 20-byte payloads", "anchors": ["stacks/src/crypto/c32.rs:c32_address", "stacks/src/crypto/c32.rs:c32_address_decode", "stacks/src/crypto/c32.rs:c32check_encode", "stacks/src/crypto/c32.rs:c32check_decode"]}
{"id": "C07", "title": "C32 address decoding is sound", "statement": "If c32_address_decode(s) returns (h,v) then s, with Crockford normalisation applied after the leading 'S', is exactly the canonical address text of (h,v): 'S', the digit of v, and the base-32 form of h followed by the first four bytes of the double SHA-256 of v,h. In particular two accepted strings that decode to the same pair differ only by case and O/I/L substitutions, and a string whose checksum does not match is rejected.", "quantifier": "all strings", "why_tests_cant": "soundness quantifies over every string an attacker could supply", "anchors": ["stacks/src/crypto/c32.rs:c32check_decode", "stacks/src/crypto/c32.rs:c32_address_decode"]}
{"id": "C08", "title": "Only the four Stacks address versions are produced; parsing accepts any checksummed version below 32", "statement": "c32_address(h,v) fails with UnknownAddressVersion(v) for every v outside {20,21,22,26} and otherwise produces the canonical text. Users expect parsing to enforce the same four versions; it does not (finding): c32_address_decode accepts exactly the correctly checksummed texts of every version below 32.", "quantifier": "all payloads, all 256 versions, all strings", "why_tests_cant": "needs all version/payload combinations; the parsing half is false of the code", "anchors": ["stacks/src/crypto/c32.rs:c32_address", "stacks/src/crypto/c32.rs:c32_address_decode"]}
{"id": "C09", "title": "Exactly when address and C32-check functions panic", "statement": "c32_address and c32_address_decode never panic, whatever the argument. The others do (findings), exactly as follows: c32check_decode panics iff the text is empty; c32check_encode panics iff the version is 32 or more; Address::from_str panics iff the text is a correctly checksummed address of a payload that is not 20 bytes long, and otherwise returns what c32_address_decode returns.", "quantifier": "all strings, byte strings and versions", "why_tests_cant": "absence of panics is a universal claim; several of these functions violate it on rare inputs", "anchors": ["stacks/src/crypto/c32.rs:c32check_encode", "stacks/src/crypto/c32.rs:c32check_decode", "stacks/src/crypto/c32.rs:Address::from_str", "stacks/src/crypto/hash.rs:Hash160::new"]}
{"id": "C10", "title": "Base58 encoding is lossless except on non-empty all-zero input", "statement": "b58_decode(b58_encode(b)) returns exactly b for the empty string and every byte string with a non-zero byte. Users expect this for every b; for n > 0 zero bytes the code yields n+1 zero bytes (finding).", "quantifier": "all byte strings", "why_tests_cant": "the random tests never generate an all-zero string, where the code fails", "anchors": ["stacks/src/crypto/b58.rs:b58_encode", "stacks/src/crypto/b58.rs:b58_decode"]}
{"id": "C11", "title": "Base58 encoding is the positional base-58 form", "statement": "For the empty string and every byte string with a non-zero byte, b58_encode(b) is the unique base-58 string with the same big-endian value as b and one leading '1' per leading zero byte; n > 0 zero bytes give n+1 ones. b58_decode(s) = Ok(b) iff s is the positional base-58 form of b, whatever the length of s (its fixed-size working buffer never loses a carry).", "quantifier": "all byte strings and all strings over the alphabet", "why_tests_cant": "the buffer-size estimate len*733/1000+1 must suffice for every length", "anchors": ["stacks/src/crypto/b58.rs:b58_encode", "stacks/src/crypto/b58.rs:b58_decode", "stacks/src/crypto/b58.rs:B58_ALPHABET", "stacks/src/crypto/b58.rs:B58_BYTE_MAP"]}
{"id": "C12", "title": "Base58 decoding reports the first bad character, and panics exactly if that one is above U+00FF", "statement": "For every string s, b58_decode(s) succeeds if all characters are in the alphabet; otherwise, c being the first character that is not, it returns Err(BadChar(c)) when c is at most U+00FF and panics when c is above (finding: users expect BadChar there as well).", "quantifier": "all strings", "why_tests_cant": "needs every Unicode string; false for characters above U+00FF", "anchors": ["stacks/src/crypto/b58.rs:b58_decode"]}
{"id": "C13", "title": "Base58Check round-trips and rejects corruption", "statement": "base58check_decode(base58check_encode(h,v)) = (h,v) for every version and every 20-byte payload, and for payloads of any length as long as version, payload and checksum are not all zero bytes; decoding returns (h,v) iff the text is the base-58 form of v, h and the first four bytes of their double SHA-256; a wrong checksum gives BadChecksum carrying both; texts that decode to at most 4 bytes (such as the empty one) panic (finding).", "quantifier": "all payloads, versions and strings", "why_tests_cant": "universal round trip and rejection; short inputs panic", "anchors": ["stacks/src/crypto/b58.rs:base58check_encode", "stacks/src/crypto/b58.rs:base58check_decode"]}
{"id": "C14", "title": "Clarity values encode to the consensus (SIP-005) wire format", "statement": "encode() of every Clarity value, however deeply nested, is exactly its SIP-005 serialization: type byte 0x00..0x0e, big-endian 16-byte two's-complement integers, 4-byte big-endian counts, 1-byte name lengths, principal version byte and the hash its address text stands for; it succeeds exactly when every address text is well formed, counts fit 32 bits, names have at most 128 bytes and ASCII strings are ASCII, and never panics.", "quantifier": "all Clarity values of any depth and size", "why_tests_cant": "infinitely many nested values", "anchors": ["stacks/src/clarity/impl.rs:Codec", "stacks/src/clarity/mod.rs:CLARITY_TYPE_*"]}
{"id": "C15", "title": "Clarity decode inverts encode", "statement": "For every Clarity value v whose principals are addresses of 20-byte hashes with one of the four Stacks versions, if encode(v) = Ok(e) then decode_clarity_type(e followed by any trailing bytes) = Ok(v), with addresses in canonical upper-case text. Users expect this for every accepted address; an address of a shorter payload encodes and then panics in decoding (finding).", "quantifier": "all values of any depth, all trailing byte strings", "why_tests_cant": "round trips for every nesting and every suffix", "anchors": ["stacks/src/clarity/impl.rs:Codec::decode", "stacks/src/clarity/mod.rs:decode_clarity_type"]}
{"id": "C16", "title": "Clarity encoding is injective and prefix-free", "statement": "Two Clarity values whose principals are addresses of 20-byte hashes and whose encodings are equal, or one a prefix of the other, are the same value up to the spelling of addresses. Without the 20-byte condition, which encode does not enforce, two different values can share an encoding (finding).", "quantifier": "all pairs of values", "why_tests_cant": "pairs of arbitrary values cannot be enumerated", "anchors": ["stacks/src/clarity/impl.rs:Codec::encode"]}
{"id": "C17", "title": "Clarity decoding is canonical (not malleable)", "statement": "If decode_clarity_type(b) = Ok(v) and v can be encoded, then encode(v) is a prefix of b: no value has two accepted encodings.", "quantifier": "all byte strings", "why_tests_cant": "adversarial inputs", "anchors": ["stacks/src/clarity/impl.rs:Codec::decode", "stacks/src/clarity/mod.rs:decode_clarity_type"]}
{"id": "C18", "title": "Decoders check the type identifier, except StringUtf8", "statement": "T::decode(b) returns BadIdentifier(id of T, b[0]) whenever b[0] is not T's identifier, for every standard type T except StringUtf8, which ignores the identifier and reads whatever follows (finding); on its own identifier T::decode agrees with decode_clarity_type, which returns UnexpectedType(tag) for every tag above 0x0e.", "quantifier": "all byte strings, all 15 types", "why_tests_cant": "all tags for all types; false for StringUtf8", "anchors": ["stacks/src/clarity/impl.rs:StringUtf8::decode", "stacks/src/clarity/mod.rs:decode_clarity_type"]}
{"id": "C19", "title": "Decoding is deterministic in the bytes it needs: trailing bytes never change an answer", "statement": "If decode_clarity_type(b) returns Ok or Err then it returns the same on b followed by any bytes; it always terminates; and it panics only on input that some continuation turns into an answer, i.e. that is too short (finding: users expect an error there).", "quantifier": "all byte strings and suffixes", "why_tests_cant": "monotonicity over all inputs and suffixes; termination", "anchors": ["stacks/src/clarity/mod.rs:decode_clarity_type"]}
{"id": "C20", "title": "ASCII strings are checked when encoding, not when decoding", "statement": "StringAscii::encode succeeds iff the string is ASCII and shorter than 2^32 bytes. Decoding does not enforce it (finding): StringAscii::decode accepts exactly the well-formed encodings of arbitrary UTF-8 strings, including ones that then cannot be encoded.", "quantifier": "all strings and byte strings", "why_tests_cant": "second half is false: decode accepts any UTF-8", "anchors": ["stacks/src/clarity/impl.rs:StringAscii"]}
{"id": "C21", "title": "Names are limited to 128 bytes when encoding, to 255 when decoding", "statement": "Encoding a contract name, tuple key or LengthPrefixedStr of more than 128 bytes fails with BadStringLength(len,128), at any nesting depth, and any shorter one is accepted. Decoding accepts up to 255 bytes (finding).", "quantifier": "all strings, all nestings", "why_tests_cant": "boundary must hold at every nesting; the decoding half is false", "anchors": ["stacks/src/clarity/impl.rs:LengthPrefixedStr"]}
{"id": "C22", "title": "len, is_empty, hex and hex_prefixed agree with encode", "statement": "len() is the byte length of encode(), is_empty() is never true for a standard Clarity value, hex() decodes back to encode(), hex_prefixed() is '0x' followed by hex(); each fails exactly when encode fails with the same error.", "quantifier": "all Clarity values", "why_tests_cant": "all values", "anchors": ["stacks/src/clarity/mod.rs:Codec::len", "stacks/src/clarity/mod.rs:Codec::hex"]}
{"id": "C23", "title": "Integers cover the full 128-bit ranges exactly", "statement": "For every i128 z, Int encodes as 0x00 followed by the 16-byte two's-complement big-endian form and decodes back to z; for every u128 likewise with 0x01; every 16-byte string is the encoding of exactly one integer of each kind.", "quantifier": "all 2^128 values of each type", "why_tests_cant": "cannot be enumerated", "anchors": ["stacks/src/clarity/impl.rs:Int", "stacks/src/clarity/impl.rs:UInt"]}
{"id": "C24", "title": "Equality of Clarity values means equal values, for values with unambiguous text", "statement": "== is an equivalence relation. For integers, buffers, booleans, none, standard principals, strings and length-prefixed strings, == holds iff the values are the same. For all values whose principals are addresses, whose names contain no space or closing parenthesis and whose strings contain no double quote, == holds iff they are the same, at any depth. In general it compares display texts, so that different lists, tuples and contract principals with different encodings can compare equal (finding).", "quantifier": "all pairs of values", "why_tests_cant": "== compares display strings; collisions are adversarial", "anchors": ["stacks/src/clarity/macro.rs:impl_clarity_primitive", "stacks/src/clarity/impl.rs:Display"]}
{"id": "C25", "title": "Tuple behaves as a key-value map as long as no key is inserted twice", "statement": "Starting from distinct keys, after any history of insert (of absent keys), remove and writes through get_mut, get agrees with the same history on a finite map; insert appends to keys() and values(), remove returns what get returned and leaves other keys alone. Findings: inserting a present key keeps the old value visible to get, and removing a key inserted twice leaves it present.", "quantifier": "all tuples, keys and histories of operations", "why_tests_cant": "all operation histories; duplicates break the map view", "anchors": ["stacks/src/clarity/impl.rs:Tuple::get", "stacks/src/clarity/impl.rs:Tuple::insert", "stacks/src/clarity/impl.rs:Tuple::remove", "stacks/src/clarity/impl.rs:Tuple::get_mut"]}
{"id": "C26", "title": "Downcasts are exact", "statement": "cast::<T>/cast_as::<T> on a boxed Clarity value succeed iff the value was built as a T, returning that very value, else BadDowncast; on ResponseOk/ResponseErr/OptionalSome they apply to the wrapped value.", "quantifier": "all values and all target types", "why_tests_cant": "all value/type pairs", "anchors": ["stacks/src/clarity/macro.rs:impl_clarity_primitive_cast", "stacks/src/clarity/mod.rs:Cast"]}
{"id": "C27", "title": "Function arguments round-trip", "statement": "For every list of encodable arguments, FnArguments::decode(encode(args) followed by anything) = args (addresses canonical), with a 4-byte big-endian count.", "quantifier": "all argument lists", "why_tests_cant": "all lists and suffixes", "anchors": ["stacks/src/clarity/impl.rs:FnArguments"]}
{"id": "C28", "title": "Token transfer payloads round-trip up to padding of the memo", "statement": "TokenTransferPayload::encode succeeds for every recipient that encodes, every u64 amount and every memo of at most 34 bytes, and fails with BadStringLength(len,34) for longer ones; decode of the result followed by anything returns the same recipient (addresses in canonical text) and amount and the memo padded with NULs to 34 bytes; re-encoding what was decoded gives the same bytes. Two transfers have the same bytes iff they agree up to address spelling and trailing NULs of the memo; so memos are not recovered exactly (finding).", "quantifier": "all recipients, amounts and memos", "why_tests_cant": "boundary at 34 bytes and all values", "anchors": ["stacks/src/transaction/payload.rs:TokenTransferPayload"]}
{"id": "C29", "title": "Contract-call payloads round-trip", "statement": "ContractCallPayload::decode(encode(p) followed by anything) = p for every address, contract and function name of at most 128 bytes and every list of fewer than 2^32 proper Clarity arguments (with their addresses in canonical text).", "quantifier": "all payloads", "why_tests_cant": "all payloads and suffixes", "anchors": ["stacks/src/transaction/payload.rs:ContractCallPayload"]}
{"id": "C30", "title": "Payload decoding dispatches on the payload type", "statement": "Decoding a boxed payload selects token transfer for 0x00, contract call for 0x02, and fails with UnexpectedType for every other first byte; it returns p iff the input starts with the wire form of p, so that encoding p again gives exactly the bytes read.", "quantifier": "all byte strings", "why_tests_cant": "all first bytes and bodies", "anchors": ["stacks/src/transaction/payload.rs:Box<dyn Payload>::decode"]}
{"id": "C31", "title": "Post-conditions encode to the wire format and only for principals", "statement": "A set of post-conditions encodes as a 4-byte count followed by each condition in order in the SIP-005 layout, each uniquely readable; given valid components, encoding succeeds if all addresses are principals and fails with BadDowncast iff some condition's address is not one. The condition code is not checked against the kind of condition (finding).", "quantifier": "all lists of conditions, all addresses and assets", "why_tests_cant": "all condition lists", "anchors": ["stacks/src/transaction/condition.rs:PostConditions", "stacks/src/transaction/condition.rs:STXPostCondition", "stacks/src/transaction/condition.rs:FungiblePostCondition", "stacks/src/transaction/condition.rs:NonFungiblePostCondition", "stacks/src/transaction/condition.rs:AssetInfo"]}
{"id": "C32", "title": "Transactions encode to the SIP-005 wire format", "statement": "Transaction::encode is exactly: version byte, 4-byte chain id, authorization, anchor mode, post-condition mode, post-conditions, payload, each in the SIP-005 layout, and succeeds exactly if the components fit the layout and never panics; the layout is uniquely readable, so that an independent SIP-005 parser recovers every field and the end of the transaction.", "quantifier": "all transactions", "why_tests_cant": "all combinations of auth, conditions and payload", "anchors": ["stacks/src/transaction/base.rs:Transaction::encode", "stacks/src/transaction/auth.rs:Codec"]}
{"id": "C33", "title": "Transaction encoding is injective", "statement": "Two transactions made of proper Clarity components with the same bytes, or one a prefix of the other, agree on version, chain, authorization, anchor mode, post-conditions and payload up to address spelling and trailing NULs of the memo, and conversely. With a recipient that is not a proper Clarity value (a LengthPrefixedStr, which the payload accepts) two transfers can share their bytes (finding).", "quantifier": "all pairs of transactions", "why_tests_cant": "pairs of arbitrary transactions; ambiguity would let one signature authorise two meanings", "anchors": ["stacks/src/transaction/base.rs:Transaction::encode"]}
{"id": "C34", "title": "The signing hash ignores exactly fee, nonce, signatures and the sponsor", "statement": "initial hash of a transaction is unchanged by set_fee, set_nonce, by any signing step and by replacing the sponsor; conversely two transactions with the same initial hash have the same version, chain, auth kind, signer, modes, post-conditions and payload unless SHA-512/256 collides.", "quantifier": "all transactions and all signing histories", "why_tests_cant": "all histories; collision reduction", "anchors": ["stacks/src/transaction/base.rs:Transaction::initial_hash", "stacks/src/transaction/auth.rs:Auth::reset"]}
{"id": "C35", "title": "A signature commits to the transaction, auth type, fee and nonce", "statement": "If the message signed for (tx1, type1, fee1, nonce1) equals that for (tx2, type2, fee2, nonce2) then all four agree (transactions up to what the initial hash ignores) unless SHA-512/256 collides.", "quantifier": "all pairs of transactions, fees, nonces", "why_tests_cant": "replay safety over all pairs", "anchors": ["stacks/src/crypto/hash.rs:SignatureHash::make_presign_hash", "stacks/src/transaction/base.rs:initial_hash"]}
{"id": "C36", "title": "A single-sig transaction signed with its sender's key verifies", "statement": "For every transaction whose origin is the unsigned single-sig condition of key sk (P2PKH or P2WPKH), in particular every transfer or call built for sk, that encodes: sign(sk) succeeds, origin verification of the result succeeds and returns the hash chained from the signature, and nothing but the origin's signature changes. (secp256k1 is assumed to recover the signer's key from its signatures.)", "quantifier": "all transactions, keys, fees and nonces", "why_tests_cant": "all inputs", "anchors": ["stacks/src/transaction/base.rs:Transaction::sign", "stacks/src/transaction/signer.rs:TransactionSigner::sign_origin", "stacks/src/transaction/auth.rs:SpendingConditionStandard::verify"]}
{"id": "C37", "title": "Origin verification of a single-sig transaction is sound", "statement": "verify_origin succeeds iff the key recovered from the signature over exactly this transaction's initial hash, the standard auth type, fee and nonce has the declared signer as its address; so for a signature by any other key it fails with BadSigner unless HASH-160 collides, also when that signature was produced by sign with the wrong key (which succeeds).", "quantifier": "all transactions and signatures", "why_tests_cant": "adversarial signatures", "anchors": ["stacks/src/transaction/auth.rs:SpendingConditionStandard::verify"]}
{"id": "C38", "title": "Multi-sig signing verifies", "statement": "For any list of public keys and threshold m, taking the keys in order and for each either signing or appending the public key, with exactly m signatures, every step succeeds and origin verification succeeds with the signer's running hash (P2SH and P2WSH).", "quantifier": "all key lists, thresholds and sign/append patterns", "why_tests_cant": "exponentially many patterns", "anchors": ["stacks/src/transaction/signer.rs:sign_origin", "stacks/src/transaction/signer.rs:append_origin", "stacks/src/transaction/auth.rs:SpendingConditionMultiSig"]}
{"id": "C39", "title": "Multi-sig verification enforces threshold and key set", "statement": "Verification of a multi-sig condition succeeds iff its fields form a signature chain over the given hash whose keys (declared or recovered, in order) and threshold hash to the declared signer with at least the threshold of signatures, at most 255. Hence, for a condition created for keys ks, the keys are exactly ks in order unless a hash collides; with fewer signatures it fails with BadSignatureCount or a signature error. Findings: more signatures than the threshold are accepted, and a threshold of 0 is accepted with none.", "quantifier": "all conditions and field lists", "why_tests_cant": "adversarial field lists", "anchors": ["stacks/src/transaction/auth.rs:SpendingConditionMultiSig::verify", "stacks/src/crypto/c32.rs:hash_p2sh", "stacks/src/crypto/c32.rs:hash_p2wsh"]}
{"id": "C40", "title": "Signing never alters what is being signed and failures change nothing", "statement": "Any sequence of sign_origin, sign_sponsor and append_origin, successful or not, leaves version, chain, modes, post-conditions, payload and both conditions' fee, nonce, hash mode, threshold and signer identity unchanged; an operation that returns an error leaves the signer exactly as it was.", "quantifier": "all operation sequences", "why_tests_cant": "all histories", "anchors": ["stacks/src/transaction/signer.rs:TransactionSigner"]}
{"id": "C41", "title": "No over-signing", "statement": "Starting from TransactionSigner::new on a transaction that holds no more signatures than required, after any sequence of operations the origin (and sponsor) never holds more signatures than required; the extra attempt returns OriginOversign (or, once the sponsor has signed, OriginPostSponsorSign as in C42) or SponsorOversign.", "quantifier": "all operation sequences", "why_tests_cant": "all histories", "anchors": ["stacks/src/transaction/signer.rs:sign_origin", "stacks/src/transaction/signer.rs:sign_sponsor"]}
{"id": "C42", "title": "Origin is frozen once the sponsor has signed", "statement": "After a successful sign_sponsor (or new_sponser) every later sign_origin returns OriginPostSponsorSign, every append_origin returns OriginPostSponsorAppend, and the origin condition never changes again.", "quantifier": "all operation sequences", "why_tests_cant": "all histories", "anchors": ["stacks/src/transaction/signer.rs:sign_sponsor", "stacks/src/transaction/signer.rs:new_sponser"]}
{"id": "C43", "title": "Sponsored flow verifies end to end", "statement": "Origin signs, then a sponsor is attached with new_sponser and signs (a multi-sig sponsor with all its keys, see C57), or both sign on one signer: every step succeeds and full authorization verification against the initial hash succeeds.", "quantifier": "all transactions, keys, fees, nonces", "why_tests_cant": "all inputs", "anchors": ["stacks/src/transaction/signer.rs:new_sponser", "stacks/src/transaction/auth.rs:Auth::verify"]}
{"id": "C44", "title": "Full authorization verification checks sponsored authorizations only", "statement": "Auth::verify of a sponsored authorization succeeds only if both spending conditions are satisfied. Users expect the same of a standard authorization; there it always succeeds, whatever is signed (finding).", "quantifier": "all authorizations", "why_tests_cant": "false for standard authorizations, which are accepted unconditionally", "anchors": ["stacks/src/transaction/auth.rs:Auth::verify"]}
{"id": "C45", "title": "Sponsored verification binds the sponsor to the origin's signature", "statement": "Auth::verify of a sponsored authorization succeeds iff the origin is satisfied for the initial hash with the standard auth type and the sponsor for the hash resulting from the origin with the sponsored auth type; what the sponsor signs, after any number of origin signatures, determines the initial hash, both fees and nonces and the origin's signatures in order, unless SHA-512/256 collides on strings hashed at corresponding places.", "quantifier": "all sponsored authorizations", "why_tests_cant": "adversarial authorizations", "anchors": ["stacks/src/transaction/auth.rs:Auth::verify"]}
{"id": "C46", "title": "set_fee and set_nonce change exactly the origin's fee and nonce", "statement": "After set_fee(f)/set_nonce(n) the wire bytes parse to the same transaction with only the origin's fee/nonce replaced.", "quantifier": "all transactions and values", "why_tests_cant": "all values", "anchors": ["stacks/src/transaction/base.rs:set_fee", "stacks/src/transaction/base.rs:set_nonce", "stacks/src/transaction/auth.rs:Auth::set_fee"]}
{"id": "C47", "title": "Builders produce the transaction they describe", "statement": "The transaction from STXTokenTransfer/STXContractCall carries the network's matching version and chain id, a P2PKH standard authorization of the sender's key with the given fee and nonce and no signature, and the given modes, conditions and payload; omitted fields default to fee 0, nonce 0, anchor any, allow mode, no conditions, empty memo. Building a call fails with an error iff the address text is invalid, and panics if it is of a payload that is not 20 bytes long; asking for a sponsored transaction panics (findings).", "quantifier": "all builder inputs", "why_tests_cant": "all inputs; panics for wrong-length addresses and for sponsored", "anchors": ["stacks/src/transaction/builder.rs:STXTokenTransfer", "stacks/src/transaction/builder.rs:STXContractCall", "stacks/src/transaction/network.rs:Network"]}
{"id": "C48", "title": "Wallet account lookup is a transparent cache", "statement": "After any history of get_account/set_account calls on a wallet made from a phrase, get_account(i) returns the account last set for i, or else the child of the root key at i; results depend only on the set_account calls, not on which indices were looked up; a failed derivation is returned as an error and leaves the wallet unchanged; the root key never changes.", "quantifier": "all histories", "why_tests_cant": "all histories", "anchors": ["stacks/src/wallet.rs:get_account", "stacks/src/wallet.rs:set_account"]}
{"id": "C49", "title": "Wallet addresses decode to the account's key hash", "statement": "get_address(version) succeeds for each of the four versions with the canonical address text of HASH-160 of the account's compressed public key under that version's number (22, 20, 26, 21), and c32_address_decode returns both; two accounts with the same address have the same version and public key unless HASH-160 collides.", "quantifier": "all accounts and versions", "why_tests_cant": "all keys", "anchors": ["stacks/src/wallet.rs:get_address"]}
{"id": "C50", "title": "FromTuple fills each field from its key or reports the first failure; optional and String fields hide mismatches", "statement": "For a derived struct, try_from(tuple) either fills every field from the value under its key or returns the error of the first field (in declaration order, through nested structs) that cannot be filled: Extract for a missing key, Match for a wrong type under i128/u128/bool/Vec<u8>, Cast naming the expected type otherwise; it never panics. Users expect a filled field to mean that the tuple held the field's type; optional fields do not tell (finding): any value of another type reads as None, a missing key reads as None for Option<String> but is an error for the other options, and String fields take the display text of any value, string literals with their quotes.", "quantifier": "all tuples and all struct shapes", "why_tests_cant": "all tuples; optional fields silently swallow mismatches", "anchors": ["stacks_derive/src/from_tuple.rs:__impl"]}
{"id": "C51", "title": "RPC methods send the documented request and classify responses faithfully", "statement": "broadcast, estimate_fee, read_only, info and address ask with the documented path, carrying exactly the SIP-005 bytes of the transaction (broadcast), the hex of its payload and its total length (estimate_fee) or the hex of each argument in order (read_only); their result is determined by the response to that request alone (that it is the only one sent is C98): success body as the Ok variant, error status as the Err variant with its body (broadcast, estimate_fee) or an error carrying the status (others), transport failures and bodies without the documented members (each exactly once and in range) as errors. Values that cannot be encoded are refused whatever the node would answer.", "quantifier": "all responses and transactions", "why_tests_cant": "all responses", "anchors": ["stacks/src/rpc.rs:StacksRPC"]}
{"id": "C52", "title": "Spending conditions only exist with a compatible hash mode", "statement": "Single-sig and multi-sig conditions obtained through new, default, modify, reset, set_fee, set_nonce and signing always have a single-sig/multi-sig mode respectively (new panics otherwise); verify never panics on the mode and signing never rejects it. An incompatible modification returns BadSpendingConditionModification and changes nothing; a compatible one does exactly what it says. verify can still overflow, only on multi-sig conditions with 256 or more signatures, a threshold above 175 or more than 175 fields (finding).", "quantifier": "all API histories", "why_tests_cant": "all histories", "anchors": ["stacks/src/transaction/auth.rs:SpendingConditionStandard::new", "stacks/src/transaction/auth.rs:modify"]}
{"id": "C53", "title": "Message signatures round-trip through recoverable signatures", "statement": "For every recoverable signature r, from_recov(r) succeeds with 65 bytes (recovery id first) and into_recov of it returns r; from_slice accepts exactly 65-byte slices. MessageSignature::new takes 65 bytes and panics on any other length.", "quantifier": "all signatures and slices", "why_tests_cant": "all values", "anchors": ["stacks/src/crypto/hash.rs:MessageSignature"]}
{"id": "C54", "title": "Multi-sig address scripts are unambiguous, and standard up to 16", "statement": "hash_p2sh/hash_p2wsh hash exactly the script OP_(m) keys OP_(n) OP_CHECKMULTISIG, with OP_(k) written as the byte 80+k, when threshold and number of keys modulo 256 are at most 175, and otherwise panic; the script determines the threshold and the ordered key list, so equal addresses mean equal (m, keys) unless a hash collides. That script is the Bitcoin m-of-n script for 1 <= m <= 16 and 1 <= n <= 16, and for no other m and n (finding: thresholds of 0 and numbers above 16 should be refused or pushed as data).", "quantifier": "all key lists and thresholds", "why_tests_cant": "pairs of key lists; u8 overflow at the boundary", "anchors": ["stacks/src/crypto/c32.rs:hash_p2sh", "stacks/src/crypto/c32.rs:hash_p2wsh"]}
{"id": "C55", "title": "Display of values is the Clarity notation", "statement": "The display text of every Clarity value is its Clarity notation, at any depth: decimal numerals (unsigned ones prefixed with u), 0x and hex for buffers, true/false/none, principals as written, (ok x), (err x), (some x), (list x y), (tuple (k x)), strings in double quotes (UTF-8 ones prefixed with u). Numerals and hex determine the value.", "quantifier": "all values", "why_tests_cant": "all values", "anchors": ["stacks/src/clarity/impl.rs:Display"]}
{"id": "C56", "title": "Tuple encodings depend on the order of insertion", "statement": "Two tuples with equal encodings have the same keys in the same order. Users expect tuples holding the same key/value pairs to have one consensus encoding; here the order of insertion decides (finding).", "quantifier": "all pairs of tuples", "why_tests_cant": "a permutation of any two keys is enough, but order-independence is a claim about all of them", "anchors": ["stacks/src/clarity/impl.rs:Tuple::encode", "stacks/src/clarity/impl.rs:Tuple::insert"]}
{"id": "C57", "title": "Multi-sig sponsors need every key to sign", "statement": "Users expect an m-of-n multi-sig sponsor to be completed by any m of its keys. It cannot (finding): for every m < n, whatever sequence of operations is performed on the signer returned by new_sponser, full verification of the result succeeds only if two different scripts have the same address.", "quantifier": "all sponsor key lists, thresholds m < n and operation sequences", "why_tests_cant": "an impossibility over all operation sequences", "anchors": ["stacks/src/transaction/signer.rs:sign_sponsor", "stacks/src/transaction/signer.rs:new_sponser", "stacks/src/transaction/signer.rs:append_origin"]}
{"id": "C58", "title": "Signatures and keys already given are never dropped or replaced", "statement": "After new or new_sponser, whatever operations follow, a multi-sig condition's fields only ever get longer at the end and a single-sig signature once set stays.", "quantifier": "all operation sequences", "why_tests_cant": "unit tests run a fixed sequence of operations", "anchors": ["stacks/src/transaction/signer.rs:TransactionSigner", "stacks/src/transaction/auth.rs:modify"]}
{"id": "C59", "title": "The transaction id commits to the whole signed transaction", "statement": "Transaction::hash is SHA-512/256 of the complete encoding; two transactions of proper components with the same id agree on everything, signatures, fees and nonces included, up to address spelling and memo padding, unless SHA-512/256 collides on the two encodings.", "quantifier": "all pairs of transactions", "why_tests_cant": "injectivity over all pairs of transactions", "anchors": ["stacks/src/transaction/base.rs:hash"]}
{"id": "C60", "title": "An account's address, keys and transactions belong together", "statement": "For every account, private_key and public_key succeed and match each other; a transfer or call built with the account's private key declares as its signer exactly the hash in the account's address (of any version), and signing it with that key verifies. (bip32 is assumed to return valid private keys with their public keys, secp256k1 to recover signers.)", "quantifier": "all accounts, versions and transactions", "why_tests_cant": "all keys and transactions", "anchors": ["stacks/src/wallet.rs:private_key", "stacks/src/wallet.rs:get_address", "stacks/src/transaction/builder.rs:transaction"]}
{"id": "C61", "title": "The FromTuple derive reads each field as its declared type", "statement": "derive(FromTuple) accepts exactly the structs in which every field has a name, a key attribute and one of these types as written: i128, u128, bool, String, a path ending in Vec<u8>, Vec<String>, Option<i128>, Option<u128> or Option<String>, or a path ending in a plain word that names another derived struct; the generated conversion reads each field from the tuple entry under its key as that type, i128 and u128 with the response attribute from inside (ok ..). Anything else is refused at expansion with the error for a struct without fields, for a field without name or key, or for the first field of another type; an enum makes the macro panic. Findings: the response attribute on a field of any other type has no effect; a built-in type written with its full path (std::string::String) is read as a nested struct; Vec or Option of a struct is refused.", "quantifier": "all struct declarations and all tuples", "why_tests_cant": "the set of Rust types a field can have is infinite; tests derive a handful of structs", "anchors": ["stacks_derive/src/from_tuple.rs:__impl", "stacks_derive/src/from_tuple.rs:ToTokens"]}
{"id": "C62", "title": "A signature cannot be moved to another transaction", "statement": "If two transactions carry the same origin signatures and both pass verify_origin, then they agree in version, chain, modes, post-conditions, payload (up to address spelling and memo padding) and in the whole origin condition with its fee and nonce, unless one of four named coincidences was found: a SHA-512/256 collision of the two cleared encodings or of the two signed messages, two digests equal modulo the group order, or two keys with the same address recovered from the same signature. This needs at least one signature; with a threshold of 0 there is none (finding).", "quantifier": "all pairs of transactions, single- and multi-sig", "why_tests_cant": "non-malleability quantifies over every possible tampered transaction", "anchors": ["stacks/src/transaction/base.rs:verify_origin", "stacks/src/transaction/auth.rs:verify"]}
{"id": "C63", "title": "A sponsor's signature cannot be moved to another transaction, and any sponsor will do", "statement": "If two sponsored transactions carry the same sponsor signatures (and equally many origin signatures) and both pass Auth::verify, they agree in body, sponsor condition and origin identity, signatures, fee and nonce, up to the named coincidences of hashes. The origin, however, does not bind itself to a sponsor (finding): replacing the sponsor's condition by any other leaves verify_origin unchanged.", "quantifier": "all pairs of sponsored transactions", "why_tests_cant": "non-malleability quantifies over every possible tampered transaction", "anchors": ["stacks/src/transaction/auth.rs:Auth::verify", "stacks/src/transaction/base.rs:verify_origin"]}
{"id": "C64", "title": "Signing changes the encoded length by 66 bytes per signature and 34 per listed key", "statement": "Whatever is asked of a signer, the encoding of a transaction grows by exactly 66 bytes for every multi-sig signature and 34 bytes for every listed key added, stays encodable, and does not change in length with single-sig conditions, for which the length sent to the fee estimator is therefore that of the broadcast transaction. For an unsigned m-of-n multi-sig origin the estimator is asked about a transaction shorter by 66*m + 34*(n-m) bytes than the one broadcast (finding).", "quantifier": "all transactions and operation sequences", "why_tests_cant": "all transactions and histories of signing", "anchors": ["stacks/src/transaction/signer.rs:TransactionSigner", "stacks/src/rpc.rs:estimate_fee", "stacks/src/transaction/auth.rs:encode"]}
{"id": "C65", "title": "What the library signs, a node accepts", "statement": "The bytes of an encoded transaction pass a node's layout, network and authorization checks as SIP-005 states them, decided from the bytes alone, if and only if the transaction is for that node's network, carries no more multi-sig signatures than required and passes the library's verification (thresholds and key counts 1 to 16). In particular a single- or multi-sig transaction signed by the participants of its origin, and a sponsored one signed by its origin and then its sponsor, is accepted; no transaction is accepted on both mainnet and testnet. Findings: the library also verifies transactions with surplus signatures, which nodes refuse; and it computes addresses for thresholds of 0 or numbers above 16 from which nothing can be spent unless a hash collides.", "quantifier": "all transactions, keys and networks", "why_tests_cant": "the node is not part of the test suite; the agreement is over all transactions", "anchors": ["stacks/src/transaction/auth.rs:verify", "stacks/src/transaction/base.rs:verify_origin", "stacks/src/transaction/base.rs:encode", "stacks/src/crypto/c32.rs:hash_p2sh"]}
{"id": "C66", "title": "From an account to the node: one errand, one transaction", "statement": "For every wallet account, every recipient, amount, fee, nonce, modes, post-conditions and memo (or contract, function and arguments) that fit the wire: building the transfer or call with the account's private key, signing it with that key, estimating its fee and broadcasting it puts exactly the described SIP-005 transaction on the wire; a node of that network accepts it; its signer is the hash in the account's address of any version; the estimator was asked about the same payload and length; and Transaction::hash is the SHA-512/256 of the bytes sent.", "quantifier": "all accounts, transfers, calls, networks and nodes", "why_tests_cant": "end-to-end agreement of six modules over all inputs; tests check each module on single vectors", "anchors": ["stacks/src/wallet.rs:private_key", "stacks/src/transaction/builder.rs:STXTokenTransfer", "stacks/src/transaction/builder.rs:STXContractCall", "stacks/src/transaction/signer.rs:sign_origin", "stacks/src/rpc.rs:broadcast", "stacks/src/rpc.rs:estimate_fee", "stacks/src/transaction/base.rs:hash"]}
{"id": "C67", "title": "A node's answers are handed over as raw text", "statement": "Users expect the result of read_only and the id of broadcast to be usable with the library's own decoders. They are not (finding): a read-only result, which nodes write as 0x and hex, is returned as is and refused by hex_to_bytes (BadChar) until the 0x is removed, after which it decodes to exactly the value the contract returned; the transaction id, which nodes answer as a JSON string, is returned with its quotation marks and so never equals the hex of Transaction::hash.", "quantifier": "all Clarity values a contract can return, all transactions", "why_tests_cant": "all values; tests do not talk to a node", "anchors": ["stacks/src/rpc.rs:read_only", "stacks/src/rpc.rs:broadcast", "stacks/src/crypto/hex.rs:hex_to_bytes"]}
{"id": "C68", "title": "Names and values are not checked against the rules of Clarity", "statement": "A node admits an encoded transaction iff it accepts it (C65) and the names, values, recipient and condition codes in it obey the rules of Clarity: names by the grammar, tuples non-empty with distinct keys, printable ASCII strings, lists of one type, a principal as recipient, amount codes on amounts and ownership codes on NFTs. Users expect invalid ones to be refused when the transaction is encoded; none of these rules is checked (finding): every text of at most 128 bytes is encoded wherever a name is expected, and for every rule there is a transaction which is built, signed, verified and broadcast although it breaks the rule.", "quantifier": "all transactions and names", "why_tests_cant": "all transactions; the node is not part of the test suite", "anchors": ["stacks/src/clarity/impl.rs:encode", "stacks/src/transaction/condition.rs:encode", "stacks/src/transaction/payload.rs:encode", "stacks/src/clarity/macro.rs:clarity"]}
{"id": "C69", "title": "Equality of post-conditions and builders", "statement": "Users expect == on post-conditions, payloads and builders to hold exactly between equal ones. It does if strings and names contain no closing parenthesis or quotation mark, respectively; PostConditions are compared by their debug texts and so are always an equivalence, but two different lists can be equal (finding): one NFT condition on a crafted string equals two conditions. Contract-call payloads compare display texts of arguments: a LengthPrefixedStr can equal another value (finding).", "quantifier": "all pairs of conditions, payloads and builders", "why_tests_cant": "equality over all pairs of values", "anchors": ["stacks/src/transaction/condition.rs:PartialEq", "stacks/src/transaction/payload.rs:ContractCallPayload", "stacks/src/transaction/builder.rs:PartialEq", "stacks/src/clarity/impl.rs:Debug"]}
{"id": "C70", "title": "What the signer accepts and how it refuses", "statement": "sign_origin, sign_sponsor, append_origin and new_sponser have exactly these outcomes: after the sponsor has signed (and overlap checking is on) the origin can neither sign (OriginPostSponsorSign) nor list keys (OriginPostSponsorAppend); with enough signatures (and oversign checking on) the next is OriginOversign or SponsorOversign, and above 65535 held signatures the count overflows; a sponsor can only sign sponsored transactions, and keys can only be listed for a multi-sig origin (BadSpendingConditionModification); new_sponser refuses standard transactions that way and passes on the refusal of the origin. In all other cases the call succeeds and adds exactly the one signature or key, hashing on from it. Verification of a condition is refused with a hash error if a signature recovers no key, BadSignatureCount with fewer signatures than required, BadSigner with both hashes in hex for another address.", "quantifier": "all signers, transactions, keys and settings", "why_tests_cant": "exact outcomes over all signer states", "anchors": ["stacks/src/transaction/signer.rs:sign_origin", "stacks/src/transaction/signer.rs:sign_sponsor", "stacks/src/transaction/signer.rs:append_origin", "stacks/src/transaction/signer.rs:new_sponser", "stacks/src/transaction/auth.rs:sponsor", "stacks/src/transaction/auth.rs:verify"]}
{"id": "C71", "title": "Texts are UTF-8", "statement": "String::from_utf8 as modelled accepts exactly the byte strings made of the RFC 3629 forms of Unicode scalar values, whose characters are then unique and are the ones iterated over; every string in a value returned by decode_clarity_type is UTF-8, and wire strings and contract names that are not UTF-8 are refused with TryFromUtf8 whatever follows.", "quantifier": "all byte strings", "why_tests_cant": "all byte strings; tests decode ASCII texts", "anchors": ["stacks/src/clarity/impl.rs:from_utf8", "stacks/src/crypto/b58.rs:chars"]}
{"id": "C72", "title": "Networks and their nodes", "statement": "A client made from the base URL of a network sends transactions, fee questions and info requests to the published address of that network's node, and mainnet transactions differ from all others in version and chain id. Users expect a transaction to go only to its own network. Nothing ties the two (findings): broadcast sends a transaction of any network to any node, which accepts it exactly if both or neither are mainnet; a transaction built for the mocknet is the one built for the testnet and is accepted there.", "quantifier": "all networks, transactions and clients", "why_tests_cant": "all transactions and networks; the node is not part of the test suite", "anchors": ["stacks/src/transaction/network.rs:impl_network_type", "stacks/src/rpc.rs:broadcast", "stacks/src/rpc.rs:StacksRPC::new", "stacks/src/transaction/builder.rs:transaction"]}
{"id": "C73", "title": "A request names one contract function or account", "statement": "read_only requests for different contracts or functions go to different addresses provided that no part contains a slash, and address requests for different accounts always do. Users expect the first of any names; parts are pasted unescaped, so with a slash two different calls are the same request (finding).", "quantifier": "all addresses, names and base URLs", "why_tests_cant": "all pairs of names", "anchors": ["stacks/src/rpc.rs:read_only", "stacks/src/rpc.rs:address"]}
{"id": "C74", "title": "Which address a transaction spends from", "statement": "A transaction built and signed with an account's key is charged by a node to the account's single-signature address of that network and to no other; in general to the declared signer hash under the version that network and hash mode select. Whoever spends from an account's single-signature address shows the account's key or one with the same HASH-160. Users expect every address from get_address to be spendable by the account. It is not (finding): for the multi-signature versions get_address returns an address from which nothing can be spent, on any network and by anyone, unless HASH-160 collides on the account's key and the script or witness program shown.", "quantifier": "all accounts, networks, versions and transactions", "why_tests_cant": "quantifies over everything anybody could send to a node", "anchors": ["stacks/src/wallet.rs:get_address", "stacks/src/transaction/builder.rs:transaction", "stacks/src/transaction/auth.rs:SpendingConditionStandard"]}
{"id": "C75", "title": "Error messages say what was expected and what was found", "statement": "The text of the error of a failing operation states the values concerned, in the right places: the hex input and its length; the offending character of a C32 or Base58 text; the computed checksum as expected and the one found as received (C32); the unknown address version with the four known ones; the text that is not an address; the expected and the received type identifier; the length and limit of a name or memo; the length of a signature; the expected and the recovered signer in hex; required and found signature counts; the reason a signer refuses; the field and struct of a refused derivation, with the type for a cast. Users expect the same of Base58 checksums; there the two are interchanged and the whole 32-byte hash is shown in place of the checksum (finding). Hash values display as their hex.", "quantifier": "all failing inputs", "why_tests_cant": "texts over all inputs; tests compare error variants on single inputs", "anchors": ["stacks/src/crypto/hex.rs:Error", "stacks/src/crypto/c32.rs:Error", "stacks/src/crypto/b58.rs:Error", "stacks/src/clarity/mod.rs:Error", "stacks/src/crypto/hash.rs:Error", "stacks/src/transaction/mod.rs:Error", "stacks/src/derive.rs:Error"]}
{"id": "C76", "title": "The macros build what they say", "statement": "clarity!(Type, args) compiles exactly for the 17 types with arguments of the documented number and kind (texts may be any displayable value) and is the value of that type with exactly these arguments in order; every Clarity value can be written with nested calls; post_condition! compiles exactly if each parenthesised condition has its documented arguments and gives the list of these conditions in order. Users expect clarity!(Buffer) to be the empty buffer like clarity!(List), clarity!(Tuple) and clarity!(FnArguments); it does not compile (finding).", "quantifier": "all calls", "why_tests_cant": "all calls and nestings; the failing call cannot even be written in a test", "anchors": ["stacks/src/clarity/macro.rs:clarity", "stacks/src/transaction/condition.rs:post_condition"]}
{"id": "C77", "title": "Keys and signatures are those of ECDSA over secp256k1", "statement": "The points of y^2 = x^3 + 7 form a commutative group of prime order in which every point is one multiple of the base point. For every valid private key the public key is that multiple of the base point in compressed form; every signature made is a valid ECDSA signature of the digest under that key, with s at most half the order, and recovers to the key; recovery of (digest, signature) returns a key exactly if the signature is valid for the digest under it with the point that r and the recovery id name. Hence what the other claims assume of the signature scheme and of BIP-32 derivation holds.", "quantifier": "all keys, digests, signatures and points", "why_tests_cant": "256-bit keys and digests; the group law is a statement about all triples of points", "anchors": ["stacks/src/crypto/hash.rs:MessageSignature", "stacks/src/transaction/signer.rs:next_signature", "stacks/src/wallet.rs:private_key"]}
{"id": "C78", "title": "The guarantees hold with nothing assumed about cryptography", "statement": "With ECDSA over secp256k1 and BIP-32 in place of an assumed scheme: account keys belong together; a transfer or a contract call built and signed with an account's key is accepted by a node and posted unchanged; multi-sig transactions signed by the listed keys verify; a single signature that verifies is a valid ECDSA signature, of this very message, under a key that hashes to the signer; two verifying transactions with the same signatures are the same up to named coincidences.", "quantifier": "all accounts, builders, transactions and signatures", "why_tests_cant": "all keys and transactions", "anchors": ["stacks/src/wallet.rs:private_key", "stacks/src/transaction/builder.rs:transaction", "stacks/src/transaction/signer.rs:sign_origin", "stacks/src/transaction/auth.rs:verify"]}
{"id": "C79", "title": "Transaction ids are not fixed by what was signed", "statement": "Users expect the id of a signed transaction to be determined by its content and the signer. It is not (finding): for every signature there is a second one, which anyone can compute, with s replaced by the order minus s and the recovery id flipped, which recovers to the same key; verify accepts a transaction with it, and such a transaction has another id although nothing signed has changed. The library itself never makes the second one.", "quantifier": "all signed transactions", "why_tests_cant": "all signatures; tests never try signatures the library does not make", "anchors": ["stacks/src/transaction/auth.rs:verify", "stacks/src/crypto/hash.rs:into_recov", "stacks/src/transaction/mod.rs:hash"]}
{"id": "C80", "title": "What decoding and encoding cost", "statement": "Counting calls of decode_clarity_type and bytes written to buffers: encoding a value works at most the square of its encoded length, decoding any input at most the cube of its length, and nested calls never exceed the number of bytes. Users expect work proportional to the input and a bounded stack (findings): the decoders re-encode every element to find its end, so for nested lists the work grows with the cube and no factor times the square is enough; every stack size is exhausted by a well-formed input one byte longer than the number of calls that fit; FnArguments::decode and hence ContractCallPayload::decode reserve memory for the declared number of arguments, any number below 2^32, before reading any, from 4 and 28 bytes of input; if decoding succeeds the number is the right one.", "quantifier": "all values and inputs", "why_tests_cant": "asymptotic bounds over all inputs; no test observes memory or depth", "anchors": ["stacks/src/clarity/impl.rs:List::decode", "stacks/src/clarity/impl.rs:Tuple::decode", "stacks/src/clarity/impl.rs:FnArguments::decode", "stacks/src/clarity/mod.rs:decode_clarity_type", "stacks/src/transaction/payload.rs:ContractCallPayload::decode"]}
{"id": "C81", "title": "Which signatures anyone can replace", "statement": "In a multi-signature condition, in a sponsored transaction: users expect a signed transaction to be fixed. It is not quite (findings): the last signature of a condition can be replaced by its twin, whatever the number of signers, and a standard transaction or the sponsor's side of a sponsored one still verifies, with another id; and if a condition holds more signatures than required, the last one can be taken away, leaving its key. Every earlier signature is protected by those after it, and every signature of the origin by the sponsor's: both versions verifying exhibits a SHA-512/256 collision, two digests equal modulo the group order, or two key lists with one address.", "quantifier": "all conditions and signatures, standard and sponsored", "why_tests_cant": "needs other valid signatures and rules out all replacements", "anchors": ["stacks/src/transaction/auth.rs:SpendingConditionMultiSig::verify", "stacks/src/transaction/auth.rs:SpendingConditionStandard::verify", "stacks/src/transaction/auth.rs:verify", "stacks/src/crypto/hash.rs:next_verify"]}
{"id": "C82", "title": "What is sent as JSON says what was asked, and nothing else", "statement": "A JSON text (RFC 8259) stands for at most one value, and what is written for a value stands for that value. So the body of every read-only call, whatever characters the sender text contains, is an object with exactly one sender, the given one, and exactly one list of arguments, the hex of the given values in order: no sender can add or change members. Two calls with the same body bytes have the same sender and the same encoded arguments. The body of a fee request is an object with the payload's hex and the transaction's length.", "quantifier": "all senders, arguments and transactions", "why_tests_cant": "injection into JSON concerns every possible text; tests send harmless ones", "anchors": ["stacks/src/rpc.rs:read_only", "stacks/src/rpc.rs:estimate_fee"]}
{"id": "C83", "title": "Responses can be stored as JSON and read back", "statement": "Every response of info, address, broadcast and read_only, and every fee estimate whose rates are decimal numbers of up to 15 digits (at most 22 behind the point), written with its derived Serialize, is JSON text, and whatever value a reader finds in that text is read by the derived Deserialize as the same response, in the same variant. Estimates with other finite rates come back with the same fees and signs, and rates that differ by no more than a part in 2^49 (or two of the smallest positive numbers). Users expect all finite rates to come back unchanged; they do not, 498.83194054982084 is read back as another number (finding). Estimates with a rate that is infinite or not a number are written with null and cannot be read back at all (finding).", "quantifier": "all responses", "why_tests_cant": "all responses; tests only read literal bodies", "anchors": ["stacks/src/rpc.rs:Serialize", "stacks/src/rpc.rs:Deserialize"]}
{"id": "C84", "title": "Accounts are the BIP-32 children of the phrase and can be watched without it", "statement": "from_secret_key gives a wallet exactly if the text consists of the words of a BIP-39 sentence and the tree has the key; it is then the key that BIP-39 (empty passphrase) and BIP-32 define at m/44'/5757'/0'/0 for those words, and get_account(i) gives exactly its BIP-32 child i, whatever was looked up before, or fails exactly if there is none. For i below 2^31 the account's public key and addresses follow from the wallet's public key and chain code alone (public derivation gives the same points, and exists exactly if the private one does). Conversely, as BIP-32 warns, one such account's private key together with the wallet's public key and chain code gives the wallet's private key.", "quantifier": "all phrases, indices and extended keys", "why_tests_cant": "all keys and indices; the tests check two accounts of one phrase", "anchors": ["stacks/src/wallet.rs:from_secret_key", "stacks/src/wallet.rs:get_account", "stacks/src/wallet.rs:STX_DERIVATION_PATH"]}
{"id": "C85", "title": "Every refusal names the first fault, and only short input panics", "statement": "For each error value there is exactly one situation in which it is returned. An address text is refused because it does not start with S or is too short, is not ASCII, contains a character that is no letter (the last such), has no room for a checksum, has a version that is no letter, or has a checksum that does not match; the error holds the offending text, character or the two checksums. A value, condition, payload or transaction is refused exactly because of the first part, in the order of its encoding, that does not fit (a count of 2^32 or more, a name or memo too long, an ASCII string that is not, a bad address, something watched that is no principal), with that part's error. Bytes are refused by the decoders exactly because of the first fault in reading order: an unknown type, an unknown address version, bytes that are no text, or an element that was read but cannot be written again. What is neither readable nor faulty is too short, and exactly then the decoders panic, by indexing out of bounds. For payloads, as for values, a short one can be completed, what follows a complete one changes nothing, and decoding ends.", "quantifier": "all texts, values, transactions and byte strings", "why_tests_cant": "a complete account of all errors needs all inputs; tests check a few error cases", "anchors": ["stacks/src/crypto/c32.rs:c32_address_decode", "stacks/src/clarity/impl.rs:encode", "stacks/src/clarity/impl.rs:decode", "stacks/src/clarity/mod.rs:decode_clarity_type", "stacks/src/transaction/payload.rs:decode", "stacks/src/transaction/payload.rs:encode", "stacks/src/transaction/condition.rs:encode", "stacks/src/transaction/base.rs:encode"]}
{"id": "C86", "title": "Built without overflow checks, the library does the same except where it would have stopped", "statement": "A release build does exactly what a debug build does wherever the latter does not stop on an arithmetic overflow: address hashes, conditions, verification, signing, Base58Check. Where the debug build stops: the opcodes of a multi-sig script are taken modulo 256, so accounts of any number of keys and any required count exist, their addresses remain unambiguous up to hash collisions, and they can be signed for and verify; verification never panics, and accepts exactly if all signatures recover, their number modulo 256 is at least the required count, and the keys hash to the signer, hence never with too few signatures. For every sequence of signing operations with the guards on and fewer than 65536 signatures to begin with the two builds cannot be told apart. Users expect enough signatures to be accepted and surplus ones to be refused. Not so (findings): 256 good signatures count as none and are refused; with 65536 signatures held, another one is added in spite of the oversign guard. Base58Check texts standing for four bytes or fewer panic in both builds.", "quantifier": "all conditions, signers, keys, operation sequences and texts", "why_tests_cant": "tests run in debug builds, where these cases stop; the agreement is over all inputs", "anchors": ["stacks/src/crypto/c32.rs:hash_p2sh", "stacks/src/crypto/c32.rs:hash_p2wsh", "stacks/src/transaction/auth.rs:SpendingConditionMultiSig::verify", "stacks/src/transaction/auth.rs:signatures", "stacks/src/transaction/signer.rs:sign_origin", "stacks/src/transaction/signer.rs:sign_sponsor", "stacks/src/crypto/b58.rs:base58check_decode"]}
{"id": "C87", "title": "A signature is good for one place of one transaction", "statement": "Every signature is made for a digest that fixes its place: the body of the transaction, the identity of the origin account, the role (origin or sponsor), the fee and nonce of the signing account, and all signatures made before it. If the same digest is to be signed at two places, of one transaction or of two, with any number of signatures before them, they are the same place of the same transaction; hence a signature that counts for a key at one place counts for that key at no other: it cannot be given twice in a multi-sig, nor serve as the origin's and the sponsor's, nor be moved to another transaction or another position. Proved for secp256k1 itself with nothing assumed, up to three named coincidences: a SHA-512/256 collision between two of the strings actually hashed, two digests equal modulo the group order, or a digest that itself reads as the beginning of a transaction (only for calls by multi-sig accounts with exactly 15 bytes of names and arguments, a digest of the right first six bytes and ending in five zero bytes, and a signature beginning with ten zero bytes; excluding these by length alone is not possible). Each signature of a transaction that verifies counts for some key in this sense.", "quantifier": "all transactions, all places, all numbers of signatures, all keys", "why_tests_cant": "replays are over pairs of transactions and positions; tests check a signature where it was made", "anchors": ["stacks/src/transaction/auth.rs:SpendingConditionMultiSig::verify", "stacks/src/transaction/auth.rs:SpendingConditionStandard::verify", "stacks/src/transaction/auth.rs:Auth::verify", "stacks/src/transaction/base.rs:Transaction::initial_hash", "stacks/src/transaction/signer.rs:sign_origin", "stacks/src/transaction/signer.rs:sign_sponsor"]}
{"id": "C88", "title": "Which texts open a wallet, and how the others are refused", "statement": "A text opens a wallet exactly if its words, in whatever way they are separated by blanks and line ends, are the BIP-39 sentence of an entropy of 16, 20, 24, 28 or 32 bytes (and the key tree has no gap, which is the only way to get a BIP-32 error); entropies and sentences correspond one to one, and texts with the same words open the same wallet. Case matters: only lower-case letters and blanks occur in texts that open one. Every other text has exactly one reported fault: no words; a first word that is not in the list (whatever the number of words); a number of words other than 12, 15, 18, 21 or 24; the first word not in the list, by its place; a wrong checksum. The list has 2048 words told apart by their first four letters. The checksum is not proof against slips: any 11, 14, 17, 20 or 23 words of the list are completed by exactly 128, 64, 32, 16 or 8 last words, so every sentence has neighbours that open another entropy's wallet without complaint.", "quantifier": "all texts, entropies and word lists", "why_tests_cant": "the set of texts is infinite and the claim is an equivalence; the tests use one phrase, separated by single spaces", "anchors": ["stacks/src/wallet.rs:from_secret_key", "stacks/src/wallet.rs:Error"]}
{"id": "C89", "title": "Exactly these calls can abort the program", "statement": "Of all calls of the interface, with any arguments its types allow, exactly the following abort, and all others return a value or an error: c32check_encode with a version of 32 or more; c32check_decode of an empty text; Address::from_str, and the contract-call builder, for a correct address whose payload is not 20 bytes; Base58 decoding of a text whose first foreign character is above U+00FF, and Base58Check of a text standing for four bytes or fewer; hash_p2sh and hash_p2wsh, a multi-signature condition and its verification, for keys or a threshold that do not fit a script; verification that reaches the 256th signature; Hash160::new and MessageSignature::new with the wrong number of bytes; decoding a Clarity value or payload from input that ends before a whole value or a fault; decoding conditions, authorisations and transactions, always; a spending condition with a hash mode of the other kind; signing a condition that already holds 65536 signatures; building a sponsored transaction. Users expect none (finding); no call runs forever.", "quantifier": "all calls with all arguments, signature schemes, key trees and node answers", "why_tests_cant": "a claim about every input of seventy functions, most of which is that nothing happens; the tests call each with a handful of good values", "anchors": ["stacks/src/crypto/c32.rs:c32check_encode", "stacks/src/crypto/c32.rs:c32check_decode", "stacks/src/crypto/c32.rs:Address", "stacks/src/crypto/b58.rs:b58_decode", "stacks/src/crypto/b58.rs:base58check_decode", "stacks/src/crypto/hash.rs:new", "stacks/src/clarity/impl.rs:decode", "stacks/src/transaction/auth.rs:verify", "stacks/src/transaction/auth.rs:new", "stacks/src/transaction/signer.rs:sign_origin", "stacks/src/transaction/signer.rs:new_sponser", "stacks/src/transaction/builder.rs:transaction", "stacks/src/transaction/condition.rs:decode", "stacks/src/transaction/base.rs:decode", "stacks/src/wallet.rs:StacksWallet", "stacks/src/rpc.rs:StacksRPC"]}
{"id": "C90", "title": "Post-conditions do what their names say", "statement": "A node lets a run of a contract call stand exactly if every listed condition, read by the library's names, is true of what left the named account: EQ, GT, GTE, LT, LTE of the total of the asset sent against the amount, Has of a token not sent and HasNot of a token sent; and, in mode Deny, every movement is of an account and asset (and token) some condition is about. The order of conditions and of movements does not matter; a limit holds in either mode; in mode Deny an account no condition mentions loses nothing; without conditions Deny lets only a run stand that moves nothing, and Allow, the builders' default, every run. This holds of the bytes of every transaction in range, and of what is built and signed. Users expect Allow to turn conditions off, as its documentation says; it does not (finding). A code of the wrong kind, or any condition on a transfer, is accepted by the library and leaves no run that stands (findings); in mode Deny a further condition can let more runs stand (finding).", "quantifier": "all transactions in range and all lists of movements", "why_tests_cant": "what conditions do shows only when a node runs a contract; the tests compare bytes", "anchors": ["stacks/src/transaction/condition.rs:ConditionCode", "stacks/src/transaction/condition.rs:PostConditionMode", "stacks/src/transaction/condition.rs:encode", "stacks/src/transaction/builder.rs:STXTokenTransfer", "stacks/src/transaction/builder.rs:STXContractCall"]}
{"id": "C91", "title": "What a client returns is determined by the bytes the node sends", "statement": "If the body is a JSON text (RFC 8259), info, address, read_only, estimate_fee (success) and broadcast (rejection) return Ok exactly if its value has the fields of the response, each once and in range, and then return those fields, otherwise an I/O error; read_only also requires that nothing is nested deeper than 127 and that no number is too large for a floating-point number. The writing is irrelevant: blanks, escapes, the order of members, members of other names. A body cut short, or with anything but blanks behind it, is never taken for the whole. A body that is not JSON is accepted exactly if it differs from JSON only inside strings, or keys, of members and items that are not looked at. Users expect that no other text is accepted and that members nobody looks at do no harm; not so (findings): address accepts a body with stray bytes and half surrogates in an unknown member, and read_only refuses a good result next to a deeply nested value or a number such as 1e309. broadcast (success) and estimate_fee (error status) return the text of a body of at most 10 MiB, where only what is not UTF-8 is replaced by U+FFFD; longer bodies are an I/O error.", "quantifier": "all bodies, that is all byte strings, all statuses and transport failures", "why_tests_cant": "bodies come from a remote node, in any form or cut anywhere; tests need a node and see only its usual answers", "anchors": ["stacks/src/rpc.rs:info", "stacks/src/rpc.rs:address", "stacks/src/rpc.rs:estimate_fee", "stacks/src/rpc.rs:broadcast", "stacks/src/rpc.rs:read_only"]}
{"id": "C92", "title": "Fee rates are read as doubles to within one part in 2^50", "statement": "Every rate estimate_fee returns is a double, never infinite or NaN, with the sign of the number in the body, and differs from that number by no more than one part in 2^50 or one smallest positive number. Integers, and numbers whose digits are at most 2^53 with a power of ten between -22 and 22, are read as the closest double (ties to even). Numbers that exceed the largest double by more than one part in 2^50 are refused, numbers that fall short of 2^1024 by that much are not. Users expect the closest double for every number; not so (finding): 498.83194054982084 is read as its neighbour.", "quantifier": "all number texts and all bodies", "why_tests_cant": "all numbers; tests read a handful, and errors in the last place only show for some", "anchors": ["stacks/src/rpc.rs:FeeEstimate", "stacks/src/rpc.rs:estimate_fee"]}
{"id": "C93", "title": "Fee rates are written with the fewest digits, and different ones differently", "statement": "A finite rate is written as a JSON number with the fewest digits by which it is told from all other doubles, and of the numbers with so few digits the closest to it; so different finite rates (positive and negative zero included) are never written alike. Infinite rates and NaN are written as null.", "quantifier": "all doubles", "why_tests_cant": "all doubles; tests can only try some", "anchors": ["stacks/src/rpc.rs:FeeEstimate", "stacks/src/rpc.rs:Serialize"]}
{"id": "C94", "title": "Builder setters: any order, none twice, none missing", "statement": "A chain of setters of the transfer or contract-call builder compiles exactly if no setter is called twice and none of the fields without a default is left out (recipient, amount, sender, network; for calls address, contract, fn_name, fn_args, sender, network). Every field then has the value given for it, or else its default (fee 0, nonce 0, anchor mode Any, no memo, mode Allow, no conditions, not sponsored), in whatever order the setters were called, and the transaction built is the unsigned one with exactly these values; if sponsored(true) was called, and only then, transaction() panics (for calls: given an address of 20 bytes).", "quantifier": "all chains of setters with all values", "why_tests_cant": "whether a chain compiles is not something a test can observe, and there are all orders and subsets of twelve setters", "anchors": ["stacks/src/transaction/builder.rs:STXTokenTransfer", "stacks/src/transaction/builder.rs:STXContractCall", "stacks/src/transaction/builder.rs:transaction"]}
{"id": "C95", "title": "Types of the user's own are carried, signed and posted byte for byte", "statement": "A user may implement Clarity, Payload, Condition or Network for types of their own and put them into lists, tuples, options, responses, argument lists, transfers, contract calls, transactions and builders. The bytes such a type's encode() returns stand in the encoding exactly as they are, between the library's own; if one returns an error or panics, encoding ends with the first such result in order. Transaction::encode, the hash that is signed, signing (single, multi-signature, sponsored), verification, builders, broadcast, fee estimate and read-only calls do with these transactions what they do with the library's own: a planned set of signatures verifies, no signing operation changes conditions, payload or terms, set_fee and set_nonce change the origin's fee and nonce and nothing else, signatures of the origin or of the sponsor cannot be moved to a transaction with other bytes, and what is posted is these bytes. A condition refuses an address of a user-defined type, whatever its bytes (BadDowncast). Findings: since only the concatenation is hashed, two transactions with user-defined conditions can have the same bytes and hash though conditions and payload differ; this cannot happen if no condition's bytes are the beginning of another's, as holds for the library's.", "quantifier": "all values, transactions and histories with user-defined parts, whatever bytes, error or panic each yields", "why_tests_cant": "the types do not exist when the library's tests are written, and there are unboundedly many", "anchors": ["stacks/src/clarity/mod.rs:Clarity", "stacks/src/transaction/payload.rs:Payload", "stacks/src/transaction/condition.rs:Condition", "stacks/src/transaction/condition.rs:PostConditions", "stacks/src/transaction/network.rs:Network", "stacks/src/transaction/base.rs:encode", "stacks/src/transaction/signer.rs:TransactionSigner", "stacks/src/rpc.rs:StacksRPC::broadcast"]}
{"id": "C96", "title": "Spending conditions of the user's own are called as documented and signed correctly", "statement": "A user may implement SpendingCondition for types of their own, as origin or sponsor, alone or next to the library's. What their encode() returns stands in the transaction as it is, after the type of authorization; if it fails the transaction's encode fails alike. The hash that is signed is over what the origin writes after reset(), with 103 zeros for any sponsor. A signer hands over each signature by one modify(): SetSignature or AddSignature by mode(), a signature by the given key over the current hash, the type (4 origin, 5 sponsor), fee() and nonce(), and only while signatures() is less than req_signatures(); keys by AddPublicKey in the multi-signature modes; it calls no other modification, changes nothing else in the transaction, and leaves the origin alone once the sponsor has signed (with the signer's two checks on, as they are by default). A refused call leaves the hash as it was. verify() is called with the hash that was signed, and the sponsor's with the origin's answer. So if reset() hides signatures and verify() follows the chain of hashes, all that is signed verifies. Findings: Auth::verify of a transaction without sponsor does not ask the condition at all; a condition whose reset() keeps the signature can sign without error what does not verify.", "quantifier": "all conditions, that is all states and methods (failing or panicking ones included), all transactions and histories", "why_tests_cant": "the types do not exist when the library's tests are written, and there are unboundedly many", "anchors": ["stacks/src/transaction/auth.rs:SpendingCondition", "stacks/src/transaction/auth.rs:Auth", "stacks/src/transaction/auth.rs:Modification", "stacks/src/transaction/base.rs:sign_and_append", "stacks/src/transaction/base.rs:initial_hash", "stacks/src/transaction/signer.rs:TransactionSigner"]}
{"id": "C97", "title": "What is equal, and what comes first", "statement": "Hashes and signatures are ordered by their bytes, which is the order of their hexadecimal texts and of the numbers they write; modes, address and transaction versions, chain ids, anchor modes, condition codes, post-condition modes and Bitcoin address versions by the numbers sent. Modifications are ordered by kind (set key, set signature, add key, add signature), then bytes; networks of one type are equal. Spending conditions, and the responses of info, address, broadcast and read_only, are totally ordered, equal only if all their fields are, and the first field that differs decides, in the order of declaration (conditions: mode, fee, nonce, signer, then signature or fields and required number, a key before a signature; of responses a success before a failure). Conditions are equal exactly if they encode alike, but their order is not that of their encodings. Fee estimates are equal exactly if they state the same numbers, are ordered by fee, then rate, lists like words in a dictionary, estimates before errors, and are always comparable unless a rate is NaN, which no client returns; equal ones may differ in the sign of a zero (finding). Accounts are equal exactly if key and index are; accounts looked up in one wallet only at the same index. Wallets are equal exactly if they have the same root key and hold the same accounts, so a look-up, which users expect not to matter, makes a wallet unequal to what it was, although both answer all later calls alike (finding).", "quantifier": "all values of these types, all wallet histories", "why_tests_cant": "order laws quantify over all pairs and triples; tests compare nothing but equal literals", "anchors": ["stacks/src/crypto/hash.rs:impl_hash_byte_array", "stacks/src/transaction/auth.rs:SpendingConditionStandard", "stacks/src/transaction/auth.rs:SpendingConditionMultiSig", "stacks/src/transaction/auth.rs:AuthField", "stacks/src/transaction/auth.rs:Modification", "stacks/src/crypto/c32.rs:Version", "stacks/src/rpc.rs:FeeEstimate", "stacks/src/rpc.rs:NodeInfoResponse", "stacks/src/wallet.rs:StacksAccount", "stacks/src/wallet.rs:StacksWallet"]}
{"id": "C98", "title": "Each call is one request, and what a broadcast leaves behind", "statement": "Whatever a node remembers and answers, a run of calls on clients sends it exactly the documented request of each call, once, in the order of the calls, and nothing for calls whose values do not fit the wire format; which requests are sent never depends on earlier answers, and the results are those of C51 for the node's state at that moment. So a node's pool holds, in order and once per call, every transaction whose broadcast returned an id and none whose broadcast was refused (by the node or before sending). Users expect an error from broadcast to mean that the transaction was not taken; it does not (finding): if the exchange breaks off, or the body of the success response cannot be read, broadcast returns an error although the node has the transaction.", "quantifier": "all nodes with any state, all runs of calls on any clients", "why_tests_cant": "nodes and histories are unbounded; a test sees one server's answers to one call", "anchors": ["stacks/src/rpc.rs:StacksRPC::broadcast", "stacks/src/rpc.rs:StacksRPC::estimate_fee", "stacks/src/rpc.rs:StacksRPC::read_only", "stacks/src/rpc.rs:StacksRPC::info", "stacks/src/rpc.rs:StacksRPC::address"]}
{"id": "C99", "title": "A struct filled from a contract's answer says what the answer says", "statement": "When a node answers read_only with the hex of a tuple, then after dropping '0x' the text decodes to a tuple from which a derived struct is filled, with given field values, exactly when those values are what the tuple on the wire holds under the fields' keys: integers, unsigned integers, booleans and bytes as they are, responses unwrapped, options unwrapped, strings as the text Clarity writes for the value with canonical addresses, nested structs from nested tuples. The order of the entries and entries no field names make no difference; a tuple given to a contract that returns it fills, or is refused for, every struct exactly as before; and fields of integers, responses with integers, booleans and bytes tell the value on the wire. Findings: an absent optional integer may have been a value of any other type, even the other kind of integer; a string field holds a Clarity string in its quotation marks.", "quantifier": "all nodes, questions, answered tuples of distinct keys and any nesting, and struct types", "why_tests_cant": "tuples, nesting and struct types are unbounded, and the path crosses JSON, hex, the decoder and the macro, which tests only exercise separately", "anchors": ["stacks_derive/src/from_tuple.rs:__impl", "stacks/src/clarity/impl.rs:Tuple", "stacks/src/rpc.rs:StacksRPC::read_only"]}
{"id": "C100", "title": "Money moves as the builder says, once, and only with the owner's signature", "statement": "On a ledger of balances and nonces after SIP-005: a transfer built and signed with a key is taken exactly when its nonce is the account's next and the account has amount and fee; then exactly these leave it, exactly the amount arrives, the next nonce is one higher and nothing else changes (if sponsored, the sponsor pays the fee of its own condition and both use a nonce). Transfers with consecutive nonces are all taken in order if there is money for all, and the sums are those of the builders. No transaction is ever taken twice, nor two in which the same account acts with the same nonce, however they are signed. A condition 'at most k' caps what a call takes from an account at k plus the fee; in mode Deny an account no condition names loses at most the fee, whatever the contract does. An account of a key loses money, or its nonce moves on, only through a transaction with a signature of that key (or one with the same hash) over it. Whatever others send meanwhile, an account all of whose transactions are outcomes of given transfers loses no more than what those of them say that were taken, which have consecutive nonces; transfers retried with the same nonce are paid at most once. Users expect that a call without conditions costs the fee, that what is built and signed can be taken, and that a retry does not pay twice; none holds (findings): in the builders' default mode such a call may take all the account has, and transfers of nothing or to oneself are signed but never taken, and a retry with the next nonce pays again.", "quantifier": "all ledgers, transactions, runs of contracts and histories of transactions", "why_tests_cant": "ledgers, histories and what contracts do are unbounded; a test settles one transfer on one chain", "anchors": ["stacks/src/transaction/builder.rs:STXTokenTransfer::transaction", "stacks/src/transaction/builder.rs:STXContractCall::transaction", "stacks/src/transaction/signer.rs:TransactionSigner::sign_origin", "stacks/src/transaction/base.rs:Transaction::encode"]}
{"id": "C101", "title": "A program that pays through a node moves exactly the draft's amount, or nothing", "statement": "For a program that takes an account, asks a node (keeping a ledger as in C100, reporting its nonces truthfully) for the account's nonce, builds a transfer with it, signs it and broadcasts it: if the broadcast returns an id, exactly amount and fee have left the account and exactly the amount has reached the recipient, and nothing else has changed; if it returns the node's refusal, nothing has changed; if the call fails, one or the other. With a node that answers and enough money it returns an id. For a draft of nothing, to oneself or without the money nothing changes and no id is returned. Broadcasting the same signed transaction any number of times among any other calls pays at most once. Users expect that running the program again after a failed call pays at most once; that does not hold (finding): the nonce is asked for anew, and both may be paid.", "quantifier": "all accounts, drafts, nodes with their states and answers, and series of calls", "why_tests_cant": "nodes, ledgers and series of calls are unbounded; a test sees one mock answer", "anchors": ["stacks/src/wallet.rs:StacksAccount::get_address", "stacks/src/rpc.rs:StacksRPC::address", "stacks/src/transaction/builder.rs:STXTokenTransfer::transaction", "stacks/src/transaction/base.rs:Transaction::sign", "stacks/src/rpc.rs:StacksRPC::broadcast"]}
{"id": "C102", "title": "A shared account spends only with the required number of its owners, and then exactly", "statement": "On the ledger of C100: an account of a list of keys and a threshold m, as computed by the multi-signature condition, loses money or uses a nonce only through a transaction in which exactly m of these keys have signatures over this very transaction, each over the ones before it, with the other keys listed, all in the owners' order - as its origin or its sponsor - unless someone opens the hash in the address with another text (a collision of RIPEMD-160 over SHA-256, or of SHA-256, with the account's own script). Conversely, with 1 to 16 keys, when the owners in their order sign or list their keys and m sign, every step succeeds and the transfer is taken exactly when its nonce is next and the account has amount and fee; exactly these leave it and exactly the amount arrives. Users expect money sent to an address the library computes to be spendable by its owners; for a threshold of zero or above 16, or for more than 16 keys or none, it never is, short of such a collision (finding). They also expect m signatures to mean m owners; the library makes accounts in which a key is listed m times, and this key spends alone (finding).", "quantifier": "all key lists, thresholds, hash modes, ledgers, transactions and orders of signing", "why_tests_cant": "no test has a chain, and a test signs with one set of keys; forgeries and the absence of ways to spend are universal claims", "anchors": ["stacks/src/transaction/auth.rs:SpendingConditionMultiSig::new", "stacks/src/transaction/signer.rs:TransactionSigner::sign_origin", "stacks/src/transaction/signer.rs:TransactionSigner::append_origin", "stacks/src/crypto/c32.rs:hash_p2sh", "stacks/src/crypto/c32.rs:hash_p2wsh"]}
{"id": "C103", "title": "Calling a contract through a node costs at most what the draft allows, and one fee", "statement": "For a program that takes an account, asks a node (keeping a ledger as in C100, reporting its nonces truthfully) for the account's nonce, builds a contract call with it, signs it and broadcasts it, whatever the contract does: if the broadcast returns an id, the account has used one nonce and had the fee, and nobody has lost more than the draft's limits (and, for the caller, the fee): at most k for each condition 'exactly, less than or at most k' on an account's STX; nothing for an account no STX condition names in mode Deny; nothing ever for other people's accounts. If it returns the node's refusal nothing has changed; if the call fails, one or the other. With a node that answers and the fee in the account it returns an id; without the fee nothing changes and no id is returned. Users expect an id to mean that the call has done something; for every draft there are nodes, answering like any other, that return an id and keep just the fee (finding).", "quantifier": "all accounts, drafts, contracts, nodes with their states and answers", "why_tests_cant": "what contracts and nodes do is unbounded; a test sees one mock answer and no ledger", "anchors": ["stacks/src/wallet.rs:StacksAccount::get_address", "stacks/src/rpc.rs:StacksRPC::address", "stacks/src/transaction/builder.rs:STXContractCall::transaction", "stacks/src/transaction/condition.rs:STXPostCondition", "stacks/src/transaction/base.rs:Transaction::sign", "stacks/src/rpc.rs:StacksRPC::broadcast"]}
{"id": "C104", "title": "An origin can leave the fee to any sponsor, and each risks only its own part", "statement": "On the ledger of C100: once an origin has signed a sponsored transfer without conditions, whoever sponsors it with TransactionSigner::new_sponser and signs, every step succeeds and the result is taken exactly when both nonces are next, the sponsor has the fee of its own condition and the origin the amount; exactly the amount leaves the origin and reaches the recipient, exactly that fee leaves the sponsor, each uses one nonce and nothing else changes; the fee in the origin's condition (the one set_fee sets) is charged to nobody. Whatever a sponsored transaction does and whatever contract it calls, a sponsor that is not the origin loses at most its fee, and an origin that is not the sponsor pays no fee: it loses exactly the amount of a transfer, at most k under a condition 'at most k', nothing in mode Deny if no condition names it. Of all the transactions made of one origin's account and nonce, with whatever sponsors, at most one is ever taken.", "quantifier": "all transactions, origins, sponsors, contracts, ledgers and histories", "why_tests_cant": "sponsors, contracts and histories are unbounded; the crate's tests have neither a ledger nor a second sponsor", "anchors": ["stacks/src/transaction/signer.rs:TransactionSigner::new_sponser", "stacks/src/transaction/signer.rs:TransactionSigner::sign_sponsor", "stacks/src/transaction/signer.rs:TransactionSigner::sign_origin", "stacks/src/transaction/base.rs:Transaction::set_fee", "stacks/src/transaction/auth.rs:Auth"]}
{"id": "C105", "title": "A program that lets a node name the fee pays exactly the amount and the fee it picked", "statement": "On the ledger of C100, a program takes an account of a wallet, asks a node for its nonce, builds a transfer, asks estimate_fee what it should cost, picks one of the fees in the answer, calls set_fee with it, signs and broadcasts. The node is asked once about the nonce, once about a payload and length that are exactly those of the bytes broadcast, and once to take them; the fee in those bytes is the one picked, whatever fee the builder was given. If the node keeps its ledger and reports its nonces, success means exactly the amount has reached the recipient and exactly the amount and that fee have left the account; a rejection means nothing has changed, and an answer that is lost or unreadable one or the other. With a node that answers, the whole succeeds for every account that has the amount (not zero, and not to itself) and the fee. Nothing but the balance limits the fee: for every fee below 2^64 there are such nodes that quote it and get it (finding). Another fee or nonce set after signing with a single key makes the transaction worthless to every node and ledger, unless one signature is good for both.", "quantifier": "all accounts, drafts, fees, nodes with any state, ledgers", "why_tests_cant": "nodes and their answers are unbounded and the crate's tests have none with a ledger; that a late fee is refused everywhere quantifies over ledgers", "anchors": ["stacks/src/rpc.rs:StacksRPC::estimate_fee", "stacks/src/rpc.rs:StacksRPC::address", "stacks/src/rpc.rs:StacksRPC::broadcast", "stacks/src/transaction/base.rs:Transaction::set_fee", "stacks/src/transaction/base.rs:Transaction::sign", "stacks/src/transaction/builder.rs:STXTokenTransfer::transaction", "stacks/src/wallet.rs:StacksAccount::get_address"]}
{"id": "C106", "title": "Payments made while others are pending: one nonce pays once, a queue pays a prefix", "statement": "Nodes may answer first and move their ledger later, and report the nonces of the ledger. If the program of C101 runs twice before the account's nonce has moved, whatever the two drafts and whatever the node answers, the two transactions it sends are never both taken by any ledger, and in any history in which the account does nothing else they cost at most as much as the dearer one and use at most one nonce; with the same draft they are the same bytes, so running it again at once pays once. Users expect two ids to mean two payments; that does not hold (finding): for any two drafts the account can pay, there is a node that reports truthfully, gives ids only to what its ledger can take, and gives one to each. A program that asks for the nonce once and sends any number of drafts with nonces counted up from it sends each once and in order; in any history in which the account does nothing else, those taken are exactly the first j for some j, the account has used j nonces and lost at most what these j say; and all can be taken in order if there is money for all, moving exactly the sums of the drafts.", "quantifier": "all accounts, drafts, queues of any length, nodes with their states and answers, ledgers and histories", "why_tests_cant": "nodes, queues and histories are unbounded; the crate's tests have no ledger and send nothing twice", "anchors": ["stacks/src/rpc.rs:StacksRPC::address", "stacks/src/rpc.rs:StacksRPC::broadcast", "stacks/src/transaction/base.rs:Transaction::sign", "stacks/src/transaction/builder.rs:STXTokenTransfer::transaction", "stacks/src/wallet.rs:StacksAccount::get_address"]}
{"id": "C107", "title": "Money sent to an account's address arrives there and can be spent by that account", "statement": "When the program of C101 sends an amount to the address that get_address gives for one key on the network (P2PKH version) and a sound bank answers with an id, then the recipient's account holds exactly that amount more, at the same nonce, and the recipient can send it on: running the same program as the recipient, with any draft it can afford, succeeds and moves its money exactly. Paying changes the balance and nonce of no other account of the library than payer and recipient, unless its public key is theirs or has the same HASH-160. What is sent to the address get_address gives for several keys (P2SH version) also arrives, and the payer is charged for it, but no transaction that any ledger ever takes spends it or uses its nonce, unless the transaction exhibits a preimage of the same HASH-160 different from the key.", "quantifier": "all correct key-derivation and ECDSA implementations, networks, nodes, ledgers, payers, recipients, drafts and states", "why_tests_cant": "Whether money at an address can be spent depends on every transaction any network participant may ever form, and on the agreement of address text, recipient encoding, signer hash and ledger; a unit test compares one address with one literal.", "anchors": ["stacks/src/wallet.rs:StacksAccount::get_address", "stacks/src/transaction/builder.rs:STXTokenTransfer::transaction", "stacks/src/rpc.rs:StacksRPC::address", "stacks/src/rpc.rs:StacksRPC::broadcast", "stacks/src/transaction/base.rs:Transaction::sign"]}
{"id": "C108", "title": "One wallet on several networks: what the main network and the others have in common", "statement": "A payment that the program of C101 drafts for the main network is never taken by a node of the test network or a local network, nor the other way round: the program gets no id and no money moves, whatever the node reports. An account's principal on the main network is none of the library's accounts on the others. Between the test network and a local network (mocknet) there is no such separation: when the program has paid on one, the same bytes are taken on the other by any ledger where the account has the same nonce and enough money, and move the same amount there. Recipients are not checked against the network: sent to an address that get_address gives for the other kind of network, the amount arrives and the sender is charged, and no later history of that network's ledger ever takes anything from it or uses its nonce.", "quantifier": "all correct key-derivation and ECDSA implementations, networks, nodes, ledgers, accounts, drafts, states and later histories", "why_tests_cant": "Replay and stranding are statements about every node, ledger and later history of two networks; unit tests compare the version bytes of a few built transactions.", "anchors": ["stacks/src/wallet.rs:StacksAccount::get_address", "stacks/src/transaction/builder.rs:STXTokenTransfer::transaction", "stacks/src/rpc.rs:StacksRPC::address", "stacks/src/rpc.rs:StacksRPC::broadcast", "stacks/src/transaction/network.rs:impl_network_type"]}
{"id": "C109", "title": "Secret keys leave the library only as public keys and signatures", "statement": "Take any program that uses the library with accounts whose secret keys it does not read itself: it may ask for addresses and public keys, build, sign as origin or sponsor, verify, talk to any node, and decide each step by everything it has learnt. Replace the secret keys and the implementations of ECDSA and BIP-32 by others with the same public keys that give the same signatures of what SIP-005 lets keys sign. Then every run is the same: every node ends in the same state, so it has received the same requests, and the program ends with the same result, errors included. Signing a transaction uses the key for one signature, of the hash of the cleared transaction's hash with the origin's type byte, fee and nonce; nothing else about the key enters the signed transaction.", "quantifier": "all programs, nodes, node states, ECDSA and BIP-32 implementations, accounts and transactions", "why_tests_cant": "Absence of a leak is a statement about all programs and all pairs of runs; no finite number of runs shows that outputs do not depend on the key in another way.", "anchors": ["stacks/src/crypto/hash.rs:SignatureHash::next_signature", "stacks/src/transaction/signer.rs:TransactionSigner::sign_origin", "stacks/src/transaction/signer.rs:TransactionSigner::sign_sponsor", "stacks/src/transaction/base.rs:Transaction::sign", "stacks/src/transaction/builder.rs:STXTokenTransfer::transaction", "stacks/src/transaction/builder.rs:STXContractCall::transaction", "stacks/src/rpc.rs:StacksRPC::broadcast"]}
{"id": "C110", "title": "An account loses no more than its key has signed for, if nobody forges signatures", "statement": "Take any history of a network's ledger, with transactions by anyone. Suppose that every signature by a key among them is of a message the key signed when the library built and signed one of some transfers. Then the key's account has lost no more than amounts and fees of those transfers, each counted at most once for its nonce, and has used one nonce for each, unless the history exhibits a second key with the same HASH-160, or two different texts with the same SHA-512/256, of which one was hashed for one of the transfers. In particular an account whose key has signed nothing only gains. The supposition holds of any history in which the account's transactions are the transfers as sent, however often they were sent on and whatever was done to their signatures.", "quantifier": "all ECDSA implementations with the documented behaviour, networks, keys, lists of transfers, ledgers and histories of any length", "why_tests_cant": "It excludes every transaction an attacker could form from what was signed (other payload, fee, nonce, role, network, or another signature), in every order and number; tests can only try a few.", "anchors": ["stacks/src/transaction/builder.rs:STXTokenTransfer::transaction", "stacks/src/transaction/base.rs:Transaction::sign", "stacks/src/crypto/hash.rs:SignatureHash::next_signature", "stacks/src/transaction/base.rs:Transaction::initial_hash"]}
{"id": "C111", "title": "An account that transfers and calls contracts loses no more than what its key signed allows", "statement": "As C110, for keys that sign transfers and contract calls in any mixture. If every signature by the key in a history is of the message for one of these orders, and each call's conditions let the contract take no more than some limit from the caller (a condition 'exactly, less than or at most k' on the caller's STX, or silence about it in mode Deny), then whatever the contracts called do and whatever others send, the account has used one nonce for each order taken and lost no more than their amounts or limits and their fees, each order once for its nonce, or a coincidence of hashes is exhibited as in C110. And whatever is done to the signature of an order, a ledger that takes the result could have gone the same way with the order itself.", "quantifier": "all ECDSA implementations with the documented behaviour, networks, keys, lists of orders, runs of contracts, ledgers and histories of any length", "why_tests_cant": "Histories, contracts and what an attacker may form are unbounded; the crate's tests have neither ledger nor contract.", "anchors": ["stacks/src/transaction/builder.rs:STXTokenTransfer::transaction", "stacks/src/transaction/builder.rs:STXContractCall::transaction", "stacks/src/transaction/condition.rs:STXPostCondition", "stacks/src/transaction/base.rs:Transaction::sign", "stacks/src/crypto/hash.rs:SignatureHash::next_signature"]}
{"id": "C112", "title": "A key that only sponsors risks only the fees it signed for", "statement": "Take any history of a network's ledger, with transactions by anyone. Suppose that every signature by a key among them is of a message the key signed with sign_sponsor after new_sponser, for one of some sponsored transactions and conditions. Then, whatever these transactions do and whatever contracts they call, the key's account has lost no more than the fees in those conditions, each counted at most once for its nonce, and has used one nonce for each, unless the history exhibits a second key with the same HASH-160, or two different texts with the same SHA-512/256, of which one was hashed for one of the sponsorships. So a sponsor's signature can never be used to spend as an origin. Signing as sponsor uses the key for one signature only, of the hash that the origin left with the sponsor's type byte, fee and nonce. The supposition holds of any history of transactions sponsored through the library in which the key has not signed as origin.", "quantifier": "all ECDSA implementations, networks, keys, sponsored transactions and conditions, contracts, ledgers and histories of any length", "why_tests_cant": "Histories, contracts and what others may form from a sponsor's signature are unbounded; the crate's tests sponsor one transaction and have no ledger.", "anchors": ["stacks/src/transaction/signer.rs:TransactionSigner::new_sponser", "stacks/src/transaction/signer.rs:TransactionSigner::sign_sponsor", "stacks/src/crypto/hash.rs:SignatureHash::next_signature", "stacks/src/transaction/auth.rs:Auth"]}
{"id": "C113", "title": "A key that signs as origin risks no more than what each signed transaction may take", "statement": "As C110 and C111, for any transactions that fit the wire: made by the builders or by hand, standard or sponsored, with the account as origin or not. If every signature by a key in a history is of the message it signs, with Transaction::sign, for one of these transactions, its account has lost no more than they may take from their origin - the amount of a transfer, the limit a condition sets or nothing in mode Deny without such a condition for a call, and the fee if the transaction is not sponsored - each at most once for its nonce, whoever sponsors them and whatever contracts do, unless the history exhibits a second key with the same HASH-160 or two different texts with the same SHA-512/256, one of them hashed for one of the transactions. An origin's signature can never be used to make the account a sponsor. The supposition holds of any history of these transactions, whatever was done to their signatures and whoever sponsored them, in which the key has not signed as sponsor.", "quantifier": "all ECDSA implementations, networks, keys, transactions, sponsors, contracts, ledgers and histories of any length", "why_tests_cant": "It excludes everything an attacker could form from what was signed, in every order and number, over all transactions; tests can only try a few.", "anchors": ["stacks/src/transaction/base.rs:Transaction::sign", "stacks/src/transaction/signer.rs:TransactionSigner::sign_origin", "stacks/src/transaction/base.rs:Transaction::initial_hash", "stacks/src/crypto/hash.rs:SignatureHash::next_signature", "stacks/src/transaction/condition.rs:STXPostCondition", "stacks/src/transaction/auth.rs:Auth"]}
{"id": "C114", "title": "A program's run uses no signatures but those it asks for, so a node that lies costs a payer at most one payment", "statement": "Take any program that uses the library with keys it cannot look into (as in C109), any node and any run. The run asks accounts for certain signatures: to sign transactions as origin, or to sign a hash with the kind of signature, fee and nonce. In every other world with the same public keys, in which accounts sign alike the messages asked for and anything else differently or not at all, the run is the same and asks for the same. So if all that the run asks of an account is to sign certain transactions, then in every history of a ledger where the account's key has signed nothing else, the account loses no more than those take from it, each at most once for its nonce, unless a coincidence of hashes is exhibited as in C113. The program of C101 asks its account for at most one signature whatever the node answers, truthful or not, and so loses at most one amount and one fee, and uses at most one nonce.", "quantifier": "all programs, nodes with any state and answers, worlds, accounts, ledgers and histories", "why_tests_cant": "Programs, answers of nodes and later histories are unbounded; that no further signature is used compares all pairs of runs.", "anchors": ["stacks/src/transaction/base.rs:Transaction::sign", "stacks/src/transaction/signer.rs:TransactionSigner::sign_origin", "stacks/src/transaction/signer.rs:TransactionSigner::sign_sponsor", "stacks/src/crypto/hash.rs:SignatureHash::next_signature", "stacks/src/rpc.rs:StacksRPC::address", "stacks/src/rpc.rs:StacksRPC::broadcast", "stacks/src/transaction/builder.rs:STXTokenTransfer::transaction"]}
{"id": "C115", "title": "A payer that keeps a budget loses no more than it, whatever nodes tell it", "statement": "A payer runs the program of C101 for one draft after another, to nodes at any URLs; which draft comes next, and whether one does, may depend on all it has heard, so it may retry or give up. If no course of answers lets the amounts and fees of its drafts exceed a budget, then whatever the nodes answer - false nonces, rejections of what they will take later, ids for what they drop, or nothing - it asks its account only to sign transfers that take no more than the budget in all, and in every later history of a ledger in which the key has signed nothing else, the account loses no more than the budget and uses no more nonces than signatures asked for, unless a coincidence of hashes is exhibited as in C113.", "quantifier": "all budgets, adaptive payers of any length, nodes with any state and answers, ECDSA and BIP-32 implementations, ledgers and histories", "why_tests_cant": "Payers, answers and histories are unbounded and adversarial; the crate's tests have no ledger and no node that lies.", "anchors": ["stacks/src/rpc.rs:StacksRPC::address", "stacks/src/rpc.rs:StacksRPC::broadcast", "stacks/src/transaction/builder.rs:STXTokenTransfer::transaction", "stacks/src/transaction/base.rs:Transaction::sign", "stacks/src/crypto/hash.rs:SignatureHash::next_signature", "stacks/src/wallet.rs:StacksAccount::get_address"]}
