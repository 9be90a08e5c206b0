{
 "claims": [
  {
   "property": "C01",
   "status": "proved",
   "theorems": [
    "C01_hex_roundtrip",
    "C01_hex_text"
   ],
   "note": "hex text is stated against an independent nibble specification"
  },
  {
   "property": "C02",
   "status": "proved",
   "theorems": [
    "C02_hex_decode_exact"
   ],
   "note": "three exhaustive cases"
  },
  {
   "property": "C03",
   "status": "proved",
   "theorems": [
    "C03_c32_roundtrip",
    "C03_c32_injective"
   ],
   "note": ""
  },
  {
   "property": "C04",
   "status": "proved",
   "theorems": [
    "C04_c32_positional"
   ],
   "note": ""
  },
  {
   "property": "C05",
   "status": "proved",
   "theorems": [
    "C05_c32_decode_exact",
    "C05_c32_decode_total"
   ],
   "note": ""
  },
  {
   "property": "C06",
   "status": "proved",
   "theorems": [
    "C06_address_roundtrip",
    "C06_c32check_roundtrip"
   ],
   "note": ""
  },
  {
   "property": "C07",
   "status": "proved",
   "theorems": [
    "C07_address_decode_sound",
    "C07_spelling_unique",
    "C07_bad_checksum"
   ],
   "note": ""
  },
  {
   "property": "C08",
   "status": "proved",
   "theorems": [
    "C08_unknown_version",
    "C08_address_only_stacks_versions",
    "C08_parse_version_refuted"
   ],
   "note": "parsing half is a finding: C08_parse_version_refuted"
  },
  {
   "property": "C09",
   "status": "proved",
   "theorems": [
    "C09_address_no_panic",
    "C09_address_decode_no_panic",
    "C09_c32check_decode_panics_iff_empty",
    "C09_c32check_encode_panics_iff_version",
    "C09_from_str_exact",
    "C09_from_str_no_panic_refuted"
   ],
   "note": "exact panic domains; C09_from_str_no_panic_refuted is a finding"
  },
  {
   "property": "C10",
   "status": "proved",
   "theorems": [
    "C10_C11_b58_encode_exact",
    "C10_b58_lossless_refuted"
   ],
   "note": "finding: C10_b58_lossless_refuted on non-empty all-zero input"
  },
  {
   "property": "C11",
   "status": "proved",
   "theorems": [
    "C10_C11_b58_encode_exact",
    "C11_b58_decode_exact"
   ],
   "note": ""
  },
  {
   "property": "C12",
   "status": "proved",
   "theorems": [
    "C12_b58_decode_classify",
    "C12_no_panic_refuted"
   ],
   "note": "finding: C12_no_panic_refuted for characters above U+00FF"
  },
  {
   "property": "C13",
   "status": "proved",
   "theorems": [
    "C13_base58check_roundtrip",
    "C13_base58check_roundtrip_20",
    "C13_base58check_decode_sound",
    "C13_base58check_decode_classify",
    "C13_no_panic_refuted"
   ],
   "note": "finding: C13_no_panic_refuted; unconditional for 20-byte payloads"
  },
  {
   "property": "C14",
   "status": "proved",
   "theorems": [
    "C14_encode_exact",
    "C14_encode_no_panic"
   ],
   "note": "wire format given by the independent serializer wser of SpecWire.v"
  },
  {
   "property": "C15",
   "status": "proved",
   "theorems": [
    "C15_roundtrip",
    "C15_roundtrip_spelled",
    "C15_any_address_refuted"
   ],
   "note": "finding: C15_any_address_refuted for payloads that are not 20 bytes"
  },
  {
   "property": "C16",
   "status": "proved",
   "theorems": [
    "C16_prefix_free",
    "C16_canonical_unique",
    "C16_any_address_refuted"
   ],
   "note": "finding: C16_any_address_refuted"
  },
  {
   "property": "C17",
   "status": "proved",
   "theorems": [
    "C17_decode_exact",
    "C17_decode_canonical"
   ],
   "note": ""
  },
  {
   "property": "C18",
   "status": "proved",
   "theorems": [
    "C18_bad_identifier",
    "C18_own_identifier",
    "C18_unknown_tag",
    "C18_utf8_any_tag",
    "C18_utf8_identifier_refuted"
   ],
   "note": "finding: C18_utf8_identifier_refuted"
  },
  {
   "property": "C19",
   "status": "proved",
   "theorems": [
    "C19_trailing",
    "C19_terminates",
    "C19_panic_short",
    "C19_no_panic_refuted"
   ],
   "note": "finding: C19_no_panic_refuted; allocation of huge capacities and stack depth are outside the model"
  },
  {
   "property": "C20",
   "status": "proved",
   "theorems": [
    "C20_ascii_encode",
    "C20_ascii_decode",
    "C20_decoded_ascii_refuted"
   ],
   "note": "finding: C20_decoded_ascii_refuted"
  },
  {
   "property": "C21",
   "status": "proved",
   "theorems": [
    "C21_name_limit",
    "C21_decoded_names_refuted"
   ],
   "note": "finding: C21_decoded_names_refuted"
  },
  {
   "property": "C22",
   "status": "proved",
   "theorems": [
    "C22_methods",
    "C22_methods_err"
   ],
   "note": ""
  },
  {
   "property": "C23",
   "status": "proved",
   "theorems": [
    "C23_int",
    "C23_uint",
    "C23_patterns"
   ],
   "note": ""
  },
  {
   "property": "C24",
   "status": "proved",
   "theorems": [
    "C24_equivalence",
    "C24_simple_types",
    "C24_clean_values",
    "C24_equality_refuted",
    "C24_contract_refuted"
   ],
   "note": "finding: C24_equality_refuted, C24_contract_refuted"
  },
  {
   "property": "C25",
   "status": "proved",
   "theorems": [
    "C25_history",
    "C25_insert",
    "C25_remove",
    "C25_absent",
    "C25_insert_refuted",
    "C25_remove_refuted"
   ],
   "note": "finding: C25_insert_refuted, C25_remove_refuted"
  },
  {
   "property": "C26",
   "status": "proved",
   "theorems": [
    "C26_cast",
    "C26_cast_inner"
   ],
   "note": ""
  },
  {
   "property": "C27",
   "status": "proved",
   "theorems": [
    "C27_fn_arguments",
    "C27_fn_arguments_canonical"
   ],
   "note": ""
  },
  {
   "property": "C28",
   "status": "proved",
   "theorems": [
    "C28_transfer_encodes",
    "C28_long_memo",
    "C28_roundtrip",
    "C28_same_bytes",
    "C28_memo_refuted"
   ],
   "note": "finding: C28_memo_refuted"
  },
  {
   "property": "C29",
   "status": "proved",
   "theorems": [
    "C29_roundtrip",
    "C29_roundtrip_spelled",
    "C29_encode_exact"
   ],
   "note": ""
  },
  {
   "property": "C30",
   "status": "proved",
   "theorems": [
    "C30_dispatch",
    "C30_decode_exact",
    "C30_decode_canonical"
   ],
   "note": ""
  },
  {
   "property": "C31",
   "status": "proved",
   "theorems": [
    "C31_conditions_exact",
    "C31_only_principals",
    "C31_prefix_free",
    "C31_code_kind_refuted"
   ],
   "note": "finding: C31_code_kind_refuted"
  },
  {
   "property": "C32",
   "status": "proved",
   "theorems": [
    "C32_encode_exact",
    "C32_encode_no_panic",
    "C32_payload_exact",
    "C32_unique_reading"
   ],
   "note": ""
  },
  {
   "property": "C33",
   "status": "proved",
   "theorems": [
    "C33_injective",
    "C33_converse",
    "C33_any_recipient_refuted"
   ],
   "note": "finding: C33_any_recipient_refuted"
  },
  {
   "property": "C34",
   "status": "proved",
   "theorems": [
    "C34_initial_hash_exact",
    "C34_ignores",
    "C34_operations",
    "C34_commits"
   ],
   "note": "SHA-512/256 is concrete; the collision disjunct names the two colliding strings"
  },
  {
   "property": "C35",
   "status": "proved",
   "theorems": [
    "C35_message_commits",
    "C35_message_exact"
   ],
   "note": "SHA-512/256 is concrete; the collision disjuncts name the colliding strings"
  },
  {
   "property": "C36",
   "status": "proved",
   "theorems": [
    "C36_sign_verifies",
    "C36_built"
   ],
   "note": "ecdsa_correct (SpecSign.v) is a hypothesis on the secp256k1 crate, instantiated by toy_correct; discharged for secp256k1 in C77"
  },
  {
   "property": "C37",
   "status": "proved",
   "theorems": [
    "C37_verify_exact",
    "C37_other_key_rejected",
    "C37_wrong_key_signed"
   ],
   "note": "ecdsa_correct is a hypothesis of the wrong-key theorems; C37_verify_exact needs none"
  },
  {
   "property": "C38",
   "status": "proved",
   "theorems": [
    "C38_multi_verifies",
    "C38_multi_new"
   ],
   "note": "ecdsa_correct hypothesis; P2SH and P2WSH"
  },
  {
   "property": "C39",
   "status": "proved",
   "theorems": [
    "C39_sound",
    "C39_exact",
    "C39_too_few",
    "C39_exact_count_refuted",
    "C39_some_signature_refuted"
   ],
   "note": "findings: C39_exact_count_refuted, C39_some_signature_refuted"
  },
  {
   "property": "C40",
   "status": "proved",
   "theorems": [
    "C40_history",
    "C40_failure"
   ],
   "note": ""
  },
  {
   "property": "C41",
   "status": "proved",
   "theorems": [
    "C41_no_oversigning"
   ],
   "note": ""
  },
  {
   "property": "C42",
   "status": "proved",
   "theorems": [
    "C42_sponsor_freezes",
    "C42_new_sponser_freezes",
    "C42_frozen"
   ],
   "note": ""
  },
  {
   "property": "C43",
   "status": "proved",
   "theorems": [
    "C43_sponsored_flow",
    "C43_one_signer"
   ],
   "note": "ecdsa_correct hypothesis; any single- or multi-sig origin, sponsors signing with all keys (see C57)"
  },
  {
   "property": "C44",
   "status": "proved",
   "theorems": [
    "C44_sponsored_sound",
    "C44_standard_unchecked",
    "C44_standard_refuted"
   ],
   "note": "finding: C44_standard_refuted"
  },
  {
   "property": "C45",
   "status": "proved",
   "theorems": [
    "C45_chain_commits",
    "C45_final_hash",
    "C45_sponsored_exact",
    "C45_sponsor_commits"
   ],
   "note": "collision disjuncts name the colliding strings"
  },
  {
   "property": "C46",
   "status": "proved",
   "theorems": [
    "C46_set_fee",
    "C46_set_nonce"
   ],
   "note": ""
  },
  {
   "property": "C47",
   "status": "proved",
   "theorems": [
    "C47_transfer",
    "C47_call",
    "C47_defaults",
    "C47_sponsored_refuted"
   ],
   "note": "finding: C47_sponsored_refuted"
  },
  {
   "property": "C48",
   "status": "proved",
   "theorems": [
    "C48_lookup",
    "C48_lookups_invisible",
    "C48_failure_harmless",
    "C48_root"
   ],
   "note": "bip32/bip39 arithmetic is a parameter (record hd of Wallet.v)"
  },
  {
   "property": "C49",
   "status": "proved",
   "theorems": [
    "C49_address",
    "C49_determines"
   ],
   "note": "bip32 arithmetic is a parameter; the collision disjunct names the two keys"
  },
  {
   "property": "C50",
   "status": "proved",
   "theorems": [
    "C50_filled",
    "C50_refused",
    "C50_no_panic",
    "C50_optional_mismatch",
    "C50_optional_missing",
    "C50_strings",
    "C50_exact_types_refuted"
   ],
   "note": "finding: C50_exact_types_refuted; which Rust structs the macro takes is C61"
  },
  {
   "property": "C51",
   "status": "proved",
   "theorems": [
    "C51_broadcast",
    "C51_estimate",
    "C51_read_only",
    "C51_info",
    "C51_address",
    "C51_refused",
    "C51_call_refused",
    "C51_determined",
    "C51_broadcast_text"
   ],
   "note": "a request is mapped to an outcome by an arbitrary function (HTTP is not modelled); the JSON text of requests and bodies is C82 and C91"
  },
  {
   "property": "C52",
   "status": "proved",
   "theorems": [
    "C52_modes",
    "C52_modify",
    "C52_std_new",
    "C52_verify_no_panic_refuted"
   ],
   "note": "finding: C52_verify_no_panic_refuted"
  },
  {
   "property": "C53",
   "status": "proved",
   "theorems": [
    "C53_from_recov",
    "C53_into_recov",
    "C53_from_slice",
    "C53_new"
   ],
   "note": ""
  },
  {
   "property": "C54",
   "status": "proved",
   "theorems": [
    "C54_standard",
    "C54_nonstandard",
    "C54_p2sh",
    "C54_p2wsh",
    "C54_p2sh_determines",
    "C54_p2wsh_determines"
   ],
   "note": "findings: C54_nonstandard; C54_standard gives the range in which the script is Bitcoin's"
  },
  {
   "property": "C55",
   "status": "proved",
   "theorems": [
    "C55_text",
    "C55_integers",
    "C55_buffer",
    "C55_numerals_determine"
   ],
   "note": ""
  },
  {
   "property": "C56",
   "status": "proved",
   "theorems": [
    "C56_tuple_order",
    "C56_order_refuted"
   ],
   "note": "finding: C56_order_refuted"
  },
  {
   "property": "C57",
   "status": "proved",
   "theorems": [
    "C57_sponsor_incomplete"
   ],
   "note": "finding"
  },
  {
   "property": "C58",
   "status": "proved",
   "theorems": [
    "C58_nothing_dropped",
    "C58_nothing_dropped_sponsor"
   ],
   "note": ""
  },
  {
   "property": "C59",
   "status": "proved",
   "theorems": [
    "C59_txid_exact",
    "C59_txid_commits"
   ],
   "note": ""
  },
  {
   "property": "C60",
   "status": "proved",
   "theorems": [
    "C60_account_keys",
    "C60_wallet_keys",
    "C60_bad_keys",
    "C60_transfer",
    "C60_call"
   ],
   "note": "hypothesis hd_correct, discharged for BIP-32 over secp256k1 in C77 and C78"
  },
  {
   "property": "C61",
   "status": "proved",
   "theorems": [
    "C61_field_types",
    "C61_field_types_refused",
    "C61_one_reading",
    "C61_accepted",
    "C61_refused",
    "C61_panics_iff_enum",
    "C61_conversion",
    "C61_response_ignored",
    "C61_response_refuted",
    "C61_qualified",
    "C61_generic_refused"
   ],
   "note": "findings: C61_response_ignored, C61_qualified, C61_generic_refused; parsing of Rust tokens by syn and darling is outside the model"
  },
  {
   "property": "C62",
   "status": "proved",
   "theorems": [
    "C62_tampering_detected",
    "C62_unsigned_refuted"
   ],
   "note": "hypotheses ecdsa_correct and binds_digest, discharged for secp256k1 in C77 and C78; finding: C62_unsigned_refuted"
  },
  {
   "property": "C63",
   "status": "proved",
   "theorems": [
    "C63_sponsor_tampering",
    "C63_any_sponsor"
   ],
   "note": "hypotheses ecdsa_correct and binds_digest, discharged for secp256k1 in C77; finding: C63_any_sponsor"
  },
  {
   "property": "C64",
   "status": "proved",
   "theorems": [
    "C64_length",
    "C64_still_encodes",
    "C64_single",
    "C64_multi"
   ],
   "note": "finding: C64_multi"
  },
  {
   "property": "C65",
   "status": "proved",
   "theorems": [
    "C65_exact",
    "C65_signed",
    "C65_sponsored",
    "C65_history",
    "C65_one_network",
    "C65_oversigned_refuted",
    "C65_large_refused"
   ],
   "note": "hypothesis ecdsa_correct; findings: C65_oversigned_refuted, C65_large_refused; node rules for names, values and balances are not included"
  },
  {
   "property": "C66",
   "status": "proved",
   "theorems": [
    "C66_transfer",
    "C66_call"
   ],
   "note": "hypotheses hd_correct and ecdsa_correct, discharged in C77 and C78; HTTP is an arbitrary function from requests to outcomes"
  },
  {
   "property": "C67",
   "status": "proved",
   "theorems": [
    "C67_read_only",
    "C67_txid"
   ],
   "note": "finding"
  },
  {
   "property": "C68",
   "status": "proved",
   "theorems": [
    "C68_exact",
    "C68_signed",
    "C68_any_name",
    "C68_refuted"
   ],
   "note": "finding: C68_any_name, C68_refuted; limits on depth and size of values and account balances are not included"
  },
  {
   "property": "C69",
   "status": "proved",
   "theorems": [
    "C69_conditions",
    "C69_equivalence",
    "C69_debug_type",
    "C69_debug_value",
    "C69_asset",
    "C69_call_payload",
    "C69_transfer",
    "C69_call",
    "C69_conditions_refuted",
    "C69_call_payload_refuted"
   ],
   "note": "findings: C69_conditions_refuted, C69_call_payload_refuted; equality of different Rust types (other network, other recipient type) does not type-check in Rust and is not stated"
  },
  {
   "property": "C70",
   "status": "proved",
   "theorems": [
    "C70_sign_origin",
    "C70_sign_sponsor",
    "C70_append_origin",
    "C70_verify_single",
    "C70_verify_multi",
    "C70_new_sponser",
    "C70_auth"
   ],
   "note": "hypothesis ecdsa_correct for the successful cases; C53 and C39 give the signature and address conversions"
  },
  {
   "property": "C71",
   "status": "proved",
   "theorems": [
    "C71_from_utf8",
    "C71_chars",
    "C71_unique",
    "C71_decoded",
    "C71_refused"
   ],
   "note": "utf8_valid and utf8_chars model the Rust standard library; the specifications of the other claims use utf8 of SpecUtf8.v"
  },
  {
   "property": "C72",
   "status": "proved",
   "theorems": [
    "C72_mainnet",
    "C72_testnet",
    "C72_mocknet",
    "C72_any_node",
    "C72_mocknet_is_testnet",
    "C72_mainnet_differs"
   ],
   "note": "findings: C72_any_node, C72_mocknet_is_testnet"
  },
  {
   "property": "C73",
   "status": "proved",
   "theorems": [
    "C73_read_only",
    "C73_address",
    "C73_refuted"
   ],
   "note": "finding: C73_refuted"
  },
  {
   "property": "C74",
   "status": "proved",
   "theorems": [
    "C74_account",
    "C74_only_owner",
    "C74_multi_version_lost",
    "C74_exact"
   ],
   "note": "hypotheses hd_correct and ecdsa_correct, discharged in C77; finding: C74_multi_version_lost"
  },
  {
   "property": "C75",
   "status": "proved",
   "theorems": [
    "C75_hex",
    "C75_c32_letter",
    "C75_c32_checksum",
    "C75_versions",
    "C75_b58_letter",
    "C75_b58_checksum",
    "C75_b58_checksum_refuted",
    "C75_identifiers",
    "C75_unknown_tag",
    "C75_names",
    "C75_memo",
    "C75_signature",
    "C75_signer",
    "C75_signers",
    "C75_refusals",
    "C75_not_an_address",
    "C75_downcast",
    "C75_derive",
    "C75_hash_text"
   ],
   "note": "finding: C75_b58_checksum, C75_b58_checksum_refuted; texts produced by other crates are not modelled"
  },
  {
   "property": "C76",
   "status": "proved",
   "theorems": [
    "C76_exact",
    "C76_every_value",
    "C76_empty_buffer",
    "C76_conditions"
   ],
   "note": "finding: C76_empty_buffer; argument expressions of types other than integers, byte vectors, texts, values and pairs are not modelled"
  },
  {
   "property": "C77",
   "status": "proved",
   "theorems": [
    "C77_group",
    "C77_public_key",
    "C77_sign",
    "C77_recover",
    "C77_assumptions"
   ],
   "note": "of the published algorithms as written in Secp.v and Hd.v; that the crates compute these is trusted, with the repository's own vectors replayed in VectorsSign.v and VectorsWallet.v"
  },
  {
   "property": "C78",
   "status": "proved",
   "theorems": [
    "C78_account",
    "C78_transfer",
    "C78_call",
    "C78_multi",
    "C78_verified",
    "C78_tampering_detected"
   ],
   "note": "same reading as C77; HTTP is an arbitrary function from requests to outcomes"
  },
  {
   "property": "C79",
   "status": "proved",
   "theorems": [
    "C79_twin",
    "C79_txid_refuted",
    "C79_low_half"
   ],
   "note": "finding: C79_txid_refuted"
  },
  {
   "property": "C80",
   "status": "proved",
   "theorems": [
    "C80_same",
    "C80_encode",
    "C80_decode",
    "C80_linear_refuted",
    "C80_depth",
    "C80_reserved"
   ],
   "note": "findings: C80_linear_refuted, second halves of C80_depth and C80_reserved; copying of texts and the c32 arithmetic of addresses are not counted"
  },
  {
   "property": "C81",
   "status": "proved",
   "theorems": [
    "C81_last",
    "C81_standard",
    "C81_sponsored",
    "C81_earlier",
    "C81_origin",
    "C81_surplus"
   ],
   "note": "findings: C81_last, C81_standard, C81_sponsored, C81_surplus; for secp256k1 as in C77, nothing assumed"
  },
  {
   "property": "C82",
   "status": "proved",
   "theorems": [
    "C82_unambiguous",
    "C82_keys",
    "C82_text",
    "C82_call",
    "C82_call_same",
    "C82_fee"
   ],
   "note": "JSON text as serde_json's compact formatter writes it (Json.v) against the grammar of RFC 8259 (SpecJson.v)"
  },
  {
   "property": "C83",
   "status": "proved",
   "theorems": [
    "C83_info",
    "C83_address",
    "C83_broadcast",
    "C83_read_only",
    "C83_fees",
    "C83_fees_near",
    "C83_fees_refuted",
    "C83_reason",
    "C83_rate_lost"
   ],
   "note": "rates by C92 and C93; findings: C83_rate_lost, C83_fees_refuted"
  },
  {
   "property": "C84",
   "status": "proved",
   "theorems": [
    "C84_wallet",
    "C84_account",
    "C84_watch",
    "C84_watch_address",
    "C84_one_key_opens_all"
   ],
   "note": "of BIP-39/BIP-32 as published, over SHA-512 as written in Hd.v; that the crates compute this is trusted (as in C77); phrases are read by Mnemonic.v, see C88"
  },
  {
   "property": "C85",
   "status": "proved",
   "theorems": [
    "C85_address",
    "C85_encode",
    "C85_conditions",
    "C85_payload",
    "C85_transaction",
    "C85_decode",
    "C85_decode_typed",
    "C85_decode_utf8",
    "C85_decode_name",
    "C85_decode_args",
    "C85_decode_payload",
    "C85_one_fault",
    "C85_fine",
    "C85_short",
    "C85_payload_short",
    "C85_payload_complete",
    "C85_payload_trailing",
    "C85_payload_terminates"
   ],
   "note": "second half of C85_short and C85_payload_short is the finding of C19 made exact: short input panics instead of being refused"
  },
  {
   "property": "C86",
   "status": "proved",
   "theorems": [
    "C86_same",
    "C86_address",
    "C86_multi_new",
    "C86_determines",
    "C86_accounts",
    "C86_verify_exact",
    "C86_verify_total",
    "C86_verify_multi",
    "C86_sound",
    "C86_miscount_refuted",
    "C86_sign_origin",
    "C86_sign_sponsor",
    "C86_oversign_refuted",
    "C86_histories",
    "C86_base58check"
   ],
   "note": "findings: C86_miscount_refuted, C86_oversign_refuted; the other files of the model take the debug reading"
  },
  {
   "property": "C87",
   "status": "proved",
   "theorems": [
    "C87_one_digest",
    "C87_one_place",
    "C87_secp",
    "C87_not_twice",
    "C87_origin_counts",
    "C87_sponsored_counts",
    "C87_lookalike",
    "C87_lengths_refuted"
   ],
   "note": "up to three named coincidences of hashes; C87_lengths_refuted shows that the third cannot be excluded by lengths"
  },
  {
   "property": "C88",
   "status": "proved",
   "theorems": [
    "C88_words",
    "C88_list",
    "C88_sentences",
    "C88_refused",
    "C88_underivable",
    "C88_one_fault",
    "C88_blanks",
    "C88_letters",
    "C88_last_word",
    "C88_wrong_word"
   ],
   "note": "of the crate's parser as written in Mnemonic.v, for ASCII texts: the crate's Unicode normalisation, which lets compatibility characters stand for letters, is not modelled"
  },
  {
   "property": "C89",
   "status": "proved",
   "theorems": [
    "C89_stops_exactly",
    "C89_otherwise_returns",
    "C89_never",
    "C89_cut",
    "C89_conditions",
    "C89_no_abort_refuted"
   ],
   "note": "findings: every clause of SpecStop.stops; debug reading of arithmetic (C86 says what a release build does instead of the overflow clauses); aborts inside dependencies and exhaustion of stack or memory (C80) are not covered"
  },
  {
   "property": "C90",
   "status": "proved",
   "theorems": [
    "C90_exact",
    "C90_signed",
    "C90_order",
    "C90_deny_protects",
    "C90_limit",
    "C90_bare",
    "C90_default",
    "C90_wrong_code",
    "C90_transfer_conditions",
    "C90_allow_off_refuted",
    "C90_more_is_less_refuted"
   ],
   "note": "of a node after SIP-005 as written in SpecCond.v; what moves during a run is any list of movements, contracts are not modelled; findings: C90_allow_off_refuted, C90_transfer_conditions, C90_wrong_code, C90_more_is_less_refuted"
  },
  {
   "property": "C91",
   "status": "proved",
   "theorems": [
    "C91_info",
    "C91_address",
    "C91_read_only",
    "C91_broadcast",
    "C91_estimate",
    "C91_determined",
    "C91_reader",
    "C91_any",
    "C91_json",
    "C91_not_json_refuted",
    "C91_deep_refuted",
    "C91_large_refuted",
    "C91_text",
    "C91_whole",
    "C91_layout"
   ],
   "note": "of the crates ureq 2.9.6 and serde_json as written in JsonRead.v; findings: C91_not_json_refuted, C91_deep_refuted, C91_large_refuted"
  },
  {
   "property": "C92",
   "status": "proved",
   "theorems": [
    "C92_estimate",
    "C92_exact",
    "C92_integer",
    "C92_error",
    "C92_nearest_refuted",
    "C92_range",
    "C92_finite"
   ],
   "note": "serde_json without float_roundtrip, as written in F64.v, over IEEE 754; finding: C92_nearest_refuted"
  },
  {
   "property": "C93",
   "status": "proved",
   "theorems": [
    "C93_shortest",
    "C93_number",
    "C93_distinct"
   ],
   "note": "digits as ryu promises them (F64Show.v), its tables are not modelled"
  },
  {
   "property": "C94",
   "status": "proved",
   "theorems": [
    "C94_transfer",
    "C94_call",
    "C94_transfer_compiles",
    "C94_call_compiles",
    "C94_order",
    "C94_transfer_built",
    "C94_call_built"
   ],
   "note": "typed_builder's generated setters, by its documented behaviour: a chain that does not compile is None"
  },
  {
   "property": "C95",
   "status": "proved",
   "theorems": [
    "C95_value_exact",
    "C95_value_fails",
    "C95_transfer",
    "C95_call",
    "C95_nft",
    "C95_principal",
    "C95_list_refuted",
    "C95_tx_exact",
    "C95_tx_fails",
    "C95_hash_exact",
    "C95_commits",
    "C95_delimited",
    "C95_library_delimits",
    "C95_boundary_refuted",
    "C95_signs",
    "C95_sponsored",
    "C95_sponsored_one",
    "C95_history",
    "C95_fee",
    "C95_nonce",
    "C95_tampering",
    "C95_sponsor_tampering",
    "C95_built",
    "C95_built_call",
    "C95_built_signs",
    "C95_requests",
    "C95_read_only",
    "C95_library"
   ],
   "note": "a value of a user-defined type is the result of its encode, taken to be the same at each call; provided methods len and hex not overridden; user-defined SpendingCondition types are in C96"
  },
  {
   "property": "C96",
   "status": "proved",
   "theorems": [
    "C96_tx_exact",
    "C96_tx_fails",
    "C96_hash_exact",
    "C96_commits",
    "C96_verify",
    "C96_verify_sponsored",
    "C96_unasked_refuted",
    "C96_drives",
    "C96_drives_sponsor",
    "C96_sign",
    "C96_refuses",
    "C96_refuses_sponsor",
    "C96_refused_hash",
    "C96_history",
    "C96_signs",
    "C96_sponsored",
    "C96_library_owes",
    "C96_fee",
    "C96_nonce",
    "C96_requests",
    "C96_library",
    "C96_either",
    "C96_reset_refuted"
   ],
   "note": "reset, fee, nonce, mode, req_signatures and the two setters are taken to return; methods are functions of the condition's state; signing is under ecdsa_correct"
  },
  {
   "property": "C97",
   "status": "proved",
   "theorems": [
    "C97_bytes",
    "C97_codes",
    "C97_versions",
    "C97_conditions",
    "C97_encodings",
    "C97_wire_order_refuted",
    "C97_modifications",
    "C97_responses",
    "C97_rates",
    "C97_fees",
    "C97_fees_read",
    "C97_zero_refuted",
    "C97_accounts",
    "C97_lookups",
    "C97_wallets",
    "C97_look_differs"
   ],
   "note": "derived comparisons by the rules of Rust's derive; public keys compared by their 33 bytes and extended keys by an equality that tells them apart (crates secp256k1, bip32)"
  },
  {
   "property": "C98",
   "status": "proved",
   "theorems": [
    "C98_session",
    "C98_one_course",
    "C98_log",
    "C98_documented",
    "C98_results",
    "C98_pool",
    "C98_error_refuted"
   ],
   "note": "finding: C98_error_refuted; a node is an arbitrary function of its state and a request; retries inside the crate ureq are not modelled"
  },
  {
   "property": "C99",
   "status": "proved",
   "theorems": [
    "C99_answer",
    "C99_decoded",
    "C99_order",
    "C99_others",
    "C99_echo",
    "C99_tells",
    "C99_options_refuted",
    "C99_strings_refuted"
   ],
   "note": "findings: C99_options_refuted, C99_strings_refuted; which Rust types the macro takes is C61"
  },
  {
   "property": "C100",
   "status": "proved",
   "theorems": [
    "C100_exact",
    "C100_transfer",
    "C100_useless_refuted",
    "C100_series",
    "C100_statement",
    "C100_same_nonce",
    "C100_again_refuted",
    "C100_once",
    "C100_one_of_two",
    "C100_limit",
    "C100_deny",
    "C100_default_refuted",
    "C100_only_owner"
   ],
   "note": "of a ledger after SIP-005 as written in SpecLedger.v; what a contract does is any list of movements out of the caller or contracts; findings: C100_default_refuted, C100_useless_refuted, C100_again_refuted"
  },
  {
   "property": "C101",
   "status": "proved",
   "theorems": [
    "C101_exact",
    "C101_succeeds",
    "C101_useless",
    "C101_rebroadcast",
    "C101_again_refuted"
   ],
   "note": "nodes are any functions that keep a ledger as SpecPay.v says; the answer to the account query is read as in C98; finding: C101_again_refuted"
  },
  {
   "property": "C102",
   "status": "proved",
   "theorems": [
    "C102_only_owners",
    "C102_lost_refuted",
    "C102_spend",
    "C102_alone_refuted"
   ],
   "note": "signatures are what recovers to a key (SpecSign.v); forgery means the collision is exhibited by the transaction; findings: C102_lost_refuted, C102_alone_refuted"
  },
  {
   "property": "C103",
   "status": "proved",
   "theorems": [
    "C103_bounded",
    "C103_succeeds",
    "C103_poor",
    "C103_effect_refuted"
   ],
   "note": "nodes are any functions that keep a ledger as SpecPay.v says; what a contract does is any list of movements out of the caller or contracts (SpecLedger.v); finding: C103_effect_refuted"
  },
  {
   "property": "C104",
   "status": "proved",
   "theorems": [
    "C104_any_sponsor",
    "C104_sponsor_risk",
    "C104_origin_risk",
    "C104_one_sponsor"
   ],
   "note": "of the ledger in SpecLedger.v; sponsors sign with single keys or as many as their condition wants"
  },
  {
   "property": "C105",
   "status": "proved",
   "theorems": [
    "C105_exact",
    "C105_asked",
    "C105_succeeds",
    "C105_late",
    "C105_any_fee_refuted"
   ],
   "note": "of the ledger in SpecLedger.v and nodes as in SpecPay.v; finding: C105_any_fee_refuted"
  },
  {
   "property": "C106",
   "status": "proved",
   "theorems": [
    "C106_shared",
    "C106_two_ids_refuted",
    "C106_queue"
   ],
   "note": "of the ledger in SpecLedger.v; nodes are any functions that report nonces truthfully; finding: C106_two_ids_refuted"
  },
  {
   "property": "C107",
   "status": "proved",
   "theorems": [
    "C107_received",
    "C107_apart",
    "C107_lost_refuted"
   ],
   "note": "of the ledger in SpecLedger.v and the hash-mode rules in SpecNode.v; finding: C107_lost_refuted"
  },
  {
   "property": "C108",
   "status": "proved",
   "theorems": [
    "C108_wrong_node",
    "C108_apart",
    "C108_replay_refuted",
    "C108_stranded_refuted"
   ],
   "note": "of the ledger in SpecLedger.v (SIP-005 accounting; nodes may refuse foreign recipients by policy of their own); findings: C108_replay_refuted, C108_stranded_refuted"
  },
  {
   "property": "C109",
   "status": "proved",
   "theorems": [
    "C109_nothing_else",
    "C109_one_message",
    "C109_paying"
   ],
   "note": "noninterference over an arbitrary interaction tree of library calls; timing, memory, Debug output of keys and the calls that return secrets are outside it"
  },
  {
   "property": "C110",
   "status": "proved",
   "theorems": [
    "C110_loss",
    "C110_silent",
    "C110_resent"
   ],
   "note": "unforgeability of ECDSA signatures is a hypothesis on the history (unforged), coincidences of hashes are exhibited; of the ledger in SpecLedger.v"
  },
  {
   "property": "C111",
   "status": "proved",
   "theorems": [
    "C111_variant",
    "C111_loss",
    "C111_orders"
   ],
   "note": "unforgeability of ECDSA signatures is a hypothesis on the history (only_ordered), coincidences of hashes are exhibited; what a contract does is any list of movements out of the caller or contracts (SpecLedger.v)"
  },
  {
   "property": "C112",
   "status": "proved",
   "theorems": [
    "C112_loss",
    "C112_one_message",
    "C112_served"
   ],
   "note": "unforgeability of ECDSA signatures is a hypothesis on the history (only_sponsors), coincidences of hashes are exhibited; of the ledger in SpecLedger.v"
  },
  {
   "property": "C113",
   "status": "proved",
   "theorems": [
    "C113_loss",
    "C113_one_message",
    "C113_stems"
   ],
   "note": "unforgeability of ECDSA signatures is a hypothesis on the history (only_signed), coincidences of hashes are exhibited; what a contract does is any list of movements out of the caller or contracts (SpecLedger.v)"
  },
  {
   "property": "C114",
   "status": "proved",
   "theorems": [
    "C114_requests",
    "C114_loss",
    "C114_paying"
   ],
   "note": "unforgeability of ECDSA signatures is a hypothesis on the history (from_run), coincidences of hashes are exhibited; programs read no secret keys themselves (SpecSecret.v)"
  },
  {
   "property": "C115",
   "status": "proved",
   "theorems": [
    "C115_budget"
   ],
   "note": "unforgeability of ECDSA signatures is a hypothesis on the history (from_run), coincidences of hashes are exhibited; drafts without conditions, standard authorisation"
  }
 ]
}