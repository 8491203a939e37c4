{
 "claims": [
  {
   "property": "C01",
   "status": "proved",
   "theorems": [
    "C01_amount_roundtrip",
    "C01_amount_unique"
   ],
   "note": ""
  },
  {
   "property": "C02",
   "status": "proved",
   "theorems": [
    "C02_asset_roundtrip",
    "C02_asset_unique"
   ],
   "note": ""
  },
  {
   "property": "C03",
   "status": "proved",
   "theorems": [
    "C03_forms",
    "C03_getters"
   ],
   "note": ""
  },
  {
   "property": "C04",
   "status": "proved",
   "theorems": [
    "C04_conf_roundtrip_iff_valid",
    "C04_conf_accepts_only_valid",
    "C04_all_constructible_roundtrip_refuted"
   ],
   "note": "exact iff; the unrestricted claim (every constructible object round-trips) is refuted with a witness"
  },
  {
   "property": "C05",
   "status": "proved",
   "theorems": [
    "C05_inwit_roundtrip",
    "C05_outwit_roundtrip"
   ],
   "note": ""
  },
  {
   "property": "C06",
   "status": "proved",
   "theorems": [
    "C06_issuance_roundtrip",
    "C06_issuance_exact"
   ],
   "note": ""
  },
  {
   "property": "C07",
   "status": "proved",
   "theorems": [
    "C07_txin_roundtrip_iff",
    "C07_every_serializable_txin_roundtrips_refuted"
   ],
   "note": "exact iff; the unrestricted claim is refuted by the index 0x3fffffff with issuance and peg-in"
  },
  {
   "property": "C08",
   "status": "proved",
   "theorems": [
    "C08_txin_index_guard"
   ],
   "note": ""
  },
  {
   "property": "C09",
   "status": "proved",
   "theorems": [
    "C09_deserialized_index",
    "C09_issuance_bit"
   ],
   "note": ""
  },
  {
   "property": "C10",
   "status": "proved",
   "theorems": [
    "C10_txout_roundtrip"
   ],
   "note": ""
  },
  {
   "property": "C11",
   "status": "proved",
   "theorems": [
    "C11_tx_roundtrip",
    "C11_tx_deserialize",
    "C11_tx_injective"
   ],
   "note": ""
  },
  {
   "property": "C12",
   "status": "proved",
   "theorems": [
    "C12_wire_layout",
    "C12_wire_layout_functional",
    "C12_deserialize_wire"
   ],
   "note": ""
  },
  {
   "property": "C13",
   "status": "proved",
   "theorems": [
    "C13_superfluous_witness",
    "C13_deserialize_errors"
   ],
   "note": ""
  },
  {
   "property": "C14",
   "status": "proved",
   "theorems": [
    "C14_normalisation",
    "C14_bytes_canonical_refuted"
   ],
   "note": "normalisation proved; byte-for-byte canonicity refuted with three witnesses"
  },
  {
   "property": "C15",
   "status": "proved",
   "theorems": [
    "C15_prefix_truncated",
    "C15_extra_data_rejected",
    "C15_prefix_free"
   ],
   "note": ""
  },
  {
   "property": "C16",
   "status": "proved",
   "theorems": [
    "C16_witness_independent",
    "C16_txid_preimage_injective",
    "C16_txid_commits"
   ],
   "note": ""
  },
  {
   "property": "C17",
   "status": "proved",
   "theorems": [
    "C17_witness_shape_required",
    "C17_incomplete_witness_never_reads_back",
    "C17_all_serializable_roundtrip_refuted"
   ],
   "note": "shape requirement and impossibility of reading back; round-trip of every serializable transaction refuted"
  },
  {
   "property": "C18",
   "status": "proved",
   "theorems": [
    "C18_no_such_input",
    "C18_v0_preimage",
    "C18_raw_sighash",
    "C18_other_sigversions",
    "C18_legacy_error",
    "C18_missing_amount",
    "C18_negative_index"
   ],
   "note": "exact iff with the field-by-field preimage; the legacy SIGVERSION_BASE computation is a parameter here (modelled for C64)"
  },
  {
   "property": "C19",
   "status": "proved",
   "theorems": [
    "C19_all_binds",
    "C19_scoped_binds"
   ],
   "note": "binding under an explicit no-collision premise over exactly the strings hashed; also every scoped hash type"
  },
  {
   "property": "C20",
   "status": "proved",
   "theorems": [
    "C20_only_covered",
    "C20_acp_none"
   ],
   "note": "congruence: equal covered data gives equal results, exceptions included"
  },
  {
   "property": "C21",
   "status": "proved",
   "theorems": [
    "C21_issuance_placement_refuted"
   ],
   "note": "the claim is refuted with a concrete pair for every hash function; C19 states what is bound"
  },
  {
   "property": "C22",
   "status": "proved",
   "theorems": [
    "C22_available_iff",
    "C22_struct_error"
   ],
   "note": "exact iff, and struct.error for locktime >= 2^31"
  },
  {
   "property": "C23",
   "status": "proved",
   "theorems": [
    "C23_missing_witness",
    "C23_validation",
    "C23_bad_arguments"
   ],
   "note": "complete decision table; IndexError instead of ValueError at inIdx == len(vout) with SINGLE is part of it"
  },
  {
   "property": "C24",
   "status": "proved",
   "theorems": [
    "C24_all_binds",
    "C24_inputs_bound"
   ],
   "note": ""
  },
  {
   "property": "C25",
   "status": "proved",
   "theorems": [
    "C25_acp_binds",
    "C25_proofs_not_bound_refuted",
    "C25_script_boundary_not_bound_refuted"
   ],
   "note": "what ANYONECANPAY binds, and two refutations of the stronger claim with concrete pairs for every hash function"
  },
  {
   "property": "C26",
   "status": "proved",
   "theorems": [
    "C26_only_covered",
    "C26_acp_none"
   ],
   "note": ""
  },
  {
   "property": "C27",
   "status": "proved",
   "theorems": [
    "C27_pegout_iff",
    "C27_never_raises",
    "C27_is_pegout",
    "C27_unique",
    "C27_built",
    "C27_buildable"
   ],
   "note": "Script iteration of bitcointx (raw_iter) is modelled from its documented behaviour."
  },
  {
   "property": "C28",
   "status": "proved",
   "theorems": [
    "C28_min_value",
    "C28_is_unspendable",
    "C28_pegout_unspendable"
   ],
   "note": "C28_min_value is about the value passed to the range proof; the other theorems about is_unspendable()."
  },
  {
   "property": "C29",
   "status": "proved",
   "theorems": [
    "C29_regroup_lossless",
    "C29_strict_exact",
    "C29_strict_then_pad"
   ],
   "note": ""
  },
  {
   "property": "C30",
   "status": "proved",
   "theorems": [
    "C30_encode_domain",
    "C30_encode_raises",
    "C30_encode_decode"
   ],
   "note": "exact domain; IndexError exactly for versions outside -32..31"
  },
  {
   "property": "C31",
   "status": "proved",
   "theorems": [
    "C31_decode_canonical",
    "C31_unique_string"
   ],
   "note": ""
  },
  {
   "property": "C32",
   "status": "proved",
   "theorems": [
    "C32_decode_never_raises",
    "C32_decode_in_range"
   ],
   "note": ""
  },
  {
   "property": "C33",
   "status": "proved",
   "theorems": [
    "C33_five_errors_detected",
    "C33_six_errors_detected",
    "C33_seven_errors_refuted"
   ],
   "note": "five changes always detected, six within one checksum class; detection of seven refuted with a witness"
  },
  {
   "property": "C34",
   "status": "proved",
   "theorems": [
    "C34_mixed_case_rejected",
    "C34_case_insensitive",
    "C34_uppercase_hrp_never_matches"
   ],
   "note": ""
  },
  {
   "property": "C35",
   "status": "proved",
   "theorems": [
    "C35_version_selects_checksum"
   ],
   "note": ""
  },
  {
   "property": "C36",
   "status": "proved",
   "theorems": [
    "C36_str_parse",
    "C36_parse_sound",
    "C36_other_network",
    "C36_other_type",
    "C36_single_class"
   ],
   "note": "Any order of the base class's dispatch candidates. Which classes are dispatched to is an assumption about bitcointx."
  },
  {
   "property": "C37",
   "status": "proved",
   "theorems": [
    "C37_from_bytes",
    "C37_base_never",
    "C37_has_string",
    "C37_plain_class",
    "C37_every_object_has_string_refuted",
    "C37_outcome"
   ],
   "note": "Exact for the address classes; the claim for arbitrary CBlech32Data subclasses is refuted and replaced by an exact condition."
  },
  {
   "property": "C38",
   "status": "proved",
   "theorems": [
    "C38_from_unconfidential",
    "C38_lossless",
    "C38_down_up",
    "C38_result_on_same_network_refuted",
    "C38_any_current_chain",
    "C38_outcome",
    "C38_script",
    "C38_script_injective",
    "C38_script_text"
   ],
   "note": "Exact iff when the class's network is selected; C38_any_current_chain covers the other case and the network claim is refuted there. C38_outcome fixes every outcome (a fully valid key is assumed non-empty)."
  },
  {
   "property": "C39",
   "status": "proved",
   "theorems": [
    "C39_confidential",
    "C39_unconfidential",
    "C39_unconfidential_size_refuted"
   ],
   "note": "ConfidentialOutput is the predicate that C45 establishes for outputs blinded by blind(). The size for unconfidential addresses is 32 too small for every output; refuted as a prediction."
  },
  {
   "property": "C40",
   "status": "proved",
   "theorems": [
    "C40_unambiguous",
    "C40_match",
    "C40_match_sound",
    "C40_keys_tell_network_refuted",
    "C40_prefixes",
    "C40_hrp"
   ],
   "note": "Base58 decoding itself and the dispatch loop of bitcointx are assumptions; C40_prefixes compares the code's prefixes with a table of chain parameters (SpecWallet.v); the library uses 239 for private keys of both networks."
  },
  {
   "property": "C41",
   "status": "proved",
   "theorems": [
    "C41_id_value",
    "C41_ids_bound",
    "C41_entropy_bound",
    "C41_entropy_value",
    "C41_contract_hash_length"
   ],
   "note": "Collision freedom is an explicit premise on exactly the 64-byte blocks compressed."
  },
  {
   "property": "C42",
   "status": "proved",
   "theorems": [
    "C42_bad_arguments_refused",
    "C42_good_arguments_accepted"
   ],
   "note": "The converse direction assumes the documented object sizes of the library (SizesOk), random strings that are valid keys, 32-byte issuance keys and entropies; without them other calls inside blind() can raise ValueError."
  },
  {
   "property": "C43",
   "status": "proved",
   "theorems": [
    "C43_frame"
   ],
   "note": "Holds for every library behaviour and every outcome, exceptions included."
  },
  {
   "property": "C44",
   "status": "proved",
   "theorems": [
    "C44_refusal_unchanged",
    "C44_any_failure_unchanged_refuted"
   ],
   "note": "The stronger claim that any failure leaves the transaction unchanged is refuted by an example."
  },
  {
   "property": "C45",
   "status": "proved",
   "theorems": [
    "C45_success_blinds",
    "C45_count_bound"
   ],
   "note": "Assumes documented sizes and non-empty range proofs. The exception (last balancing factor zero) is a disjunct."
  },
  {
   "property": "C46",
   "status": "proved",
   "theorems": [
    "C46_factors_balance",
    "C46_commitments_balance"
   ],
   "note": "Assumes the documented contract of pedersen_blind_generator_blind_sum (BlindSumLaw) and, for points, that generators and commitments are the documented linear combinations (Meaning). Both are met by the toy library."
  },
  {
   "property": "C47",
   "status": "proved",
   "theorems": [
    "C47_strict_success_balanced_refuted",
    "C47_nothing_to_blind_refuted"
   ],
   "note": "Refutations by example: the claim that every strict success balances is false of the code."
  },
  {
   "property": "C48",
   "status": "proved",
   "theorems": [
    "C48_receiver_unblinds",
    "C48_every_blinded_amount_unblinds_refuted"
   ],
   "note": "Assumes the documented contract of the library (CodecLaws, RewindLaw, KeyLaws), met by the toy library. Without MoneyRange the claim is refuted."
  },
  {
   "property": "C49",
   "status": "proved",
   "theorems": [
    "C49_issuer_unblinds"
   ],
   "note": "Same assumptions as C48."
  },
  {
   "property": "C50",
   "status": "proved",
   "theorems": [
    "C50_success_facts",
    "C50_opening",
    "C50_points",
    "C50_null_asset_never",
    "C50_no_exception",
    "C50_outcome"
   ],
   "note": "C50_opening and C50_points use RewindSound; the other theorems hold for every library behaviour (C50_outcome: one that fills the 32-byte factor buffer)."
  },
  {
   "property": "C51",
   "status": "proved",
   "theorems": [
    "C51_targets",
    "C51_aligned"
   ],
   "note": ""
  },
  {
   "property": "C52",
   "status": "proved",
   "theorems": [
    "C52_token_from_earlier_input",
    "C52_own_token_refuted",
    "C52_reissuance_accepted_refuted"
   ],
   "note": "Refutations by example plus the general statement that the token comes from an earlier input."
  },
  {
   "property": "C53",
   "status": "proved",
   "theorems": [
    "C53_complete_roundtrip",
    "C53_serialises",
    "C53_any_serialises_refuted",
    "C53_any_roundtrip_refuted"
   ],
   "note": "Both halves of the unrestricted claim are refuted: AssertionError in serialize, and bytes that do not parse back."
  },
  {
   "property": "C54",
   "status": "proved",
   "theorems": [
    "C54_distinct_draws"
   ],
   "note": "Distinctness assumes the random strings actually drawn are pairwise distinct."
  },
  {
   "property": "C55",
   "status": "proved",
   "theorems": [
    "C55_accepted_iff",
    "C55_slots",
    "C55_wrong_total",
    "C55_sizes_refuted"
   ],
   "note": ""
  },
  {
   "property": "C56",
   "status": "proved",
   "theorems": [
    "C56_one_handle",
    "C56_loaded_from",
    "C56_loaded_once",
    "C56_reported_path"
   ],
   "note": ""
  },
  {
   "property": "C57",
   "status": "proved",
   "theorems": [
    "C57_ok_iff",
    "C57_empty_error_refused"
   ],
   "note": ""
  },
  {
   "property": "C58",
   "status": "proved",
   "theorems": [
    "C58_inwit_insulated",
    "C58_outwit_insulated_refuted",
    "C58_outwit_live",
    "C58_outwit_iff"
   ],
   "note": ""
  },
  {
   "property": "C59",
   "status": "proved",
   "theorems": [
    "C59_opcodes_distinct_refuted",
    "C59_table",
    "C59_injective"
   ],
   "note": ""
  },
  {
   "property": "C60",
   "status": "proved",
   "theorems": [
    "C60_num_issuances",
    "C60_is_fee",
    "C60_is_null"
   ],
   "note": ""
  },
  {
   "property": "C61",
   "status": "proved",
   "theorems": [
    "C61_schnorr_message_key_path",
    "C61_schnorr_message_script_path"
   ],
   "note": ""
  },
  {
   "property": "C62",
   "status": "proved",
   "theorems": [
    "C62_tapscript_leaf",
    "C62_script_bound"
   ],
   "note": ""
  },
  {
   "property": "C63",
   "status": "proved",
   "theorems": [
    "C63_encode_text",
    "C63_decode_text",
    "C63_text_unique"
   ],
   "note": ""
  },
  {
   "property": "C64",
   "status": "proved",
   "theorems": [
    "C64_preimage",
    "C64_errors",
    "C64_bad_script",
    "C64_available",
    "C64_binds",
    "C64_not_covered",
    "C64_spent_outputs_bound_refuted",
    "C64_empty_script",
    "C64_negative_index"
   ],
   "note": ""
  },
  {
   "property": "C65",
   "status": "proved",
   "theorems": [
    "C65_receiver_wire",
    "C65_issuer_wire"
   ],
   "note": "Assumptions of C48/C49/C53 about the library and proof sizes, met by the toy library in the Example."
  },
  {
   "property": "C66",
   "status": "proved",
   "theorems": [
    "C66_parties_balance",
    "C66_issuance_blinded_refused",
    "C66_issuer_last"
   ],
   "note": "Uses BlindSumLaw, Meaning and PointGroup as C46. The natural claim that parties may blind in any order fails for issuances: C66_issuance_blinded_refused, C66_issuer_last."
  },
  {
   "property": "C67",
   "status": "proved",
   "theorems": [
    "C67_value",
    "C67_errors",
    "C67_distinct",
    "C67_wallet_reads"
   ],
   "note": "HMAC modelled over an arbitrary hash; CKey validity is the parameter sk_valid. Keys are 32 bytes (CKeyBase.secret_bytes)."
  },
  {
   "property": "C68",
   "status": "proved",
   "theorems": [
    "C68_node_accepts",
    "C68_without_token_key_refuted",
    "C68_party_before_issuer_refuted",
    "C68_spare_generator_refuted"
   ],
   "note": "The node is SpecNode.node_check, written from the rules of Elements Core's VerifyAmounts. The unconditional claim is false: C68_without_token_key_refuted (issued amount blinded, tokens not), C68_party_before_issuer_refuted (a party blinds before the issuer blinds amount and tokens), C68_spare_generator_refuted. Transactions that nobody blinds are covered too, provided they issue nothing."
  },
  {
   "property": "C69",
   "status": "proved",
   "theorems": [
    "C69_fault_refused",
    "C69_failure_names_first",
    "C69_first_unique",
    "C69_never_overwrites"
   ],
   "note": "Holds for every library and every random stream. Exceptions (bad arguments, C42; library errors) can come before a fault is reported, never after a change."
  },
  {
   "property": "C70",
   "status": "proved",
   "theorems": [
    "C70_base58_encode",
    "C70_base58_decode",
    "C70_base58_address",
    "C70_first_letters",
    "C70_injective",
    "C70_parse_sound",
    "C70_parse_complete",
    "C70_roundtrip",
    "C70_other_network",
    "C70_look"
   ],
   "note": "For every checksum hash of at least 4 bytes; the Examples use double SHA-256 and the address of the project's own test. bitcointx's base58.py and CCoinAddress.__new__ are modelled as described in DESIGN.md. Upper-case blech32 text that is also base58 text with a confidential prefix and wrong size may give TypeError (C70_parse_complete)."
  },
  {
   "property": "C71",
   "status": "proved",
   "theorems": [
    "C71_blind_lawful",
    "C71_unblind_lawful",
    "C71_too_many_targets",
    "C71_number_of_targets_checked_refuted",
    "C71_seed_checked_refuted",
    "C71_asset_checked_refuted"
   ],
   "note": "Stated as: two libraries that agree on lawful calls (SameInContract) give the same run. The contract is written from the C headers as known (the library's source is not in the repository): sizes, uint64 amounts, n_total > n_inputs, at most 256 targets. Three checks the code does not make are refuted (_refuted theorems)."
  },
  {
   "property": "C72",
   "status": "proved",
   "theorems": [
    "C72_wrapped",
    "C72_parameters",
    "C72_large_amount_refused_refuted",
    "C72_parameters_as_given_refuted"
   ],
   "note": "ctypes' conversion of a Python int to c_int / c_uint64 (no overflow check) is part of the model. Two natural claims (too large amounts are refused; parameters reach the library as given) are refuted."
  },
  {
   "property": "C73",
   "status": "proved",
   "theorems": [
    "C73_bytes",
    "C73_array",
    "C73_array_raises",
    "C73_unblind",
    "C73_info",
    "C73_types_accepted_refuted"
   ],
   "note": "That ctypes refuses a bytearray for a c_char_p parameter is behaviour of CPython, part of the model (ArrayModel.v). The natural claim that every documented type is accepted is refuted."
  },
  {
   "property": "C74",
   "status": "proved",
   "theorems": [
    "C74_position",
    "C74_check",
    "C74_object",
    "C74_error",
    "C74_position_always_given_refuted"
   ],
   "note": "Texts are transcribed in TextModel.v. The claim that every text names the position at fault is refuted."
  },
  {
   "property": "C75",
   "status": "proved",
   "theorems": [
    "C75_memory",
    "C75_same",
    "C75_short_proof_noticed_refuted"
   ],
   "note": "The library's memory is a list of live objects by address; using a dead address is undefined behaviour (None). Asynchronous exceptions (KeyboardInterrupt) between allocation and try are not modelled. The same-outcome part needs SizeOk (serialized_size is right)."
  },
  {
   "property": "C76",
   "status": "proved",
   "theorems": [
    "C76_total",
    "C76_exact",
    "C76_form",
    "C76_zero_factor",
    "C76_unblind",
    "C76_auxiliary",
    "C76_knows"
   ],
   "note": "C76_exact holds for every library, the others under the codec laws of SpecUnblind (parse inverts serialize, zero factor changes nothing)."
  },
  {
   "property": "C77",
   "status": "proved",
   "theorems": [
    "C77_truthful",
    "C77_received",
    "C77_accepted"
   ],
   "note": "Uses the premises of C68 and RewindSound, ZeroGen (C50). One side condition in Described: when an output has a hidden amount but a plain asset, the asset reported must be that asset, unblinded (the rewind law only says the factors open the generator). A plain transaction that nobody blinds is the case of no call."
  },
  {
   "property": "C78",
   "status": "proved",
   "theorems": [
    "C78_blind_keeps",
    "C78_blind_breaks",
    "C78_txid_changes",
    "C78_signing_keeps"
   ],
   "note": "Composition of blind() (C43, C45) with the signature hashes (C19, C20, C24-C26, C64) and the node (C68). C78_blind_breaks assumes a strict success without stray keys and excludes an output whose reported factor is zero (the exception of C45); for legacy hashes also that no input has index 2^32-1 (its issuance is not serialised); for Schnorr that the witnesses are complete before and after. OnlySigned asks for the same number of input witnesses before and after signing."
  },
  {
   "property": "C79",
   "status": "proved",
   "theorems": [
    "C79_snapshot",
    "C79_copy",
    "C79_constructed",
    "C79_untouched",
    "C79_blind_copy",
    "C79_bytearray_refuted"
   ],
   "note": "Full for the object model of ObjModel.v. The behaviour of bitcointx's from_instance, to_mutable/to_immutable and transaction constructors is assumed as documented there (elementstx only calls them). C79_bytearray_refuted is the exception for bytearrays."
  },
  {
   "property": "C80",
   "status": "proved",
   "theorems": [
    "C80_refines",
    "C80_to_mutable_blind",
    "C80_immutable",
    "C80_others",
    "C80_shared_output_refuted",
    "C80_shared_witness_refuted",
    "C80_immutable_output_refuted",
    "C80_shared_twice_refuted"
   ],
   "note": "C80_refines removes the assumption of BlindModel.v that the parts of the transaction are different objects. The four _refuted theorems are the cases outside it."
  },
  {
   "property": "C81",
   "status": "proved",
   "theorems": [
    "C81_prints",
    "C81_field",
    "C81_eval",
    "C81_witness",
    "C81_issuance",
    "C81_output",
    "C81_input",
    "C81_str",
    "C81_str_output",
    "C81_issuance_refuted",
    "C81_entropy_refuted",
    "C81_str_confidential_refuted"
   ],
   "note": "repr(CScript) and the str() of base-library types are arbitrary functions. C81_issuance_refuted and C81_entropy_refuted: repr() of an issuance does not identify it. The model gives the texts expected by the unit tests (C81_ex1, C81_ex2)."
  },
  {
   "property": "C82",
   "status": "proved",
   "theorems": [
    "C82_check",
    "C82_accepted",
    "C82_from_issuance",
    "C82_plain_token",
    "C82_kind_refuted"
   ],
   "note": "Removes the premise ub_reissue (the node's check of reissuances) from C68 and C77: it follows from how the input is built. The node's check (reissue_ok) is part of the specification (SpecNode.v), written from the consensus rule. C82_from_issuance leaves open that a drawn asset blinding factor is zero. C82_kind_refuted: success of blind() does not imply acceptance when the kind of token does not fit."
  },
  {
   "property": "C83",
   "status": "proved",
   "theorems": [
    "C83_documented",
    "C83_early",
    "C83_late",
    "C83_parameter",
    "C83_falsy",
    "C83_stops",
    "C83_type_error_leaves_transaction_refuted"
   ],
   "note": "Removes the assumption that arguments have the documented types (DynModel.v). C83_documented: on documented types the model with checks is the one all other theorems are about. C83_late compares with the call in which a key w stands in place of falsy objects and the default in place of the wrong parameter; C83_stops: with a call that blinds two things or more, a wrong parameter always stops half-way. C83_type_error_leaves_transaction_refuted: exceptions after the first change."
  },
  {
   "property": "C84",
   "status": "proved",
   "theorems": [
    "C84_exchange",
    "C84_parties",
    "C84_accepted",
    "C84_unforeseen_refuted",
    "C84_asked_asset_refuted"
   ],
   "note": "C84_exchange holds for every library, without assumptions about it; C84_accepted has the premises of C77. Aligned: one witness per input and output, as serialisation demands. Appended inputs with issuances are outside (their ids depend on keys not yet given). C84_unforeseen_refuted: without the generators of later inputs blind() succeeds and the node refuses. C84_asked_asset_refuted: generators do not replace descriptions."
  },
  {
   "property": "C85",
   "status": "proved",
   "theorems": [
    "C85_lone_output",
    "C85_pays",
    "C85_unlocks",
    "C85_explicit_to_confidential",
    "C85_assertions",
    "C85_received",
    "C85_accepted",
    "C85_fee_asset_refuted"
   ],
   "note": "The program from reading the transaction (line 88) to printing (line 268); parsing of the command line, of WIF keys and address text, and VerifyScript are bitcointx's and left out; signatures and Hash160 are arbitrary functions. C85_lone_output is about blind() in general: with no blinded input and no issuance a strict call never blinds exactly one output. C85_unlocks: a signature over any hash by the key verifies, Hash160 gives 20 bytes. C85_accepted: n = 0 or a reported blinding factor is not zero (as in C68). C85_fee_asset_refuted: the fee asset is not compared with the asset spent."
  },
  {
   "property": "C86",
   "status": "proved",
   "theorems": [
    "C86_alice",
    "C86_alice_pays",
    "C86_bob",
    "C86_bob_offers",
    "C86_signatures",
    "C86_swap",
    "C86_final",
    "C86_fee_utxo",
    "C86_alice_script_refuted",
    "C86_bob_script_refuted",
    "C86_final_refuted"
   ],
   "note": "Turns of the two parties between messages (lines 163-331, 426-577, 350-371, 826-911); the node's answers (listunspent, dumpprivkey) and messages are arguments, the pipe and VerifyScript are left out, claiming funds back is C87; signatures, Hash160 and the legacy hash are arbitrary functions. C86_alice, C86_bob: no assumption about the other party or the library. C86_swap: premises are the laws, true data about the four outputs, all blinded, sizes of keys and signatures, nonzero random draws, and the change was blinded (output 3 is not explicit). ToyFit.v: the toy library with bounded proofs, over which all premises are met (C86_ex)."
  },
  {
   "property": "C87",
   "status": "proved",
   "theorems": [
    "C87_claims",
    "C87_signatures",
    "C87_reads",
    "C87_accepted",
    "C87_same_asset_refuted",
    "C87_fee_refuted"
   ],
   "note": "Lines 917-983 and the signing of C86; the answers of the node are arguments. Line 970 (to_immutable, to_mutable) is read as giving the default witness. C87_accepted: laws, true data about blinded outputs, nonzero random draws, and the last of the outputs to be blinded was (is not explicit). C87_same_asset_refuted: two outputs of one asset, everything else in order, AssertionError."
  },
  {
   "property": "C88",
   "status": "proved",
   "theorems": [
    "C88_contract",
    "C88_btc_contract",
    "C88_recovers",
    "C88_right",
    "C88_reveals",
    "C88_reclaims",
    "C88_attack",
    "C88_length_refuted",
    "C88_extra_push",
    "C88_push_refuted",
    "C88_key_refuted"
   ],
   "note": "Lines 243-287, 435-481, 706-766. The curve is any group with the laws CurveLaws (prime order, two points per coordinate), and the facts KnownPoint about the coordinate of G/2; C88_ex_secp checks the latter for the numbers of secp256k1, and that a coordinate for C88_attack exists there. The interpreter in SpecCross.v has the opcodes of the contracts only; signature checks of the transaction and ages of inputs are arbitrary predicates; P2SH is read as running the contract itself. C88_recovers keeps one premise that an adversary controls: the length byte in the third push; C88_length_refuted and C88_attack show that it cannot be dropped. Extra pushes (C88_push_refuted) are valid by consensus; the policy of clean stacks is not modelled."
  },
  {
   "property": "C89",
   "status": "proved",
   "theorems": [
    "C89_bob",
    "C89_alice",
    "C89_reads",
    "C89_accepted",
    "C89_bob_spends",
    "C89_alice_spends",
    "C89_amount_refuted"
   ],
   "note": "Lines 376-414, 484-502, 557-600, 649-712. Up to the call of sendrawtransaction: what the nodes answer is the argument of the model. The key of the contract is any signer; a signature is checked against the legacy signature hash of the transaction as sent. C89_accepted assumes that both the spent output and the OP_RETURN output are blinded in their asset (blind() may leave the latter explicit when it cannot be blinded). C89_amount_refuted: Alice's program always describes the output as holding 1.01, so her transaction is refused by a node if the output holds another amount."
  },
  {
   "property": "C90",
   "status": "proved",
   "theorems": [
    "C90_exact",
    "C90_refuses",
    "C90_true",
    "C90_owner",
    "C90_ends",
    "C90_burn_refuted"
   ],
   "note": "Lines 46-108 of examples/unblind.py. Reading the files, the command line and the formatting of the values are left out; CCoinAddress.from_scriptPubKey of bitcointx and rangeproof_info of the library are arguments of the model. C90_ends gives exactly when the program comes to its end, for transactions on which unblinding raises no exception (C50_no_exception). C90_burn_refuted: the program fails with CCoinAddressError at the OP_RETURN output of a transaction that a node accepts."
  },
  {
   "property": "C91",
   "status": "proved",
   "theorems": [
    "C91_errors",
    "C91_no_other",
    "C91_extra",
    "C91_final",
    "C91_beginning",
    "C91_truncated",
    "C91_truncated_refuted",
    "C91_flagged_empty_refuted",
    "C91_bounded",
    "C91_counts"
   ],
   "note": "The deserialiser of C11-C15, of the elements classes and of the bitcointx readers they call. C91_truncated gives the exact alternative with its two kinds of exception, both of which occur (C91_truncated_refuted, C91_flagged_empty_refuted). When there is no witness in the text the witness of the transaction is the default of the class, which costs no bytes (second part of C91_bounded)."
  },
  {
   "property": "C92",
   "status": "proved",
   "theorems": [
    "C92_confirm",
    "C92_any_error",
    "C92_found",
    "C92_gave_up",
    "C92_trouble",
    "C92_ends",
    "C92_late",
    "C92_prompt",
    "C92_waits",
    "C92_other_output_refuted",
    "C92_unbound_refuted"
   ],
   "note": "Lines 966-1030. time.sleep and the messages have no effect in the model; time is the number of calls made. The chain of a node only grows in C92_found and the rest: reorganisations, after which getblock answers -5, are covered only as failing calls. That a transaction is in one block of a chain only (Unique) is a premise."
  },
  {
   "property": "C93",
   "status": "proved",
   "theorems": [
    "C93_outcome",
    "C93_both_honest",
    "C93_refund",
    "C93_safe",
    "C93_alice_not_both",
    "C93_alice_sends",
    "C93_timeouts_refuted",
    "C93_any_timeouts_refuted",
    "C93_spent_already_refuted",
    "C93_bob_gets",
    "C93_bob_leaves",
    "C93_bob_refund",
    "C93_bob_key_first",
    "C93_bob_robbed_refuted"
   ],
   "note": "Time is counted in blocks; one block in each chain in turn as the miner of the example makes them (lines 423-432), a party is quicker than a block, calls of its own node do not fail. Alice's recv gives up after 60 seconds (about 30 blocks); in the game she waits as long as needed, so the theorems are about every block at which the message may come. What the scripts allow and that the key becomes public is as proved for C88-C90. C93_timeouts_refuted, C93_any_timeouts_refuted, C93_spent_already_refuted and C93_bob_robbed_refuted are about lines 91-104, 971, 182-185 and 378."
  },
  {
   "property": "C94",
   "status": "proved",
   "theorems": [
    "C94_messages",
    "C94_no_confusion",
    "C94_waiting",
    "C94_wish",
    "C94_told",
    "C94_after_sending",
    "C94_sending_fails_refuted",
    "C94_bye_refuted",
    "C94_claims_back",
    "C94_claims_back_refuted"
   ],
   "note": "Flow of control only: cross 123-420, 862-932, asset 93-594, 676-724. A step (any code between messages) ends as the environment decides; the contents of messages, exceptions of the pipe itself (EOFError, BrokenPipeError), signals and the miner process are left out. The asset example's harness is the same without last wish and its die() takes no 'peacefully' (Impolite). C94_messages, C94_wish and C94_told are about every program of the shape, C94_no_confusion and C94_waiting about the four programs. The refutations C94_sending_fails_refuted, C94_bye_refuted and C94_claims_back_refuted give runs of the four programs; in the last one nothing is lost or delayed."
  },
  {
   "property": "C95",
   "status": "proved",
   "theorems": [
    "C95_field_eq",
    "C95_explicit_eq",
    "C95_issuance_eq",
    "C95_txout_eq",
    "C95_constructible_eq_refuted",
    "C95_txin_raises",
    "C95_txin_eq",
    "C95_txin_fields_refuted",
    "C95_witness_eq",
    "C95_tx_eq",
    "C95_txid_eq",
    "C95_full_index_refuted"
   ],
   "note": "None of the classes defines __eq__ or __hash__: they inherit bitcointx's Serializable, which compares (and hashes) serialize() if one class is a subclass of the other; that rule is assumed. Valid fields as in C11 (null, explicit or a commitment with its prefix). C95_constructible_eq_refuted and C95_full_index_refuted show why the theorems about outputs, issuances and transactions need valid fields and exclude one index; C95_txin_fields_refuted that equal inputs may differ in an issuance that is not written."
  },
  {
   "property": "C96",
   "status": "proved",
   "theorems": [
    "C96_created",
    "C96_sent",
    "C96_who",
    "C96_looks",
    "C96_alice",
    "C96_swap",
    "C96_bob",
    "C96_bob_sends",
    "C96_bob_sends_refuted",
    "C96_amount"
   ],
   "note": "Consensus rules (BIP 68, 112, 141, 143) are the specification in SpecBtc.v, for inputs that spend P2WSH outputs, signatures of hash type ALL and lock times in blocks. The bitcointx parts (Bitcoin transactions, their serialisation, BIP 143 hash, CURRENT_VERSION) are modelled from their consensus behaviour; the version is a parameter, and Bob's transaction needs 2 or more, which bitcointx's CURRENT_VERSION is. The program does not check the transactions before it sends them (VerifyScript is commented out, lines 639-644): C96_alice and C96_bob prove that they are valid. C96_bob_sends_refuted: an output without address before that of the contract stops Bob's reclaim with KeyError (line 527 reads 'addresses' of every output)."
  },
  {
   "property": "C97",
   "status": "proved",
   "theorems": [
    "C97_witness",
    "C97_field",
    "C97_issuance",
    "C97_outpoint",
    "C97_input",
    "C97_output",
    "C97_asset_refuted",
    "C97_issuance_refuted"
   ],
   "note": "Evaluation of expressions is the relation Ev of SpecEval.v: calls of the constructors with the arguments they accept, lists, literals; texts of scripts are printed by bitcointx and their values are a parameter. C97_asset_refuted, C97_issuance_refuted: eval(repr(obj)) raises for explicit assets (so for most outputs) and for issuances."
  },
  {
   "property": "C98",
   "status": "proved",
   "theorems": [
    "C98_bound",
    "C98_refused",
    "C98_exact",
    "C98_replay",
    "C98_fresh"
   ],
   "note": "Extends C54 (factors) to ephemeral keys and seeds. C98_ex3: a stream for which the balancing factor is zero (two draws fewer)."
  },
  {
   "property": "C99",
   "status": "proved",
   "theorems": [
    "C99_blind",
    "C99_unblind",
    "C99_commitment",
    "C99_factors_kept"
   ],
   "note": "Composes with C71 (calls lie in the contract). Surjection proof objects are values here; their memory is C75. OutputsFit: sizes of what the library writes (33, 64, 5134, 4096 bytes) assumed from its headers."
  },
  {
   "property": "C100",
   "status": "proved",
   "theorems": [
    "C100_any",
    "C100_success",
    "C100_again"
   ],
   "note": "Ids are compared as the bytes that are hashed (as in C95); wf_fields t: a transaction that survives the wire, but for the number of witnesses."
  },
  {
   "property": "C101",
   "status": "proved",
   "theorems": [
    "C101_same_seen",
    "C101_left_refuted"
   ],
   "note": "Non-interference. Veils: generators, commitments and proofs may depend on the random numbers, scripts, keys and parameters, not on amounts, assets, messages and sums of factors. How much the real library's results tell is a matter of its cryptography. C101_left_refuted: the condition that no output is left as it was is needed."
  },
  {
   "property": "C102",
   "status": "proved",
   "theorems": [
    "C102_exceptions",
    "C102_unchanged_refuted",
    "C102_stray_refuted",
    "C102_retoken_refuted"
   ],
   "note": "Assumes result sizes of the library (SizesOk), an index below the number of targets from sp_init (IndexOk), valid draws (RandOk), and that no token id is 32 zero bytes (in WellTyped; the code asserts it). C102_unchanged_refuted: a spendable output of value 0 raises RuntimeError after earlier outputs were blinded. C102_stray_refuted and C102_retoken_refuted: the two conditions on keys are needed."
  },
  {
   "property": "C103",
   "status": "proved",
   "theorems": [
    "C103_blinds_all",
    "C103_confidential",
    "C103_needs_output",
    "C103_foreign_asset_refuted"
   ],
   "note": "C103_blinds_all and C103_confidential, strict or not; C103_needs_output: the condition on outputs is necessary for a strict success when there is anything to blind. That sp_init succeeds is a hypothesis (Provable): the code asks the library for a proof over at most 3 of the targets within 100 rounds, and whether that can fail for an asset among the targets is up to the library, which is not modelled. C103_foreign_asset_refuted: an output whose asset is no target stays explicit."
  },
  {
   "property": "C104",
   "status": "proved",
   "theorems": [
    "C104_delivered"
   ],
   "note": "No hypothesis says that the call succeeds: that follows (C103). The contract of the library is SizesOk, IndexOk, CodecLaws, RewindLaw, KeyLaws, BlindSumLaw and VerifierLaws. C104_ex: the toy library, a payment with two inputs, an issuance with tokens and four blinded outputs meets all hypotheses."
  },
  {
   "property": "C105",
   "status": "proved",
   "theorems": [
    "C105_readdressed",
    "C105_same_id",
    "C105_same_sighash",
    "C105_range_refuted",
    "C105_schnorr_refuted"
   ],
   "note": "A statement about two runs. C105_readdressed needs nothing of the library; C105_same_id, about the id, needs the documented sizes. The output left alone because its balancing factor came out zero is excluded from the claim about output witnesses only. C105_range_refuted: the key does show in its own range proof; C105_schnorr_refuted: taproot signatures cover it. C105_ex: toy library, one output and the tokens readdressed."
  },
  {
   "property": "C106",
   "status": "proved",
   "theorems": [
    "C106_same_work",
    "C106_same_outcome",
    "C106_result",
    "C106_signed",
    "C106_key_list_refuted",
    "C106_balance_refuted"
   ],
   "note": "The two runs are shown to go in step (SameProofs.v), so no outcome is excluded. C106_result gives the whole second result in terms of the first and of the second transaction; C106_signed is the case of signatures. C106_balance_refuted: blind() succeeds with the same factors on two transactions with the same inputs whose outputs have different sums. C106_same_outcome is the case of as many outputs, C106_key_list_refuted shows that the condition on the number of keys is needed when outputs are added (empty keys beyond the last output are refused). C106_longer_ex adds a fee output. C106_ex: the toy transaction with everything changed that may be."
  },
  {
   "property": "C107",
   "status": "proved",
   "theorems": [
    "C107_same_ask",
    "C107_fill",
    "C107_full",
    "C107_determined",
    "C107_amount_refuted",
    "C107_too_long_refuted"
   ],
   "note": "C107_same_ask is an equality of whole runs, so no outcome is excluded. C107_fill and C107_full are the forms for filled-up key lists; C107_determined joins it with C98_replay and C106_same_work. C107_amount_refuted: strict success with a negative amount in the descriptor of an input without blinding factors. C107_too_long_refuted: empty entries beyond the last output are refused. C107_ex: the toy transaction with an empty key for the fee output and a negative amount."
  }
 ]
}