{
 "claims": [
  {
   "property": "C01",
   "status": "proved",
   "theorems": [
    "C01_bit_at"
   ],
   "note": ""
  },
  {
   "property": "C02",
   "status": "proved",
   "theorems": [
    "C02_round_trip",
    "C02_bits_preserved"
   ],
   "note": "gunzip(gzip x)=x is an explicit premise; base64 codec is modelled and proved."
  },
  {
   "property": "C03",
   "status": "proved",
   "theorems": [
    "C03_accept_sound",
    "C03_accept_iff"
   ],
   "note": "iff with the declarative spec; gzip, non-'u' multibase and the resolver are universally quantified oracles."
  },
  {
   "property": "C04",
   "status": "proved",
   "theorems": [
    "C04_reported",
    "C04_verdict_sound"
   ],
   "note": ""
  },
  {
   "property": "C05",
   "status": "proved",
   "theorems": [
    "C05_index_exact",
    "C05_denotation_unique",
    "C05_otherwise_error"
   ],
   "note": ""
  },
  {
   "property": "C06",
   "status": "proved",
   "theorems": [
    "C06_size_validation"
   ],
   "note": "iff for every size incl. 2^n overflow; the bit position is C58."
  },
  {
   "property": "C07",
   "status": "proved",
   "theorems": [
    "C07_combinations",
    "C07_length_range"
   ],
   "note": "sizes are natural numbers; integer overflow of the pre-computed capacity is not modelled."
  },
  {
   "property": "C08",
   "status": "proved",
   "theorems": [
    "C08_is_satisfied_by",
    "C08_set_only"
   ],
   "note": ""
  },
  {
   "property": "C09",
   "status": "proved",
   "theorems": [
    "C09_total",
    "C09_sound",
    "C09_complete"
   ],
   "note": "Sound, duplicate-free, complete and total over every history of Next calls whose exclusions are descriptors of the last answer; duplicate descriptor ids are C57."
  },
  {
   "property": "C10",
   "status": "proved",
   "theorems": [
    "C10_search",
    "C10_succeeds_iff"
   ],
   "note": "Per-descriptor matching is a universally quantified oracle (its own filters are C15/C16)."
  },
  {
   "property": "C11",
   "status": "proved",
   "theorems": [
    "C11_translation",
    "C11_defined_iff"
   ],
   "note": "Faithful for `all` without min/max; `all` with max is C56."
  },
  {
   "property": "C12",
   "status": "proved",
   "theorems": [
    "C12_merge"
   ],
   "note": "Premise uid_identifies: equal unique ids mean equal credentials (collisions: C49). sort.Sort(byID) is a permutation of `maps`."
  },
  {
   "property": "C13",
   "status": "proved",
   "theorems": [
    "C13_match"
   ],
   "note": "Instantiated with the modelled schema and constraint filters; JSONPath selection, context loading and JSON-schema validation are universally quantified."
  },
  {
   "property": "C14",
   "status": "proved",
   "theorems": [
    "C14_create_then_match_single",
    "C14_create_then_match_array"
   ],
   "note": "JSONPath selection of $.verifiableCredential[i] / $[i] is a premise on the select oracle. Partial submissions: C50."
  },
  {
   "property": "C15",
   "status": "proved",
   "theorems": [
    "C15_constraints",
    "C15_no_constraints"
   ],
   "note": "JSONPath and JSON-schema evaluation are universally quantified oracles; edge cases are C51, C52, C55."
  },
  {
   "property": "C16",
   "status": "proved",
   "theorems": [
    "C16_format"
   ],
   "note": ""
  },
  {
   "property": "C17",
   "status": "proved",
   "theorems": [
    "C17_issuance",
    "C17_presentation",
    "C17_issuance_back",
    "C17_presentation_back"
   ],
   "note": "both directions; free_of '~' premises are what base64url parts satisfy; the one presentation shape that does not reprint is spelled out in the statement."
  },
  {
   "property": "C18",
   "status": "proved",
   "theorems": [
    "C18_committed",
    "C18_verifier",
    "C18_holder"
   ],
   "note": "stated with the independent relation `committed`; hash and JSON decoding are universally quantified oracles."
  },
  {
   "property": "C19",
   "status": "proved",
   "theorems": [
    "C19_no_repeated_digest",
    "C19_rejects"
   ],
   "note": "rejects every payload where a digest occurs twice (also across nested disclosures)."
  },
  {
   "property": "C20",
   "status": "proved",
   "theorems": [
    "C20_value_terminates",
    "C20_claims_terminate"
   ],
   "note": "the model's fuel is proved sufficient: no run ends with the fuel error."
  },
  {
   "property": "C21",
   "status": "proved",
   "theorems": [
    "C21_verification",
    "C21_claims",
    "C21_verifier"
   ],
   "note": "up to JSON equality (object member order)."
  },
  {
   "property": "C22",
   "status": "proved",
   "theorems": [
    "C22_issue_then_verify",
    "C22_all_disclosed",
    "C22_verifier"
   ],
   "note": "any subset of disclosures; through verify_disclosures/GetDisclosedClaims and verifier.Parse."
  },
  {
   "property": "C23",
   "status": "proved",
   "theorems": [
    "C23_issue_then_verify",
    "C23_all_disclosed",
    "C23_verifier"
   ],
   "note": "without decoys (C77), null (C78), empty names (C79)."
  },
  {
   "property": "C24",
   "status": "proved",
   "theorems": [
    "C24_no_leak",
    "C24_no_digest"
   ],
   "note": "provenance of scalars and names, and absence of digests for tidy payloads (objects inside arrays: C70)."
  },
  {
   "property": "C25",
   "status": "proved",
   "theorems": [
    "C25_presentation",
    "C25_succeeds_iff"
   ],
   "note": ""
  },
  {
   "property": "C26",
   "status": "proved",
   "theorems": [
    "C26_holder_binding",
    "C26_accepts",
    "C26_required"
   ],
   "note": "necessary and sufficient conditions."
  },
  {
   "property": "C27",
   "status": "proved",
   "theorems": [
    "C27_issuer_alg",
    "C27_policy"
   ],
   "note": ""
  },
  {
   "property": "C28",
   "status": "proved",
   "theorems": [
    "C28_no_duplicates",
    "C28_only_duplicates"
   ],
   "note": ""
  },
  {
   "property": "C29",
   "status": "proved",
   "theorems": [
    "C29_checked_bytes"
   ],
   "note": "JWS splitting/base64/JSON decoding are deterministic oracles; proof checker universally quantified."
  },
  {
   "property": "C30",
   "status": "proved",
   "theorems": [
    "C30_header_policy",
    "C30_parse_enforces"
   ],
   "note": "iff; several '+' signs are C60."
  },
  {
   "property": "C31",
   "status": "proved",
   "theorems": [
    "C31_alg_key_agree",
    "C31_scheme_unique",
    "C31_complete",
    "C31_embedded"
   ],
   "note": "default checker: all seven algorithms, all eight verifiers, converse proved for JWK keys; cryptographic primitives and DID resolution universally quantified."
  },
  {
   "property": "C32",
   "status": "proved",
   "theorems": [
    "C32_controller_document",
    "C32_otherwise_error",
    "C32_jwt_key_origin"
   ],
   "note": ""
  },
  {
   "property": "C33",
   "status": "proved",
   "theorems": [
    "C33_proofs_verified_with_named_method",
    "C33_single_proof_in_frame"
   ],
   "note": "iff-style soundness for proof sets in one frame (always true of a single proof); C85/C86 state what fails outside."
  },
  {
   "property": "C34",
   "status": "proved",
   "theorems": [
    "C34_policy_enforced"
   ],
   "note": ""
  },
  {
   "property": "C35",
   "status": "proved",
   "theorems": [
    "C35_history_independent_in_frame"
   ],
   "note": "for documents of one frame; the general claim is refuted by C87."
  },
  {
   "property": "C36",
   "status": "proved",
   "theorems": [
    "C36_method_by_purpose",
    "C36_signing_method"
   ],
   "note": ""
  },
  {
   "property": "C37",
   "status": "proved",
   "theorems": [
    "C37_linkage_sound",
    "C37_linkage_complete"
   ],
   "note": "soundness and completeness; JSON-LD/schema validation inside ParseCredential are oracles."
  },
  {
   "property": "C38",
   "status": "partial",
   "theorems": [
    "C38_w3c_order_refuted",
    "C38_w3c_mirror_partial"
   ],
   "note": "refuted: the code is LSB-first; proved that the W3C bit is the mirrored one."
  },
  {
   "property": "C39",
   "status": "partial",
   "theorems": [
    "C39_list_purpose_refuted"
   ],
   "note": "refuted: the list's purpose is never compared."
  },
  {
   "property": "C40",
   "status": "proved",
   "theorems": [
    "C40_no_panic"
   ],
   "note": "lists without credentialSubject: C59 (refuted)."
  },
  {
   "property": "C41",
   "status": "proved",
   "theorems": [
    "C41_schemas"
   ],
   "note": ""
  },
  {
   "property": "C42",
   "status": "proved",
   "theorems": [
    "C42_compact"
   ],
   "note": "directly nested arrays: C53 (refuted)."
  },
  {
   "property": "C43",
   "status": "proved",
   "theorems": [
    "C43_path_rewriting"
   ],
   "note": "several vc steps: C54 (refuted)."
  },
  {
   "property": "C44",
   "status": "proved",
   "theorems": [
    "C44_match_no_panic"
   ],
   "note": "null entries: C55 (refuted)."
  },
  {
   "property": "C45",
   "status": "proved",
   "theorems": [
    "C45_needs_schema"
   ],
   "note": ""
  },
  {
   "property": "C46",
   "status": "proved",
   "theorems": [
    "C46_limited_sound"
   ],
   "note": ""
  },
  {
   "property": "C47",
   "status": "partial",
   "theorems": [
    "C47_intersection",
    "C47_two_descriptors_refuted"
   ],
   "note": "refuted (SetSDJWTDisclosures mutates the wallet credential); proved instead: what is presented was requested by every descriptor."
  },
  {
   "property": "C48",
   "status": "partial",
   "theorems": [
    "C48_ldp_dates_refuted"
   ],
   "note": "refuted: the filter becomes numeric while the value stays a string; universally, such a filter accepts no string date."
  },
  {
   "property": "C49",
   "status": "partial",
   "theorems": [
    "C49_same_id_refuted"
   ],
   "note": "refuted."
  },
  {
   "property": "C50",
   "status": "partial",
   "theorems": [
    "C50_covers_all",
    "C50_pick_refuted"
   ],
   "note": "refuted for pick; proved that Match always demands every descriptor."
  },
  {
   "property": "C51",
   "status": "partial",
   "theorems": [
    "C51_no_fields_refuted"
   ],
   "note": "refuted: nothing is kept, for every credential list."
  },
  {
   "property": "C52",
   "status": "partial",
   "theorems": [
    "C52_allof_refuted"
   ],
   "note": "refuted: with allOf present the verdict does not depend on the rest of the filter."
  },
  {
   "property": "C53",
   "status": "partial",
   "theorems": [
    "C53_nested_arrays_refuted"
   ],
   "note": "refuted."
  },
  {
   "property": "C54",
   "status": "partial",
   "theorems": [
    "C54_order_dependent_refuted"
   ],
   "note": "refuted."
  },
  {
   "property": "C55",
   "status": "partial",
   "theorems": [
    "C55_untyped_filter_refuted",
    "C55_null_mapping_refuted"
   ],
   "note": "refuted: both panic."
  },
  {
   "property": "C56",
   "status": "partial",
   "theorems": [
    "C56_all_with_max_refuted"
   ],
   "note": "refuted."
  },
  {
   "property": "C57",
   "status": "partial",
   "theorems": [
    "C57_duplicate_ids_refuted"
   ],
   "note": "refuted: constructor panics."
  },
  {
   "property": "C58",
   "status": "partial",
   "theorems": [
    "C58_position_refuted"
   ],
   "note": "refuted: statusSize is ignored."
  },
  {
   "property": "C59",
   "status": "partial",
   "theorems": [
    "C59_no_subject_refuted"
   ],
   "note": "refuted: index out of range panic."
  },
  {
   "property": "C60",
   "status": "partial",
   "theorems": [
    "C60_typ_ending_refuted"
   ],
   "note": "refuted: a typ p+jwt+anything is accepted."
  },
  {
   "property": "C61",
   "status": "proved",
   "theorems": [
    "C61_ld_agree"
   ],
   "note": ""
  },
  {
   "property": "C62",
   "status": "proved",
   "theorems": [
    "C62_cwt_agree"
   ],
   "note": ""
  },
  {
   "property": "C63",
   "status": "proved",
   "theorems": [
    "C63_framing",
    "C63_raw_unique"
   ],
   "note": ""
  },
  {
   "property": "C64",
   "status": "partial",
   "theorems": [
    "C64_der_trailing_refuted"
   ],
   "note": "refuted: asn1.Unmarshal's rest is ignored (premise: the DER reader ignores trailing bytes)."
  },
  {
   "property": "C65",
   "status": "partial",
   "theorems": [
    "C65_purpose_refuted"
   ],
   "note": "refuted: only keyAgreement is excluded."
  },
  {
   "property": "C66",
   "status": "proved",
   "theorems": [
    "C66_no_panic",
    "C66_first_placeholder",
    "C66_no_placeholder"
   ],
   "note": ""
  },
  {
   "property": "C67",
   "status": "partial",
   "theorems": [
    "C67_second_placeholder_refuted"
   ],
   "note": "refuted."
  },
  {
   "property": "C68",
   "status": "proved",
   "theorems": [
    "C68_kid_did"
   ],
   "note": ""
  },
  {
   "property": "C69",
   "status": "partial",
   "theorems": [
    "C69_reserved_name_refuted"
   ],
   "note": "refuted: accepted for every such disclosure."
  },
  {
   "property": "C70",
   "status": "partial",
   "theorems": [
    "C70_array_objects_refuted"
   ],
   "note": "refuted: for every payload such arrays are returned unchanged."
  },
  {
   "property": "C71",
   "status": "partial",
   "theorems": [
    "C71_empty_claims_refuted"
   ],
   "note": "refuted: for every payload the claim is missing from the output."
  },
  {
   "property": "C72",
   "status": "partial",
   "theorems": [
    "C72_nil_verifier_refuted"
   ],
   "note": "refuted: nil interface call panics on every parseable token with an issuer."
  },
  {
   "property": "C73",
   "status": "proved",
   "theorems": [
    "C73_subsets"
   ],
   "note": ""
  },
  {
   "property": "C74",
   "status": "proved",
   "theorems": [
    "C74_holder_claims"
   ],
   "note": ""
  },
  {
   "property": "C75",
   "status": "proved",
   "theorems": [
    "C75_key_binding_refused"
   ],
   "note": ""
  },
  {
   "property": "C76",
   "status": "proved",
   "theorems": [
    "C76_payload_shows_clear_only"
   ],
   "note": ""
  },
  {
   "property": "C77",
   "status": "partial",
   "theorems": [
    "C77_v5_decoys_refuted"
   ],
   "note": "refuted: the decoys' salts are handed out as disclosures, so the token is refused."
  },
  {
   "property": "C78",
   "status": "partial",
   "theorems": [
    "C78_v5_null_claim_refuted"
   ],
   "note": "refuted: panics (reflect.TypeOf(nil))."
  },
  {
   "property": "C79",
   "status": "partial",
   "theorems": [
    "C79_v5_empty_name_refuted"
   ],
   "note": "refuted: disclosed as an array element, so refused."
  },
  {
   "property": "C80",
   "status": "partial",
   "theorems": [
    "C80_registered_name_refuted"
   ],
   "note": "refuted: issued, but its disclosure is refused."
  },
  {
   "property": "C81",
   "status": "proved",
   "theorems": [
    "C81_v2_credential",
    "C81_v5_credential"
   ],
   "note": ""
  },
  {
   "property": "C82",
   "status": "partial",
   "theorems": [
    "C82_clear_copy_refuted"
   ],
   "note": "refuted: with both a vc object and a top-level credentialSubject the latter stays."
  },
  {
   "property": "C83",
   "status": "proved",
   "theorems": [
    "C83_reserved_name_refused"
   ],
   "note": ""
  },
  {
   "property": "C84",
   "status": "partial",
   "theorems": [
    "C84_reserved_in_arrays_refuted"
   ],
   "note": "refuted."
  },
  {
   "property": "C85",
   "status": "partial",
   "theorems": [
    "C85_empty_proof_set_accepted_refuted"
   ],
   "note": "refuted: proof: [] and proof: null are accepted by VerifyProof for every verifier and options."
  },
  {
   "property": "C86",
   "status": "partial",
   "theorems": [
    "C86_each_proof_own_method_refuted"
   ],
   "note": "refuted: the method resolved for the first proof is cached in the options and used for the rest."
  },
  {
   "property": "C87",
   "status": "partial",
   "theorems": [
    "C87_reused_options_refuted"
   ],
   "note": "refuted: see theorem; a used options value changes later outcomes."
  },
  {
   "property": "C88",
   "status": "proved",
   "theorems": [
    "C88_sign_then_verify"
   ],
   "note": ""
  },
  {
   "property": "C89",
   "status": "partial",
   "theorems": [
    "C89_add_proof_always_verifies_refuted"
   ],
   "note": "refuted: an existing proof is hashed when signing but not when verifying; alias eddsa-2022 writes another suite name than it hashes."
  },
  {
   "property": "C90",
   "status": "proved",
   "theorems": [
    "C90_accepted_documents_were_signed"
   ],
   "note": "unforgeability is an explicit premise on the signature oracle, satisfied by the example; hash collisions appear as a disjunct."
  },
  {
   "property": "C91",
   "status": "partial",
   "theorems": [
    "C91_domain_covered_refuted"
   ],
   "note": "refuted: when the verifier expects no domain/challenge the proof's own ones are not hashed."
  },
  {
   "property": "C92",
   "status": "proved",
   "theorems": [
    "C92_add_proof_effect"
   ],
   "note": ""
  },
  {
   "property": "C93",
   "status": "partial",
   "theorems": [
    "C93_method_id_equals_named_refuted"
   ],
   "note": "refuted: only the part after '#' is compared."
  },
  {
   "property": "C94",
   "status": "proved",
   "theorems": [
    "C94_first_registration_wins"
   ],
   "note": ""
  },
  {
   "property": "C95",
   "status": "proved",
   "theorems": [
    "C95_contents_round_trip",
    "C95_object_round_trip"
   ],
   "note": ""
  },
  {
   "property": "C96",
   "status": "proved",
   "theorems": [
    "C96_contents_agree_with_json",
    "C96_object"
   ],
   "note": ""
  },
  {
   "property": "C97",
   "status": "proved",
   "theorems": [
    "C97_raw_json_is_what_was_parsed"
   ],
   "note": ""
  },
  {
   "property": "C98",
   "status": "partial",
   "theorems": [
    "C98_proof_array_verbatim_refuted"
   ],
   "note": ""
  },
  {
   "property": "C99",
   "status": "proved",
   "theorems": [
    "C99_id",
    "C99_context",
    "C99_status",
    "C99_refresh",
    "C99_issuer",
    "C99_subject",
    "C99_issued",
    "C99_expired",
    "C99_valid_from",
    "C99_valid_until"
   ],
   "note": ""
  },
  {
   "property": "C100",
   "status": "partial",
   "theorems": [
    "C100_valid_from_shadowed_refuted",
    "C100_valid_until_shadowed_refuted"
   ],
   "note": ""
  },
  {
   "property": "C101",
   "status": "proved",
   "theorems": [
    "C101_data_url_round_trip",
    "C101_data_url_shape"
   ],
   "note": ""
  },
  {
   "property": "C102",
   "status": "proved",
   "theorems": [
    "C102_times_keep_their_text",
    "C102_accepts"
   ],
   "note": ""
  },
  {
   "property": "C103",
   "status": "proved",
   "theorems": [
    "C103_accepted_means_checked"
   ],
   "note": ""
  },
  {
   "property": "C104",
   "status": "proved",
   "theorems": [
    "C104_key_of_the_issuer"
   ],
   "note": ""
  },
  {
   "property": "C105",
   "status": "proved",
   "theorems": [
    "C105_verdict_is_final",
    "C105_json_text"
   ],
   "note": ""
  },
  {
   "property": "C106",
   "status": "partial",
   "theorems": [
    "C106_json_object_unchecked_refuted"
   ],
   "note": ""
  },
  {
   "property": "C107",
   "status": "partial",
   "theorems": [
    "C107_data_integrity_issuer_refuted",
    "C107_any_issuer_refuted"
   ],
   "note": ""
  },
  {
   "property": "C108",
   "status": "proved",
   "theorems": [
    "C108_at_least_one_proof"
   ],
   "note": ""
  },
  {
   "property": "C109",
   "status": "proved",
   "theorems": [
    "C109_registered_claims"
   ],
   "note": ""
  },
  {
   "property": "C110",
   "status": "proved",
   "theorems": [
    "C110_did_issuers_agree"
   ],
   "note": ""
  },
  {
   "property": "C111",
   "status": "partial",
   "theorems": [
    "C111_issuers_agree_refuted"
   ],
   "note": ""
  },
  {
   "property": "C112",
   "status": "partial",
   "theorems": [
    "C112_claim_dates_reported_refuted"
   ],
   "note": ""
  },
  {
   "property": "C113",
   "status": "proved",
   "theorems": [
    "C113_no_panic"
   ],
   "note": ""
  },
  {
   "property": "C114",
   "status": "partial",
   "theorems": [
    "C114_no_registered_claims_refuted"
   ],
   "note": ""
  },
  {
   "property": "C115",
   "status": "proved",
   "theorems": [
    "C115_sign_then_parse"
   ],
   "note": ""
  },
  {
   "property": "C116",
   "status": "proved",
   "theorems": [
    "C116_cose_then_parse"
   ],
   "note": ""
  },
  {
   "property": "C117",
   "status": "partial",
   "theorems": [
    "C117_cwt_claims_agree_refuted"
   ],
   "note": ""
  },
  {
   "property": "C118",
   "status": "proved",
   "theorems": [
    "C118_universal_form_parses_back",
    "C118_universal_form"
   ],
   "note": ""
  },
  {
   "property": "C119",
   "status": "proved",
   "theorems": [
    "C119_validation_enforced"
   ],
   "note": ""
  },
  {
   "property": "C120",
   "status": "partial",
   "theorems": [
    "C120_jwt_validated_refuted"
   ],
   "note": ""
  },
  {
   "property": "C121",
   "status": "partial",
   "theorems": [
    "C121_every_schema_enforced_refuted"
   ],
   "note": ""
  },
  {
   "property": "C122",
   "status": "partial",
   "theorems": [
    "C122_data_url_encoding_refuted"
   ],
   "note": ""
  },
  {
   "property": "C123",
   "status": "partial",
   "theorems": [
    "C123_unsecured_envelope_refuted"
   ],
   "note": ""
  },
  {
   "property": "C124",
   "status": "proved",
   "theorems": [
    "C124_clock_free"
   ],
   "note": ""
  },
  {
   "property": "C125",
   "status": "partial",
   "theorems": [
    "C125_base_validation_panics_refuted"
   ],
   "note": ""
  },
  {
   "property": "C126",
   "status": "partial",
   "theorems": [
    "C126_extra_member_refuted"
   ],
   "note": ""
  },
  {
   "property": "C127",
   "status": "partial",
   "theorems": [
    "C127_parse_keeps_json_refuted"
   ],
   "note": ""
  },
  {
   "property": "C128",
   "status": "proved",
   "theorems": [
    "C128_exact_selection"
   ],
   "note": ""
  },
  {
   "property": "C129",
   "status": "proved",
   "theorems": [
    "C129_presented_parses_back"
   ],
   "note": ""
  },
  {
   "property": "C130",
   "status": "partial",
   "theorems": [
    "C130_all_of_a_name_refuted"
   ],
   "note": "refuted: of two disclosures with the same claim name only the last is sent."
  },
  {
   "property": "C131",
   "status": "partial",
   "theorems": [
    "C131_presentation_stays_sd_refuted"
   ],
   "note": "refuted: with nothing disclosed the output is the bare token, read as a plain JWT credential."
  },
  {
   "property": "C132",
   "status": "partial",
   "theorems": [
    "C132_binding_checked_refuted"
   ],
   "note": "refuted: ParseCredential never looks at the holder binding."
  },
  {
   "property": "C133",
   "status": "proved",
   "theorems": [
    "C133_well_known"
   ],
   "note": ""
  },
  {
   "property": "C134",
   "status": "partial",
   "theorems": [
    "C134_no_panic_refuted"
   ],
   "note": "refuted: a listed JWT credential without issuer panics."
  },
  {
   "property": "C135",
   "status": "partial",
   "theorems": [
    "C135_expiry_ignored_refuted"
   ],
   "note": "refuted: the clock is never consulted."
  },
  {
   "property": "C136",
   "status": "partial",
   "theorems": [
    "C136_origin_refuted"
   ],
   "note": "refuted: texts without a scheme all have the empty origin."
  },
  {
   "property": "C137",
   "status": "partial",
   "theorems": [
    "C137_sub_claim_refuted"
   ],
   "note": "refuted: the sub claim of the token is never read."
  },
  {
   "property": "C138",
   "status": "proved",
   "theorems": [
    "C138_accepted_means_checked"
   ],
   "note": "JSON (embedded linked-data or data integrity proof) and JWT presentations; the enclosed credentials are C140/C141."
  },
  {
   "property": "C139",
   "status": "partial",
   "theorems": [
    "C139_cwt_presentation_checked_refuted",
    "C139_cwt_ignores_checkers_refuted"
   ],
   "note": "refuted: PresentationCWTParser never looks at the signature or the checkers."
  },
  {
   "property": "C140",
   "status": "proved",
   "theorems": [
    "C140_enclosed_tokens_checked"
   ],
   "note": "uses the credential result C103/C104 for every enclosed token."
  },
  {
   "property": "C141",
   "status": "partial",
   "theorems": [
    "C141_enclosed_objects_checked_refuted"
   ],
   "note": "refuted: credentials enclosed as JSON objects are decoded without a proof check (the presentation's own proof is the only one)."
  },
  {
   "property": "C142",
   "status": "proved",
   "theorems": [
    "C142_holder_check",
    "C142_holder_check_exact"
   ],
   "note": "both directions (C142_holder_check_exact)."
  },
  {
   "property": "C143",
   "status": "partial",
   "theorems": [
    "C143_holder_is_signer_refuted"
   ],
   "note": "refuted: the kid of a JWT presentation is never compared with the holder."
  },
  {
   "property": "C144",
   "status": "proved",
   "theorems": [
    "C144_registered_claims"
   ],
   "note": ""
  },
  {
   "property": "C145",
   "status": "proved",
   "theorems": [
    "C145_validation_enforced"
   ],
   "note": "schemas and JSON-LD validation are universally quantified."
  },
  {
   "property": "C146",
   "status": "proved",
   "theorems": [
    "C146_no_panic"
   ],
   "note": ""
  },
  {
   "property": "C147",
   "status": "partial",
   "theorems": [
    "C147_unsecured_panics_refuted"
   ],
   "note": "refuted: nil claims / nil map panics, whatever the options."
  },
  {
   "property": "C148",
   "status": "partial",
   "theorems": [
    "C148_every_member_covered_refuted",
    "C148_jwt_member_ignored_refuted"
   ],
   "note": "refuted: the jwt member is removed before the proof check and kept in the presentation."
  },
  {
   "property": "C149",
   "status": "partial",
   "theorems": [
    "C149_expired_refused_refuted"
   ],
   "note": "refuted."
  },
  {
   "property": "C150",
   "status": "proved",
   "theorems": [
    "C150_sign_jwt_then_parse",
    "C150_marshalled_token"
   ],
   "note": "signer and parser libraries are universally quantified (makes_jws); C150_marshalled_token: what MarshalJSON writes is one of the texts."
  },
  {
   "property": "C151",
   "status": "partial",
   "theorems": [
    "C151_signed_panics_refuted"
   ],
   "note": "refuted: nil registered claims are dereferenced."
  },
  {
   "property": "C152",
   "status": "proved",
   "theorems": [
    "C152_sign_cwt_then_parse"
   ],
   "note": "see C153 for minimised tokens."
  },
  {
   "property": "C153",
   "status": "partial",
   "theorems": [
    "C153_minimised_cwt_refuted"
   ],
   "note": "refuted: the CWT parser never copies iss/jti into the presentation."
  },
  {
   "property": "C154",
   "status": "proved",
   "theorems": [
    "C154_json_round_trip"
   ],
   "note": "any member order; with or without embedded proof (its acceptance is a hypothesis, see C138)."
  },
  {
   "property": "C155",
   "status": "partial",
   "theorems": [
    "C155_cwt_marshalled_unsigned_refuted"
   ],
   "note": "refuted for data model 1.1."
  },
  {
   "property": "C156",
   "status": "partial",
   "theorems": [
    "C156_contexts_lost_refuted"
   ],
   "note": "refuted: raw() passes nil for the custom contexts."
  },
  {
   "property": "C157",
   "status": "proved",
   "theorems": [
    "C157_add_proof_then_parse"
   ],
   "note": "canonicalisation, hashing, signing universally quantified; canonical form assumed independent of member order (order_free)."
  },
  {
   "property": "C158",
   "status": "partial",
   "theorems": [
    "C158_proofs_dropped_refuted",
    "C158_second_proof_refused_refuted"
   ],
   "note": "refuted: the existing proofs are replaced (all inputs), and the new one, computed over them, is refused (witness)."
  },
  {
   "property": "C159",
   "status": "proved",
   "theorems": [
    "C159_add_proof_then_parse"
   ],
   "note": "composition of C154 with C88 for any member order."
  },
  {
   "property": "C160",
   "status": "partial",
   "theorems": [
    "C160_not_marshalled_refuted",
    "C160_presentation_refuted"
   ],
   "note": "refuted: for enveloped credentials/presentations the text after adding equals the text before."
  },
  {
   "property": "C161",
   "status": "proved",
   "theorems": [
    "C161_related_resources_sound"
   ],
   "note": "hash functions and multibase.Decode are parameters; goroutines interleaved per cache access, HTTP exchange and channel message; LRU eviction and other users arbitrary."
  },
  {
   "property": "C162",
   "status": "proved",
   "theorems": [
    "C162_related_resources_schedule_independent"
   ],
   "note": "hash lengths >= 2 bytes assumed (SHA-2)."
  },
  {
   "property": "C163",
   "status": "proved",
   "theorems": [
    "C163_related_resources_terminates"
   ],
   "note": "assumes answered requests and digests of >= 2 bytes when base64url; C164 shows the second is needed."
  },
  {
   "property": "C164",
   "status": "partial",
   "theorems": [
    "C164_short_digest_crashes_refuted"
   ],
   "note": "refuted: an empty base64url digest, or the single byte 0x12, indexes out of range in a goroutine."
  },
  {
   "property": "C165",
   "status": "partial",
   "theorems": [
    "C165_right_digests_refused_refuted"
   ],
   "note": "refuted: '-' in base64url splits digestSRI; a bare hash starting 0x12 0x20 is cut; the SHA-256 header is accepted before SHA-512."
  },
  {
   "property": "C166",
   "status": "partial",
   "theorems": [
    "C166_cached_resource_not_fetched_refuted"
   ],
   "note": "refuted: within the cache's lifetime the resource isn't fetched."
  },
  {
   "property": "C167",
   "status": "proved",
   "theorems": [
    "C167_store_linearizable"
   ],
   "note": "Herlihy-Wing linearizability over call/return histories; RWMutex modelled as reader count and writer flag, each map access one step. Values immutable (caller aliasing not modelled). Queries with && excluded: C169."
  },
  {
   "property": "C168",
   "status": "proved",
   "theorems": [
    "C168_store_no_deadlock"
   ],
   "note": "under the same hypothesis on queries as C167."
  },
  {
   "property": "C169",
   "status": "partial",
   "theorems": [
    "C169_multi_tag_query_not_atomic_refuted"
   ],
   "note": "refuted: history in which an entry is returned that never had both tags."
  },
  {
   "property": "C170",
   "status": "proved",
   "theorems": [
    "C170_query_exact"
   ],
   "note": "any number of concurrent readers, any map iteration order."
  },
  {
   "property": "C171",
   "status": "partial",
   "theorems": [
    "C171_repeated_tag_refuted"
   ],
   "note": "refuted: results are kept per tag name, so only the last value counts."
  },
  {
   "property": "C172",
   "status": "partial",
   "theorems": [
    "C172_batch_tags_refuted"
   ],
   "note": "refuted: Batch accepts ':' in tags; no query can ask for such a tag."
  },
  {
   "property": "C173",
   "status": "proved",
   "theorems": [
    "C173_iterator"
   ],
   "note": "exact traversal, deterministic."
  },
  {
   "property": "C174",
   "status": "proved",
   "theorems": [
    "C174_provider"
   ],
   "note": "all reachable provider states; strings.ToLower on ASCII."
  },
  {
   "property": "C175",
   "status": "partial",
   "theorems": [
    "C175_close_refuted"
   ],
   "note": "refuted for all contents: the handle still reads the data; a second Close on it removes the newer store."
  },
  {
   "property": "C176",
   "status": "proved",
   "theorems": [
    "C176_resolve_exact",
    "C176_one_answer"
   ],
   "note": "encoding/json decoding into structs, DID resolution, Endpoint.URI and the HTTP client are parameters; url.ParseQuery, QueryUnescape and base64.StdEncoding are modelled; EqualFold on ASCII."
  },
  {
   "property": "C177",
   "status": "proved",
   "theorems": [
    "C177_requests"
   ],
   "note": "the token goes to whatever host the URL or the DID document names."
  },
  {
   "property": "C178",
   "status": "proved",
   "theorems": [
    "C178_failures"
   ],
   "note": ""
  },
  {
   "property": "C179",
   "status": "proved",
   "theorems": [
    "C179_query_round_trip"
   ],
   "note": "the JSON decoder of the text is a parameter."
  },
  {
   "property": "C180",
   "status": "proved",
   "theorems": [
    "C180_accept_end_to_end"
   ],
   "note": "composition of C03 with C176."
  },
  {
   "property": "C181",
   "status": "partial",
   "theorems": [
    "C181_unsigned_list_refuted"
   ],
   "note": "refuted for all issuers and lists: proof checking is disabled (TODO in the code), so whoever answers decides."
  },
  {
   "property": "C182",
   "status": "partial",
   "theorems": [
    "C182_binding_refuted"
   ],
   "note": "refuted: object ids compared with EqualFold; request and message ids of the answer are never read (proved for all answers)."
  },
  {
   "property": "C183",
   "status": "proved",
   "theorems": [
    "C183_endpoint_unique"
   ],
   "note": ""
  },
  {
   "property": "C184",
   "status": "partial",
   "theorems": [
    "C184_endpoint_choice_refuted"
   ],
   "note": "refuted: two usable members, two iteration orders, different hosts asked."
  },
  {
   "property": "C185",
   "status": "proved",
   "theorems": [
    "C185_no_panic"
   ],
   "note": ""
  },
  {
   "property": "C186",
   "status": "partial",
   "theorems": [
    "C186_missing_document_refuted"
   ],
   "note": "refuted: didDoc.ID on nil."
  },
  {
   "property": "C187",
   "status": "proved",
   "theorems": [
    "C187_display_exact"
   ],
   "note": "for credentials that ParseCredential returned, hash algorithm in the credential object, no member named vc in it (C193)."
  },
  {
   "property": "C188",
   "status": "proved",
   "theorems": [
    "C188_display_all",
    "C188_no_digest"
   ],
   "note": ""
  },
  {
   "property": "C189",
   "status": "proved",
   "theorems": [
    "C189_nothing_else"
   ],
   "note": ""
  },
  {
   "property": "C190",
   "status": "proved",
   "theorems": [
    "C190_display_credential"
   ],
   "note": ""
  },
  {
   "property": "C191",
   "status": "proved",
   "theorems": [
    "C191_other_credentials"
   ],
   "note": ""
  },
  {
   "property": "C192",
   "status": "partial",
   "theorems": [
    "C192_only_given_names_refuted"
   ],
   "note": "refuted: nested disclosures of a chosen one are shown whatever their names (values are completed while parsing)."
  },
  {
   "property": "C193",
   "status": "partial",
   "theorems": [
    "C193_display_total_refuted"
   ],
   "note": "refuted: `_sd_alg` in the subject only is accepted by ParseCredential but not found when displaying."
  },
  {
   "property": "C194",
   "status": "proved",
   "theorems": [
    "C194_make_parse_display",
    "C194_each_claim"
   ],
   "note": "v2 format; credentials without nulls, empty arrays, reserved names; digests of the issued token distinct (no hash collision); the signer makes a compact JWS of the claims."
  },
  {
   "property": "C195",
   "status": "proved",
   "theorems": [
    "C195_make_parse_display_v5"
   ],
   "note": "as C194, v5 format: no member of the document named like a registered claim, no empty claim name; disclosures with distinct digests."
  },
  {
   "property": "C196",
   "status": "proved",
   "theorems": [
    "C196_sign_linked_document",
    "C196_sign_jwt",
    "C196_sign_cwt"
   ],
   "note": ""
  },
  {
   "property": "C197",
   "status": "proved",
   "theorems": [
    "C197_jws_alg",
    "C197_library_descriptors"
   ],
   "note": ""
  },
  {
   "property": "C198",
   "status": "partial",
   "theorems": [
    "C198_jwt_alg_own_signer",
    "C198_cwt_alg_own_signer_refuted"
   ],
   "note": "proved for JWT; refuted for CWT: ES256K and ES521 both report COSE algorithm 0, so the first registered of them signs for both."
  },
  {
   "property": "C199",
   "status": "proved",
   "theorems": [
    "C199_one_proof_appended",
    "C199_failure_changes_nothing"
   ],
   "note": "did-go's AddProof/CreateVerifyData are the record ldlib with the laws ld_lib (LdSpec.v); proof member not null."
  },
  {
   "property": "C200",
   "status": "proved",
   "theorems": [
    "C200_add_proof_then_parse"
   ],
   "note": "laws ld_lib/ld_reader of did-go's proof package are hypotheses (a model satisfying them is given); creator and checker fit (ld_fits)."
  },
  {
   "property": "C201",
   "status": "proved",
   "theorems": [
    "C201_add_proof_then_parse"
   ],
   "note": "as C200."
  },
  {
   "property": "C202",
   "status": "proved",
   "theorems": [
    "C202_accepted_did_document",
    "C202_add_proof_then_verify"
   ],
   "note": "did.Doc is represented by the members of its JSON; did.ParseDocument not modelled."
  },
  {
   "property": "C203",
   "status": "partial",
   "theorems": [
    "C203_own_did_refuted"
   ],
   "note": "refuted: the expected issuer is taken from the proof's own key id, so a document for one DID signed by another DID is accepted."
  },
  {
   "property": "C204",
   "status": "proved",
   "theorems": [
    "C204_add_di_then_verify"
   ],
   "note": "as C157; did.ParseDocument not modelled."
  },
  {
   "property": "C205",
   "status": "partial",
   "theorems": [
    "C205_not_marshalled_refuted"
   ],
   "note": "refuted: the marshalled form of a JWT/CWT credential is the token as before."
  },
  {
   "property": "C206",
   "status": "proved",
   "theorems": [
    "C206_headers",
    "C206_sign_then_check"
   ],
   "note": ""
  },
  {
   "property": "C207",
   "status": "proved",
   "theorems": [
    "C207_disclosure_shape"
   ],
   "note": ""
  },
  {
   "property": "C208",
   "status": "proved",
   "theorems": [
    "C208_reveals_the_frame"
   ],
   "note": ""
  },
  {
   "property": "C209",
   "status": "partial",
   "theorems": [
    "C209_reveals_other_statement_refuted"
   ],
   "note": "refuted: a statement of the framed document that is missing from the document silently selects position 0, so the first statement of the credential is revealed."
  },
  {
   "property": "C210",
   "status": "proved",
   "theorems": [
    "C210_derived_proof_verifies"
   ],
   "note": ""
  },
  {
   "property": "C211",
   "status": "partial",
   "theorems": [
    "C211_jwk_key_refuted",
    "C211_verifier_takes_both"
   ],
   "note": "refuted: the BBS+ proof verifier only reads raw key bytes; a key published as JWK is refused for every derived proof."
  },
  {
   "property": "C212",
   "status": "proved",
   "theorems": [
    "C212_no_bbs_proof",
    "C212_not_again"
   ],
   "note": ""
  },
  {
   "property": "C213",
   "status": "proved",
   "theorems": [
    "C213_no_crash"
   ],
   "note": ""
  },
  {
   "property": "C214",
   "status": "partial",
   "theorems": [
    "C214_nil_creator_crashes_refuted",
    "C214_credential_reports"
   ],
   "note": "refuted for BBSSelectiveDisclosure (nil creator crashes); C214_credential_reports proves that GenerateBBSSelectiveDisclosure reports it."
  },
  {
   "property": "C215",
   "status": "proved",
   "theorems": [
    "C215_disclosed_credential"
   ],
   "note": ""
  },
  {
   "property": "C216",
   "status": "partial",
   "theorems": [
    "C216_options_lost_refuted"
   ],
   "note": "refuted: domain, challenge and every other member of the original options are not copied to the derived proof, so its verification cannot succeed."
  },
  {
   "property": "C217",
   "status": "proved",
   "theorems": [
    "C217_signed_bytes"
   ],
   "note": ""
  },
  {
   "property": "C218",
   "status": "proved",
   "theorems": [
    "C218_no_confusion"
   ],
   "note": ""
  },
  {
   "property": "C219",
   "status": "proved",
   "theorems": [
    "C219_shortest_form"
   ],
   "note": ""
  },
  {
   "property": "C220",
   "status": "proved",
   "theorems": [
    "C220_no_panic"
   ],
   "note": ""
  },
  {
   "property": "C221",
   "status": "proved",
   "theorems": [
    "C221_accepted_iff"
   ],
   "note": ""
  },
  {
   "property": "C222",
   "status": "proved",
   "theorems": [
    "C222_only_signed_content"
   ],
   "note": ""
  },
  {
   "property": "C223",
   "status": "proved",
   "theorems": [
    "C223_key_of_the_issuer"
   ],
   "note": ""
  },
  {
   "property": "C224",
   "status": "partial",
   "theorems": [
    "C224_empty_issuer_refuted"
   ],
   "note": "refuted: an empty issuer claim passes the check and is then treated as no expectation; a message without key id verifies under the key it carries."
  },
  {
   "property": "C225",
   "status": "proved",
   "theorems": [
    "C225_marshal_then_parse"
   ],
   "note": ""
  },
  {
   "property": "C226",
   "status": "partial",
   "theorems": [
    "C226_own_tokens_refused_refuted"
   ],
   "note": "refuted: marshalCOSE never writes the COSE_Key header that ParseAndCheckProof demands, so every such token is refused."
  },
  {
   "property": "C227",
   "status": "proved",
   "theorems": [
    "C227_credential_bytes"
   ],
   "note": ""
  },
  {
   "property": "C228",
   "status": "partial",
   "theorems": [
    "C228_deep_credentials_refuted"
   ],
   "note": "refuted: the CBOR decoder stops at 32 nested levels, the encoder does not; deeper credentials are signed and cannot be read."
  },
  {
   "property": "C229",
   "status": "proved",
   "theorems": [
    "C229_not_a_jws_input"
   ],
   "note": ""
  },
  {
   "property": "C230",
   "status": "proved",
   "theorems": [
    "C230_order_of_keys"
   ],
   "note": ""
  },
  {
   "property": "C231",
   "status": "partial",
   "theorems": [
    "C231_key_collision_refuted"
   ],
   "note": "refuted: the integer key 1 and the text key \"1\" collide; which value stays depends on map order (proved for distinct key texts in C230)."
  },
  {
   "property": "C232",
   "status": "partial",
   "theorems": [
    "C232_malleable_refuted"
   ],
   "note": "refuted: the unprotected header and the form of lengths are not covered by the signature."
  },
  {
   "property": "C233",
   "status": "proved",
   "theorems": [
    "C233_presentation_bytes"
   ],
   "note": ""
  },
  {
   "property": "C234",
   "status": "proved",
   "theorems": [
    "C234_limited_credential"
   ],
   "note": ""
  },
  {
   "property": "C235",
   "status": "proved",
   "theorems": [
    "C235_members_not_asked_for"
   ],
   "note": ""
  },
  {
   "property": "C236",
   "status": "proved",
   "theorems": [
    "C236_who_is_limited",
    "C236_sd_jwt"
   ],
   "note": ""
  },
  {
   "property": "C237",
   "status": "proved",
   "theorems": [
    "C237_limited_document_exists"
   ],
   "note": ""
  },
  {
   "property": "C238",
   "status": "proved",
   "theorems": [
    "C238_bbs_frame",
    "C238_predicate_hits"
   ],
   "note": ""
  },
  {
   "property": "C239",
   "status": "proved",
   "theorems": [
    "C239_predicate_alone"
   ],
   "note": ""
  },
  {
   "property": "C240",
   "status": "partial",
   "theorems": [
    "C240_claims_stay_with_their_subject_refuted"
   ],
   "note": "refuted: the template lists all subjects, requested elements are renumbered from 0, so a claim about the second subject ends up at the first."
  },
  {
   "property": "C241",
   "status": "partial",
   "theorems": [
    "C241_fields_of_one_array_refuted"
   ],
   "note": "refuted: compaction counters are fresh for every field, so elements selected by different fields land on the same index (proved for separate arrays in C234)."
  },
  {
   "property": "C242",
   "status": "partial",
   "theorems": [
    "C242_predicate_hides_the_value_refuted"
   ],
   "note": "refuted: for an array element the value true is written at the compacted index; the original element stays where it was."
  },
  {
   "property": "C243",
   "status": "partial",
   "theorems": [
    "C243_dotted_names_refuted"
   ],
   "note": "refuted: paths are joined with dots for gjson/sjson; a dotted member name is read as nested members, null is written."
  },
  {
   "property": "C244",
   "status": "partial",
   "theorems": [
    "C244_first_alternative_only_refuted"
   ],
   "note": "refuted: all alternative paths are evaluated and all matches disclosed."
  },
  {
   "property": "C245",
   "status": "partial",
   "theorems": [
    "C245_only_schemas_are_withheld_refuted"
   ],
   "note": "refuted: every path whose text contains credentialSchema is skipped."
  },
  {
   "property": "C246",
   "status": "partial",
   "theorems": [
    "C246_bbs_array_elements_refuted"
   ],
   "note": "refuted: @explicit is set on the array itself, which sjson refuses."
  },
  {
   "property": "C247",
   "status": "partial",
   "theorems": [
    "C247_frame_members_refuted"
   ],
   "note": "refuted: for a top-level request the parent path is empty and a member with the empty name is added."
  },
  {
   "property": "C248",
   "status": "partial",
   "theorems": [
    "C248_no_stale_proof_refuted"
   ],
   "note": "refuted: the template is the whole credential, proof included, and proof checking is switched off."
  },
  {
   "property": "C249",
   "status": "proved",
   "theorems": [
    "C249_lists_the_matching_credentials",
    "C249_determined"
   ],
   "note": ""
  },
  {
   "property": "C250",
   "status": "proved",
   "theorems": [
    "C250_errors"
   ],
   "note": ""
  },
  {
   "property": "C251",
   "status": "proved",
   "theorems": [
    "C251_lists_limited_credentials",
    "C251_in_place_only_sd_jwt"
   ],
   "note": ""
  },
  {
   "property": "C252",
   "status": "proved",
   "theorems": [
    "C252_agrees_with_create_vp"
   ],
   "note": ""
  },
  {
   "property": "C253",
   "status": "partial",
   "theorems": [
    "C253_listed_but_not_submitted_refuted",
    "C253_left_out"
   ],
   "note": "refuted: without selective disclosure credentials that cannot be limited are listed although limit_disclosure is required; C253_left_out says which."
  },
  {
   "property": "C254",
   "status": "partial",
   "theorems": [
    "C254_more_credentials_fewer_matches_refuted"
   ],
   "note": "refuted: the first claim format the wallet has is chosen before schemas and constraints are looked at."
  },
  {
   "property": "C255",
   "status": "proved",
   "theorems": [
    "C255_one_by_one",
    "C255_bigger_wallet"
   ],
   "note": ""
  },
  {
   "property": "C256",
   "status": "partial",
   "theorems": [
    "C256_one_bad_credential_refuted"
   ],
   "note": "refuted: one unloadable context of any candidate credential fails the whole query."
  },
  {
   "property": "C257",
   "status": "partial",
   "theorems": [
    "C257_query_changes_the_wallet_refuted",
    "C257_changed_in_place"
   ],
   "note": "refuted: limiting an SD-JWT credential changes the wallet's credential; C257_changed_in_place says when."
  },
  {
   "property": "C258",
   "status": "partial",
   "theorems": [
    "C258_is_holder_has_no_effect_refuted"
   ],
   "note": "refuted: is_holder is never read (ValidateSchema accepts it: C258_accepted_example)."
  },
  {
   "property": "C259",
   "status": "partial",
   "theorems": [
    "C259_empty_schema_list_refuted"
   ],
   "note": "refuted: a non-nil empty schema list is satisfied by nothing."
  },
  {
   "property": "C260",
   "status": "proved",
   "theorems": [
    "C260_create_vp",
    "C260_create_vp_array"
   ],
   "note": ""
  },
  {
   "property": "C261",
   "status": "partial",
   "theorems": [
    "C261_mixed_data_models_refuted"
   ],
   "note": "refuted: credentials with v1 and v2 base contexts cannot be in one presentation."
  },
  {
   "property": "C262",
   "status": "proved",
   "theorems": [
    "C262_v1_schema"
   ],
   "note": ""
  },
  {
   "property": "C263",
   "status": "proved",
   "theorems": [
    "C263_v2_schema"
   ],
   "note": ""
  },
  {
   "property": "C264",
   "status": "proved",
   "theorems": [
    "C264_presentation_schemas"
   ],
   "note": ""
  },
  {
   "property": "C265",
   "status": "proved",
   "theorems": [
    "C265_accepted_credentials_have_the_shape"
   ],
   "note": ""
  },
  {
   "property": "C266",
   "status": "proved",
   "theorems": [
    "C266_accepted_presentations_have_the_shape"
   ],
   "note": ""
  },
  {
   "property": "C267",
   "status": "proved",
   "theorems": [
    "C267_created_v1_passes"
   ],
   "note": ""
  },
  {
   "property": "C268",
   "status": "proved",
   "theorems": [
    "C268_created_v2_passes"
   ],
   "note": ""
  },
  {
   "property": "C269",
   "status": "partial",
   "theorems": [
    "C269_several_statuses_refused_refuted"
   ],
   "note": "refuted: the 1.1 schema takes one status object only; a created credential with several is always refused."
  },
  {
   "property": "C270",
   "status": "partial",
   "theorems": [
    "C270_empty_context_refuted"
   ],
   "note": "refuted: the 1.1 schema takes an empty list of contexts, and baseContextExtendedValidation accepts it."
  },
  {
   "property": "C271",
   "status": "partial",
   "theorems": [
    "C271_later_proofs_refuted"
   ],
   "note": "refuted: the 1.1 presentation schema has a tuple of one proof schema; later entries may be anything."
  },
  {
   "property": "C272",
   "status": "proved",
   "theorems": [
    "C272_accepted_iff",
    "C272_otherwise_error"
   ],
   "note": ""
  },
  {
   "property": "C273",
   "status": "proved",
   "theorems": [
    "C273_accepted_definitions_can_be_matched",
    "C273_plain"
   ],
   "note": ""
  },
  {
   "property": "C274",
   "status": "partial",
   "theorems": [
    "C274_refused_refuted"
   ],
   "note": "refuted: both embedded schemas refuse cwt_vc/cwt_vp formats, locale, descriptor metadata and optional fields with a predicate."
  },
  {
   "property": "C275",
   "status": "partial",
   "theorems": [
    "C275_not_combined_refuted"
   ],
   "note": "refuted: schemas exist in the 1.0 schema only, frames, descriptor formats, optional and intent_to_retain in the 2.0 schema only."
  },
  {
   "property": "C276",
   "status": "partial",
   "theorems": [
    "C276_inconsistent_accepted_refuted"
   ],
   "note": "refuted: ids, groups and bounds are not compared."
  },
  {
   "property": "C277",
   "status": "proved",
   "theorems": [
    "C277_answers"
   ],
   "note": ""
  },
  {
   "property": "C278",
   "status": "proved",
   "theorems": [
    "C278_reuse"
   ],
   "note": ""
  },
  {
   "property": "C279",
   "status": "proved",
   "theorems": [
    "C279_interleaved"
   ],
   "note": ""
  },
  {
   "property": "C280",
   "status": "partial",
   "theorems": [
    "C280_lifetime_refuted"
   ],
   "note": "refuted: expiry is kept and compared in whole seconds, so an entry is served up to a second longer; expiration 0 serves entries until the second ends."
  },
  {
   "property": "C281",
   "status": "proved",
   "theorems": [
    "C281_descriptor_maps"
   ],
   "note": ""
  },
  {
   "property": "C282",
   "status": "proved",
   "theorems": [
    "C282_selection"
   ],
   "note": ""
  },
  {
   "property": "C283",
   "status": "proved",
   "theorems": [
    "C283_single",
    "C283_array"
   ],
   "note": ""
  },
  {
   "property": "C284",
   "status": "proved",
   "theorems": [
    "C284_single",
    "C284_array"
   ],
   "note": ""
  },
  {
   "property": "C285",
   "status": "partial",
   "theorems": [
    "C285_path_refuted"
   ],
   "note": "refuted: a path that leads nowhere is retried inside the member \"vp\", also in JSON presentations and in values that are not a JWT's claims; C282 states exactly what is selected."
  },
  {
   "property": "C286",
   "status": "proved",
   "theorems": [
    "C286_credentials",
    "C286_presentations",
    "C286_did",
    "C286_swap"
   ],
   "note": ""
  },
  {
   "property": "C287",
   "status": "proved",
   "theorems": [
    "C287_credentials"
   ],
   "note": ""
  },
  {
   "property": "C288",
   "status": "proved",
   "theorems": [
    "C288_presentations"
   ],
   "note": ""
  },
  {
   "property": "C289",
   "status": "proved",
   "theorems": [
    "C289_last_checker",
    "C289_nothing_given"
   ],
   "note": ""
  },
  {
   "property": "C290",
   "status": "partial",
   "theorems": [
    "C290_checker_given_refuted"
   ],
   "note": "refuted: an option that turns proof checks off wins whatever its place, so a checker given later is never asked."
  },
  {
   "property": "C291",
   "status": "partial",
   "theorems": [
    "C291_envelope_refuted"
   ],
   "note": "refuted: an envelope whose enclosed presentation is refused (or whose media type is unknown) is read as a presentation itself, with its own proof."
  },
  {
   "property": "C292",
   "status": "proved",
   "theorems": [
    "C292_memory_shows_values"
   ],
   "note": ""
  },
  {
   "property": "C293",
   "status": "proved",
   "theorems": [
    "C293_credentials_do_not_share"
   ],
   "note": ""
  },
  {
   "property": "C294",
   "status": "proved",
   "theorems": [
    "C294_maps_do_not_follow"
   ],
   "note": ""
  },
  {
   "property": "C295",
   "status": "partial",
   "theorems": [
    "C295_parse_keeps_callers_map_refuted"
   ],
   "note": "refuted: the credential keeps the caller's map; C293 holds for callers that do not use it again."
  },
  {
   "property": "C296",
   "status": "partial",
   "theorems": [
    "C296_raw_json_shares_nested_refuted"
   ],
   "note": "refuted: ToRawJSON copies only the top of the document."
  },
  {
   "property": "C297",
   "status": "partial",
   "theorems": [
    "C297_display_map_is_shared_refuted"
   ],
   "note": "refuted: for a credential that is no SD-JWT the map returned is the credential's own."
  },
  {
   "property": "C298",
   "status": "proved",
   "theorems": [
    "C298_slices_show_lists"
   ],
   "note": ""
  },
  {
   "property": "C299",
   "status": "partial",
   "theorems": [
    "C299_clone_shares_credentials_refuted"
   ],
   "note": "refuted: Clone copies the slice header, so an append with room left writes the shared array."
  },
  {
   "property": "C300",
   "status": "partial",
   "theorems": [
    "C300_claims_are_overwritten_refuted"
   ],
   "note": "refuted: append(opts.nonSDClaims, \"id\") writes the caller's array when it has room."
  },
  {
   "property": "C301",
   "status": "proved",
   "theorems": [
    "C301_disclosure_order"
   ],
   "note": ""
  },
  {
   "property": "C302",
   "status": "proved",
   "theorems": [
    "C302_binding_only_refuses"
   ],
   "note": ""
  },
  {
   "property": "C303",
   "status": "partial",
   "theorems": [
    "C303_moved_binding_refuted"
   ],
   "note": "refuted: the key binding JWT carries nothing about the JWT or the disclosures it is presented with (no sd_hash); it can be moved to any presentation with the same confirmation key."
  },
  {
   "property": "C304",
   "status": "proved",
   "theorems": [
    "C304_jws_named",
    "C304_jws_scheme",
    "C304_jws_accepted"
   ],
   "note": ""
  },
  {
   "property": "C305",
   "status": "proved",
   "theorems": [
    "C305_cose_scheme",
    "C305_cose_accepted"
   ],
   "note": ""
  },
  {
   "property": "C306",
   "status": "partial",
   "theorems": [
    "C306_registered_name_refuted",
    "C306_other_names_refuted",
    "C306_registered_name_refused_refuted"
   ],
   "note": "refuted: P-521 is written \"ES521\" instead of \"ES512\", and tokens with alg ES512 are refused; every other name is the registered one."
  },
  {
   "property": "C307",
   "status": "partial",
   "theorems": [
    "C307_no_cose_refuted",
    "C307_refused_refuted"
   ],
   "note": "refuted: secp256k1 and P-521 keys have no COSE algorithm, CWTs with alg -47 or -36 are always refused."
  },
  {
   "property": "C308",
   "status": "proved",
   "theorems": [
    "C308_check_later"
   ],
   "note": ""
  },
  {
   "property": "C309",
   "status": "proved",
   "theorems": [
    "C309_validate_later"
   ],
   "note": ""
  },
  {
   "property": "C310",
   "status": "proved",
   "theorems": [
    "C310_jwt_json"
   ],
   "note": ""
  },
  {
   "property": "C311",
   "status": "proved",
   "theorems": [
    "C311_jwt",
    "C311_embedded",
    "C311_cwt",
    "C311_ld"
   ],
   "note": ""
  },
  {
   "property": "C312",
   "status": "proved",
   "theorems": [
    "C312_jwt",
    "C312_embedded",
    "C312_cwt",
    "C312_ld",
    "C312_not_given",
    "C312_no_cwt",
    "C312_default"
   ],
   "note": ""
  },
  {
   "property": "C313",
   "status": "proved",
   "theorems": [
    "C313_first_signer",
    "C313_first_cose_signer",
    "C313_more"
   ],
   "note": ""
  },
  {
   "property": "C314",
   "status": "partial",
   "theorems": [
    "C314_named_key_refuted"
   ],
   "note": "Refuted: a ProofCreator looks for the signer by algorithm only; with two keys for one algorithm every token is signed with the first, also when its kid header names the second, so it does not verify."
  },
  {
   "property": "C315",
   "status": "proved",
   "theorems": [
    "C315_presentations_in_memory"
   ],
   "note": ""
  },
  {
   "property": "C316",
   "status": "proved",
   "theorems": [
    "C316_copies_show_the_same"
   ],
   "note": ""
  },
  {
   "property": "C317",
   "status": "proved",
   "theorems": [
    "C317_presentations_do_not_share"
   ],
   "note": ""
  },
  {
   "property": "C318",
   "status": "partial",
   "theorems": [
    "C318_copy_replaces_credentials_refuted"
   ],
   "note": "Refuted: Clone copies slice headers, and AddCredentials appends one by one, so spare cells of the array are shared: after three credentials, the credential added to the copy overwrites the one added to the original."
  },
  {
   "property": "C319",
   "status": "partial",
   "theorems": [
    "C319_copy_shares_fields_refuted"
   ],
   "note": "Refuted: Clone copies the map reference."
  },
  {
   "property": "C320",
   "status": "partial",
   "theorems": [
    "C320_credentials_hands_out_its_list_refuted"
   ],
   "note": "Refuted: Credentials() returns the presentation's own slice."
  },
  {
   "property": "C321",
   "status": "proved",
   "theorems": [
    "C321_sign_then_check"
   ],
   "note": ""
  },
  {
   "property": "C322",
   "status": "proved",
   "theorems": [
    "C322_unsecured"
   ],
   "note": ""
  },
  {
   "property": "C323",
   "status": "proved",
   "theorems": [
    "C323_bytes",
    "C323_tokens"
   ],
   "note": ""
  },
  {
   "property": "C324",
   "status": "proved",
   "theorems": [
    "C324_other_payload"
   ],
   "note": ""
  },
  {
   "property": "C325",
   "status": "proved",
   "theorems": [
    "C325_headers"
   ],
   "note": ""
  },
  {
   "property": "C326",
   "status": "partial",
   "theorems": [
    "C326_named_alg_refuted",
    "C326_named_alg"
   ],
   "note": "Does not hold: NewSigned picks the signer by SignParameters.JWTAlg, and an added header \"alg\" then replaces the algorithm in the token (mergeHeaders, protected headers win). Without such a header it holds (C326_named_alg)."
  },
  {
   "property": "C327",
   "status": "proved",
   "theorems": [
    "C327_same_claims",
    "C327_repeated"
   ],
   "note": ""
  },
  {
   "property": "C328",
   "status": "proved",
   "theorems": [
    "C328_sign_then_parse"
   ],
   "note": ""
  },
  {
   "property": "C329",
   "status": "proved",
   "theorems": [
    "C329_sign_then_parse"
   ],
   "note": ""
  },
  {
   "property": "C330",
   "status": "proved",
   "theorems": [
    "C330_sign_then_parse"
   ],
   "note": ""
  },
  {
   "property": "C331",
   "status": "proved",
   "theorems": [
    "C331_make_parse_display",
    "C331_make_parse_display_v5"
   ],
   "note": ""
  },
  {
   "property": "C332",
   "status": "proved",
   "theorems": [
    "C332_counts",
    "C332_empty",
    "C332_complement",
    "C332_match"
   ],
   "note": ""
  }
 ]
}