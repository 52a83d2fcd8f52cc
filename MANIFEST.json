{
 "claims": [
  {
   "property": "C01",
   "status": "proved",
   "theorems": [
    "C01_caveat_enables_iff",
    "C01_caveat_empty",
    "C01_caveat_enables_refl",
    "C01_caveat_enables_trans"
   ],
   "note": "Iff with an independent field-inclusion predicate; right-hand caveat is any value the Rust type can hold (object_ok)."
  },
  {
   "property": "C02",
   "status": "proved",
   "theorems": [
    "C02_resource_contains_iff",
    "C02_scoped_never_contains_wildcard",
    "C02_resource_contains_refl",
    "C02_resource_contains_trans"
   ],
   "note": "All scope types; preorder laws of the user's scope only where reflexivity/transitivity are concluded."
  },
  {
   "property": "C03",
   "status": "proved",
   "theorems": [
    "C03_view_enables_iff",
    "C03_view_enables_refl",
    "C03_view_enables_trans"
   ],
   "note": "All scope and ability types."
  },
  {
   "property": "C04",
   "status": "proved",
   "theorems": [
    "C04_caps_of_list_iter"
   ],
   "note": "Permutation + sorted by key + order kept per key = the stable sort."
  },
  {
   "property": "C05",
   "status": "proved",
   "theorems": [
    "C05_caps_of_list_fails_iff",
    "C05_caps_of_list_total",
    "C05_caveat"
   ],
   "note": "Plus: no third outcome."
  },
  {
   "property": "C06",
   "status": "proved",
   "theorems": [
    "C06_caps_roundtrip",
    "C06_caps_iter_in"
   ],
   "note": ""
  },
  {
   "property": "C07",
   "status": "proved",
   "theorems": [
    "C07_caps_of_value_iff"
   ],
   "note": "json_ok is the invariant of serde_json::Value."
  },
  {
   "property": "C08",
   "status": "partial",
   "theorems": [
    "C08_parsed_capabilities_refuted",
    "C08_signed_capabilities_partial",
    "C08_transported_capabilities_partial"
   ],
   "note": "False of the code: the derived Deserialize skips the checks of TryFrom; refuted by a parsed token. The _partial theorems prove it for signed UCANs, directly and after encoding and parsing."
  },
  {
   "property": "C09",
   "status": "proved",
   "theorems": [
    "C09_index_roundtrip",
    "C09_index_printing_injective",
    "C09_large_index_refused",
    "C09_index_is_honoured"
   ],
   "note": "Exact index bound (u64/usize parsing) and which proofs are redelegated."
  },
  {
   "property": "C10",
   "status": "partial",
   "theorems": [
    "C10_star_redelegates_all_refuted",
    "C10_star_parses_unscoped_partial",
    "C10_star_contributes_nothing_partial",
    "C10_star_alone_redelegates_nothing_partial",
    "C10_selection_contains_iff",
    "C10_delegations_enable"
   ],
   "note": "False of the code: `prf:*` parses to the unscoped resource, which the chain walk ignores; refuted on an accepted chain. The _partial theorems prove it never contributes a redelegation."
  },
  {
   "property": "C11",
   "status": "partial",
   "theorems": [
    "C11_as_parses_refuted",
    "C11_as_never_parses_partial",
    "C11_no_view_on_behalf_partial"
   ],
   "note": "False of the code: extract_did joins the parts after the DID without their separators, so the inner resource is no URL. The _partial theorems prove that no `as:` resource ever parses, for every semantics using the provided parser."
  },
  {
   "property": "C12",
   "status": "proved",
   "theorems": [
    "C12_roundtrip_iff",
    "C12_proof_capabilities",
    "C12_wildcard_is_lost",
    "C12_my_wildcard"
   ],
   "note": "Exact round-trip iff for scoped, proof and wildcard capabilities."
  },
  {
   "property": "C13",
   "status": "proved",
   "theorems": [
    "C13_validate_ok_iff",
    "C13_expiry_reported_first",
    "C13_earliness_reported_second",
    "C13_signature_reported_last"
   ],
   "note": "Iff over every environment (clock, store), key and parser state, plus the order of the error reports."
  },
  {
   "property": "C14",
   "status": "partial",
   "theorems": [
    "C14_supplied_time_refuted",
    "C14_supplied_time_partial"
   ],
   "note": "False of the code: not-before is compared with the machine clock, so the expected statement is refuted by a witness; the _partial theorem proves it when the machine clock is not ahead of the supplied time."
  },
  {
   "property": "C15",
   "status": "proved",
   "theorems": [
    "C15_lifetime_is_inclusion",
    "C15_lifetime_inclusion_sound",
    "C15_lifetime_refl",
    "C15_lifetime_trans"
   ],
   "note": "Instants range over all integers; reflexivity and transitivity included."
  },
  {
   "property": "C16",
   "status": "proved",
   "theorems": [
    "C16_sign_encode_parse"
   ],
   "note": "signable_carried: UTF-8 text, 64-bit instants, facts and caveats the wire carries (depth, no reserved \"/\" object, doubles that survive printing)."
  },
  {
   "property": "C17",
   "status": "proved",
   "theorems": [
    "C17_same_token_same_content"
   ],
   "note": ""
  },
  {
   "property": "C18",
   "status": "proved",
   "theorems": [
    "C18_signature_covers_payload"
   ],
   "note": ""
  },
  {
   "property": "C19",
   "status": "partial",
   "theorems": [
    "C19_three_segments_refuted",
    "C19_extra_segments_partial",
    "C19_missing_segments_partial",
    "C19_ok_or_error_partial"
   ],
   "note": "False of the code: segments after the third are ignored. The _partial theorems: extra segments never change the outcome; fewer than three is an error; parsing never aborts."
  },
  {
   "property": "C20",
   "status": "partial",
   "theorems": [
    "C20_reencode_refuted",
    "C20_reencode_partial"
   ],
   "note": "False of the code: other JSON spellings re-encode differently. The _partial theorem: re-encoding reproduces the token iff it is the encoding of some carried UCAN."
  },
  {
   "property": "C21",
   "status": "proved",
   "theorems": [
    "C21_reencode_preserves"
   ],
   "note": "Hypotheses: doubles the JSON parser yields survive printing (third-party float code), and the payload holds no reserved \"/\" object (obtainable only with duplicate \"/\" keys)."
  },
  {
   "property": "C22",
   "status": "partial",
   "theorems": [
    "C22_signed_parses_refuted",
    "C22_signed_parses_partial"
   ],
   "note": "False of the code: a fact {\"/\": string} signs but reads back as a link. The _partial theorem proves it for what the wire format carries."
  },
  {
   "property": "C23",
   "status": "proved",
   "theorems": [
    "C23_signed_verifies",
    "C23_signed_verifies_after_transport"
   ],
   "note": ""
  },
  {
   "property": "C24",
   "status": "partial",
   "theorems": [
    "C24_algorithm_matches_refuted",
    "C24_validation_ignores_header_partial",
    "C24_signed_header_partial"
   ],
   "note": "False of the code: the header is never consulted. The _partial theorems: validation is independent of the header; the builder writes the issuer key's algorithm."
  },
  {
   "property": "C25",
   "status": "proved",
   "theorems": [
    "C25_parsed_payload_is_authentic",
    "C25_constructor_is_unchecked"
   ],
   "note": "First theorem for parsed tokens; second shows the constructor (and Deserialize) gives no such guarantee."
  },
  {
   "property": "C26",
   "status": "proved",
   "theorems": [
    "C26_cache_invisible",
    "C26_failure_changes_nothing"
   ],
   "note": "For every history, every constructor table (constructors may fail or panic)."
  },
  {
   "property": "C27",
   "status": "proved",
   "theorems": [
    "C27_success_iff",
    "C27_constructor_outcome",
    "C27_unregistered_magic",
    "C27_other_method",
    "C27_bad_base58"
   ],
   "note": "Success iff, plus the outcome for every other class of input."
  },
  {
   "property": "C28",
   "status": "partial",
   "theorems": [
    "C28_never_aborts_refuted",
    "C28_aborts_iff_short_partial"
   ],
   "note": "False of the code: a did:key whose payload is shorter than two bytes aborts (slice index). The _partial theorem shows these are the only aborts when the constructors do not abort themselves."
  },
  {
   "property": "C29",
   "status": "proved",
   "theorems": [
    "C29_did_dispatches_to_own_type",
    "C29_ed25519_roundtrip",
    "C29_p256_roundtrip",
    "C29_rsa_roundtrip"
   ],
   "note": "Key encoding/decoding primitives are parameters (crypto record)."
  },
  {
   "property": "C30",
   "status": "proved",
   "theorems": [
    "C30_dids_distinguish_keys"
   ],
   "note": "Over all three key types with arbitrary encodings."
  },
  {
   "property": "C31",
   "status": "proved",
   "theorems": [
    "C31_public_key_refuses",
    "C31_no_token",
    "C31_error",
    "C31_parsed_keys_are_public_only"
   ],
   "note": ""
  },
  {
   "property": "C32",
   "status": "proved",
   "theorems": [
    "C32_accepted_is_valid",
    "C32_accepted_iff_valid",
    "C32_fuel_irrelevant"
   ],
   "note": "Soundness for any store and clock; iff for a store and clock that do not change during the run. The recursion is fuelled; results do not depend on the fuel once it suffices."
  },
  {
   "property": "C33",
   "status": "proved",
   "theorems": [
    "C33_every_link_valid"
   ],
   "note": "For any store and clock: live at a clock reading taken during the run."
  },
  {
   "property": "C34",
   "status": "proved",
   "theorems": [
    "C34_audience_is_issuer"
   ],
   "note": ""
  },
  {
   "property": "C35",
   "status": "proved",
   "theorems": [
    "C35_lifetime_within_ancestors",
    "C35_live_implies_ancestors_live"
   ],
   "note": "Lifetimes as sets of integer instants."
  },
  {
   "property": "C36",
   "status": "proved",
   "theorems": [
    "C36_proofs_are_the_cited_tokens",
    "C36_no_proof_is_dropped",
    "C36_memory_store_token_has_cited_cid"
   ],
   "note": "The in-memory statement needs no collision-freeness: it is about the CID of the token found."
  },
  {
   "property": "C37",
   "status": "proved",
   "theorems": [
    "C37_missing_proof_rejected",
    "C37_accepted_chain_reduces"
   ],
   "note": ""
  },
  {
   "property": "C38",
   "status": "proved",
   "theorems": [
    "C38_history_irrelevant",
    "C38_other_chains_are_history"
   ],
   "note": "Parser state, clock ticks, read and check counters may all differ."
  },
  {
   "property": "C39",
   "status": "proved",
   "theorems": [
    "C39_acyclic_terminates",
    "C39_self_citation_diverges"
   ],
   "note": "Acyclicity as well-foundedness of the citation relation; the self-citing store shows the hypothesis is needed."
  },
  {
   "property": "C40",
   "status": "proved",
   "theorems": [
    "C40_read_returns_what_was_written",
    "C40_unwritten_reads_absent",
    "C40_write_succeeds",
    "C40_only_bytes_are_written",
    "C40_reads_change_nothing"
   ],
   "note": "Any operation sequence on one store; collision_free says the hash does not collide on the blocks of that run."
  },
  {
   "property": "C41",
   "status": "proved",
   "theorems": [
    "C41_token_read_back",
    "C41_token_read_back_later",
    "C41_token_is_text",
    "C41_stored_under_own_cid",
    "C41_cited_proof_resolves"
   ],
   "note": "Reading back immediately and after any further operations; the text the builder cites resolves to the stored token."
  },
  {
   "property": "C42",
   "status": "partial",
   "theorems": [
    "C42_absent_is_none_refuted",
    "C42_absent_is_error_partial",
    "C42_never_none_partial"
   ],
   "note": "False of the code: read_token reports an absent token as an error and never returns Ok(None). The _partial theorems characterise what happens."
  },
  {
   "property": "C43",
   "status": "proved",
   "theorems": [
    "C43_other_codec_is_error",
    "C43_read_iff_raw_text"
   ],
   "note": "Iff for success; the error leaves the state untouched."
  },
  {
   "property": "C44",
   "status": "proved",
   "theorems": [
    "C44_other_hash_rejected",
    "C44_builder_cites_other_hash"
   ],
   "note": "For any environment backed by the in-memory store."
  },
  {
   "property": "C45",
   "status": "proved",
   "theorems": [
    "C45_report_has_leaf_lifetime",
    "C45_window_within_chain"
   ],
   "note": "All semantics, including ones that override parsing."
  },
  {
   "property": "C46",
   "status": "proved",
   "theorems": [
    "C46_reported_was_claimed_or_redelegated",
    "C46_passed_on_was_claimed",
    "C46_accepted_chain_reports"
   ],
   "note": ""
  },
  {
   "property": "C47",
   "status": "proved",
   "theorems": [
    "C47_originators_are_issuers",
    "C47_without_proofs_the_issuer"
   ],
   "note": ""
  },
  {
   "property": "C48",
   "status": "partial",
   "theorems": [
    "C48_no_unclaimed_authority_refuted",
    "C48_originator_source_partial",
    "C48_no_unclaimed_authority_partial"
   ],
   "note": "False of the code: merging a narrow claim into a broad one credits the narrow claim's originator with the broad capability; refuted on an accepted chain. The _partial theorems show where an originator comes from, and the property itself where enabling among the claims is mutual."
  },
  {
   "property": "C49",
   "status": "proved",
   "theorems": [
    "C49_claims_are_covered",
    "C49_redelegations_are_covered",
    "C49_preorders_suffice"
   ],
   "note": "Transitivity is only required among the capabilities understood in the chain; C49_preorders_suffice derives it from the preorder laws."
  },
  {
   "property": "C50",
   "status": "proved",
   "theorems": [
    "C50_claim_attribution",
    "C50_unproved_claim_names_issuer"
   ],
   "note": "Exact attribution for a claim incomparable with the other reported ones; in general the entry covering the claim has at least those originators."
  },
  {
   "property": "C51",
   "status": "partial",
   "theorems": [
    "C51_no_redundant_entry_refuted",
    "C51_no_earlier_redundant_partial",
    "C51_no_redundant_entry_partial"
   ],
   "note": "False of the code: an entry is only merged into one listed earlier. The _partial theorems show no entry enables one reported before it, and the property where enabling is mutual."
  },
  {
   "property": "C52",
   "status": "partial",
   "theorems": [
    "C52_understood_claims_count_refuted",
    "C52_understood_claims_count_partial"
   ],
   "note": "False of the code: map_while stops at the first claim of another semantics. The _partial theorem assumes every claim of the UCAN is understood."
  },
  {
   "property": "C53",
   "status": "proved",
   "theorems": [
    "C53_order_independent_report"
   ],
   "note": ""
  },
  {
   "property": "C54",
   "status": "proved",
   "theorems": [
    "C54_build_iff_described",
    "C54_build_succeeds_iff",
    "C54_missing_issuer",
    "C54_missing_audience"
   ],
   "note": ""
  },
  {
   "property": "C55",
   "status": "proved",
   "theorems": [
    "C55_delegating_from_points_at_its_proof",
    "C55_later_calls_keep_the_proofs"
   ],
   "note": ""
  },
  {
   "property": "C56",
   "status": "proved",
   "theorems": [
    "C56_redelegated_iff_delegating_from",
    "C56_proofs_are_the_authorities_cited"
   ],
   "note": ""
  },
  {
   "property": "C57",
   "status": "proved",
   "theorems": [
    "C57_lifetime_expiry",
    "C57_abort_iff_overflow"
   ],
   "note": ""
  },
  {
   "property": "C58",
   "status": "partial",
   "theorems": [
    "C58_signing_never_aborts_refuted",
    "C58_aborts_iff_partial",
    "C58_otherwise_reports_partial"
   ],
   "note": "False of the code: signing aborts (expect) for a capability whose caveat is not an object. The _partial theorem characterises the aborts and shows every other failure is an error."
  },
  {
   "property": "C59",
   "status": "proved",
   "theorems": [
    "C59_nonce_iff_requested",
    "C59_nonce_form",
    "C59_distinct_draws_distinct_nonces"
   ],
   "note": ""
  },
  {
   "property": "C60",
   "status": "proved",
   "theorems": [
    "C60_order_independent"
   ],
   "note": "Any two orders of independent additions, at any point of any builder call sequence, give the same outcome (UCAN or error)."
  },
  {
   "property": "C61",
   "status": "proved",
   "theorems": [
    "C61_signature_roundtrip",
    "C61_signature_layout"
   ],
   "note": "Signature length a 64-bit word (always so in the code); the layout is stated with an independent LEB128 predicate and code table."
  },
  {
   "property": "C62",
   "status": "partial",
   "theorems": [
    "C62_decode_never_aborts_refuted",
    "C62_decode_aborts_iff_partial",
    "C62_decode_terminates_partial"
   ],
   "note": "False of the code: the slice by the declared length is unchecked. The _partial theorems characterise the aborts exactly."
  },
  {
   "property": "C63",
   "status": "partial",
   "theorems": [
    "C63_unique_refuted",
    "C63_unique_same_length_refuted",
    "C63_decode_iff_partial",
    "C63_short_varints_partial",
    "C63_encode_injective_partial"
   ],
   "note": "False of the code: trailing bytes are ignored, and ten-byte varints overflow silently. The _partial theorems characterise decoding exactly and show the encoder is injective."
  },
  {
   "property": "C64",
   "status": "proved",
   "theorems": [
    "C64_principal_roundtrip",
    "C64_principal_roundtrip_iff",
    "C64_principal_reads_back"
   ],
   "note": "Exact: the strings printed back are the printable_did ones; plus the reverse direction."
  },
  {
   "property": "C65",
   "status": "partial",
   "theorems": [
    "C65_injective_refuted",
    "C65_collisions_partial",
    "C65_printable_injective_partial"
   ],
   "note": "False of the code: a did:key whose payload starts with the 9d1a marker collides with another DID. The _partial theorems show these are the only collisions."
  },
  {
   "property": "C66",
   "status": "partial",
   "theorems": [
    "C66_printing_never_aborts_refuted",
    "C66_printing_aborts_iff_partial",
    "C66_did_aborts_iff_partial"
   ],
   "note": "False of the code: short payloads and marked invalid UTF-8 abort. The _partial theorems characterise the aborts exactly."
  },
  {
   "property": "C67",
   "status": "proved",
   "theorems": [
    "C67_lossless",
    "C67_reencodes",
    "C67_verifies",
    "C67_lossless_iff"
   ],
   "note": "Also an iff: exactly which UCANs come back with the same header and payload (an empty proof list, for instance, does not)."
  },
  {
   "property": "C68",
   "status": "partial",
   "theorems": [
    "C68_version_preserved_refuted",
    "C68_version_preserved_iff_partial",
    "C68_block_keeps_version_partial"
   ],
   "note": "False of the code: reading back writes the current version. The _partial theorems: preserved iff it was the current one; the block itself keeps it."
  },
  {
   "property": "C69",
   "status": "proved",
   "theorems": [
    "C69_decode_iff_encode",
    "C69_roundtrip",
    "C69_injective",
    "C69_no_dot"
   ],
   "note": "Exact characterisation of decoding; alphabet/bit-level model of the base64 crate's URL_SAFE_NO_PAD engine."
  },
  {
   "property": "C70",
   "status": "proved",
   "theorems": [
    "C70_decode_iff_encode",
    "C70_roundtrip",
    "C70_injective"
   ],
   "note": "Exact characterisation of decoding, leading zeros included."
  },
  {
   "property": "C71",
   "status": "proved",
   "theorems": [
    "C71_roundtrip",
    "C71_roundtrip_trailing",
    "C71_injective"
   ],
   "note": ""
  },
  {
   "property": "C72",
   "status": "proved",
   "theorems": [
    "C72_cid_text_roundtrip",
    "C72_cid_text_injective"
   ],
   "note": "Digest at most 64 bytes (the Multihash<64> type of the code)."
  },
  {
   "property": "C73",
   "status": "proved",
   "theorems": [
    "C73_redelegates_only_the_proofs",
    "C73_redelegates_all_of_the_proofs",
    "C73_redelegates_only_their_originators"
   ],
   "note": ""
  },
  {
   "property": "C74",
   "status": "partial",
   "theorems": [
    "C74_exp_mandatory_refuted",
    "C74_exp_meaning_partial"
   ],
   "note": "False of the code: a token without exp parses as never expiring. The _partial theorem characterises the meaning of the field."
  },
  {
   "property": "C75",
   "status": "partial",
   "theorems": [
    "C75_linear_refuted",
    "C75_exponential_refuted",
    "C75_one_check_per_link_partial",
    "C75_linear_without_sharing_partial",
    "C75_bounded_by_shape_partial"
   ],
   "note": "False of the code: a shared proof is validated once per citation; n stored tokens can force 2^(n+1)-1 checks (family constructed for every n below 2^64). The _partial theorems: checks = occurrences in the chain; linear without sharing; bounded by branching^height."
  },
  {
   "property": "C76",
   "status": "proved",
   "theorems": [
    "C76_supplied_time",
    "C76_window_of_acceptance",
    "C76_same_chain"
   ],
   "note": "Supplied-time part is state-exact for every environment; the machine-clock part is for a steady store."
  },
  {
   "property": "C77",
   "status": "proved",
   "theorems": [
    "C77_growing_store",
    "C77_memory_store_grows"
   ],
   "note": "General monotone store and, for the in-memory store, any further operations under no hash collision."
  },
  {
   "property": "C78",
   "status": "partial",
   "theorems": [
    "C78_tokens_never_abort_refuted",
    "C78_only_short_dids_abort_partial",
    "C78_short_did_aborts_partial",
    "C78_standard_keys_partial"
   ],
   "note": "Refuted by one unsigned token that aborts every validator; partial: the only abort with non-aborting store and keys is a too-short issuer did:key reachable by citations."
  },
  {
   "property": "C79",
   "status": "partial",
   "theorems": [
    "C79_content_has_cited_cid_refuted",
    "C79_content_has_cited_cid_partial"
   ],
   "note": "Refuted for arbitrary stores; holds for the in-memory store with concurrent writers (partial)."
  },
  {
   "property": "C80",
   "status": "partial",
   "theorems": [
    "C80_excess_claim_refused_refuted",
    "C80_excess_claim_is_the_issuers_partial"
   ],
   "note": "Refuted; partial: an unproved claim unrelated to the others is reported with the issuer as only originator."
  },
  {
   "property": "C81",
   "status": "proved",
   "theorems": [
    "C81_version_type_algorithm_ignored",
    "C81_only_links_matter"
   ],
   "note": "Iff over pairs of UCANs, steady environment."
  },
  {
   "property": "C82",
   "status": "partial",
   "theorems": [
    "C82_empty_window_refused_refuted",
    "C82_empty_window_refused_partial",
    "C82_no_empty_ancestor_partial"
   ],
   "note": "Refuted twice (supplied time; clock advancing between two readings); partial: clock standing still, and no live UCAN rests on a never-live one."
  },
  {
   "property": "C83",
   "status": "proved",
   "theorems": [
    "C83_built_is_accepted"
   ],
   "note": "Machine clock standing still during the check; in-memory store after any operations, no hash collision."
  },
  {
   "property": "C84",
   "status": "proved",
   "theorems": [
    "C84_hand_over_accepted",
    "C84_hand_over_report"
   ],
   "note": "Report equality is up to order (merging appends in stack order) and for a report in which no entry enables another; the root's own report otherwise merges further."
  },
  {
   "property": "C85",
   "status": "proved",
   "theorems": [
    "C85_genuine_originator",
    "C85_sole_originator",
    "C85_some_originator_claimed",
    "C85_sole_originator_claimed"
   ],
   "note": "No hypothesis on the semantics for the line of claims; transitivity only for the last two theorems. Complements the refuted C48."
  },
  {
   "property": "C86",
   "status": "proved",
   "theorems": [
    "C86_report_has_authority",
    "C86_originators_signed",
    "C86_sole_originator_signed"
   ],
   "note": "Unforgeability is the hypothesis `unforgeable`; any store, including hostile ones."
  },
  {
   "property": "C87",
   "status": "proved",
   "theorems": [
    "C87_roundtrip",
    "C87_roundtrip_iff",
    "C87_injective"
   ],
   "note": "Unconditional on the payload except for the ranges of the Rust types."
  },
  {
   "property": "C88",
   "status": "partial",
   "theorems": [
    "C88_byte_strings_refuted",
    "C88_integer_lists_partial",
    "C88_byte_strings_not_read_partial"
   ],
   "note": "Refuted; the partial theorems give the exact form written and that byte strings are not read."
  },
  {
   "property": "C89",
   "status": "proved",
   "theorems": [
    "C89_read_iff",
    "C89_only_maps",
    "C89_stable"
   ],
   "note": "Iff over all maps with increasing keys (BTreeMap)."
  },
  {
   "property": "C90",
   "status": "partial",
   "theorems": [
    "C90_never_aborts_refuted",
    "C90_aborts_iff_partial",
    "C90_converts_iff_partial",
    "C90_terminates_partial"
   ],
   "note": "Refuted; the partial theorems say exactly when it aborts and when it converts."
  },
  {
   "property": "C91",
   "status": "proved",
   "theorems": [
    "C91_jwt_through_data",
    "C91_token_data_read_back"
   ],
   "note": "Conditions on the UCAN are those of C67 (necessary, C67_lossless_iff); no condition for the data step."
  },
  {
   "property": "C92",
   "status": "proved",
   "theorems": [
    "C92_ucan_roundtrip_iff",
    "C92_token_roundtrip"
   ],
   "note": ""
  },
  {
   "property": "C93",
   "status": "partial",
   "theorems": [
    "C93_deserialised_authority_refuted",
    "C93_own_signing_input_partial"
   ],
   "note": "Refuted end to end; partial: true when signed bytes and payload agree."
  },
  {
   "property": "C94",
   "status": "partial",
   "theorems": [
    "C94_native_did_refuted",
    "C94_native_did_iff_partial",
    "C94_other_sizes_partial",
    "C94_other_sizes_abort_partial"
   ],
   "note": "Refuted for 1024-bit keys; partial: exactly which sizes agree, and what happens for others of at least 127 bytes. Hypothesis on the decoder: only DER sequences that start with an integer decode, canonically."
  },
  {
   "property": "C95",
   "status": "proved",
   "theorems": [
    "C95_token_verifies_natively",
    "C95_algorithm",
    "C95_signs_iff",
    "C95_verifies_iff"
   ],
   "note": "Browser and RSA arithmetic are parameters; the hypothesis is that one's signatures verify under the other."
  },
  {
   "property": "C96",
   "status": "partial",
   "theorems": [
    "C96_checks_header_refuted",
    "C96_never_aborts_refuted",
    "C96_converts_iff_partial",
    "C96_aborts_iff_partial",
    "C96_did_aborts_iff_partial"
   ],
   "note": "Refuted; the partial theorems are exact."
  },
  {
   "property": "C97",
   "status": "proved",
   "theorems": [
    "C97_examples_are_preorders",
    "C97_wnfs_claims_are_covered",
    "C97_wnfs_levels"
   ],
   "note": ""
  },
  {
   "property": "C98",
   "status": "partial",
   "theorems": [
    "C98_wnfs_contains_iff",
    "C98_directory_contains_partial",
    "C98_directory_contains_refuted"
   ],
   "note": "Refuted for a trailing slash; the containment theorem is exact."
  },
  {
   "property": "C99",
   "status": "partial",
   "theorems": [
    "C99_no_duplicate_proofs_refuted",
    "C99_no_duplicate_proofs_partial",
    "C99_repeated_proof_partial"
   ],
   "note": "Refuted; partial: exact proof list, and repetitions of proofs that are not redelegated are harmless."
  },
  {
   "property": "C100",
   "status": "proved",
   "theorems": [
    "C100_proof_order",
    "C100_same_proofs"
   ],
   "note": ""
  },
  {
   "property": "C101",
   "status": "proved",
   "theorems": [
    "C101_report_exactly"
   ],
   "note": ""
  },
  {
   "property": "C102",
   "status": "proved",
   "theorems": [
    "C102_capabilities_of_the_root",
    "C102_at_most_the_claims"
   ],
   "note": ""
  },
  {
   "property": "C103",
   "status": "proved",
   "theorems": [
    "C103_token_text",
    "C103_header_text",
    "C103_payload_text",
    "C103_constants"
   ],
   "note": ""
  },
  {
   "property": "C104",
   "status": "proved",
   "theorems": [
    "C104_token_read"
   ],
   "note": ""
  },
  {
   "property": "C105",
   "status": "proved",
   "theorems": [
    "C105_base64url",
    "C105_base32",
    "C105_base58",
    "C105_decimal"
   ],
   "note": ""
  },
  {
   "property": "C106",
   "status": "proved",
   "theorems": [
    "C106_cid_text",
    "C106_default_proof"
   ],
   "note": ""
  },
  {
   "property": "C107",
   "status": "proved",
   "theorems": [
    "C107_did_text",
    "C107_algorithm_names"
   ],
   "note": ""
  },
  {
   "property": "C108",
   "status": "proved",
   "theorems": [
    "C108_documents",
    "C108_utf8",
    "C108_tokens"
   ],
   "note": ""
  },
  {
   "property": "C109",
   "status": "proved",
   "theorems": [
    "C109_resource_texts",
    "C109_capability_texts",
    "C109_proof_texts"
   ],
   "note": ""
  },
  {
   "property": "C110",
   "status": "proved",
   "theorems": [
    "C110_only_cited_blocks_matter"
   ],
   "note": ""
  },
  {
   "property": "C111",
   "status": "proved",
   "theorems": [
    "C111_every_refusal_has_a_reason",
    "C111_accepted_iff_faultless"
   ],
   "note": ""
  },
  {
   "property": "C112",
   "status": "proved",
   "theorems": [
    "C112_token_errors"
   ],
   "note": ""
  },
  {
   "property": "C113",
   "status": "proved",
   "theorems": [
    "C113_from_token",
    "C113_from_cid",
    "C113_from_token_refused",
    "C113_from_cid_refused"
   ],
   "note": ""
  },
  {
   "property": "C114",
   "status": "proved",
   "theorems": [
    "C114_key_kinds",
    "C114_signature_kinds",
    "C114_jwt_algorithms",
    "C114_signature_errors",
    "C114_principals",
    "C114_principal_errors"
   ],
   "note": ""
  },
  {
   "property": "C115",
   "status": "proved",
   "theorems": [
    "C115_blake2b_store",
    "C115_citation_under_hash"
   ],
   "note": ""
  },
  {
   "property": "C116",
   "status": "proved",
   "theorems": [
    "C116_line_report",
    "C116_attenuating_line",
    "C116_one_originator"
   ],
   "note": ""
  },
  {
   "property": "C117",
   "status": "proved",
   "theorems": [
    "C117_from_ucan",
    "C117_from_token",
    "C117_from_cid",
    "C117_answers_used"
   ],
   "note": ""
  },
  {
   "property": "C118",
   "status": "proved",
   "theorems": [
    "C118_cid_bytes",
    "C118_cid_text",
    "C118_versions",
    "C118_version_0_text"
   ],
   "note": "Bases other than base32 and base58btc are a parameter (multibase library)."
  },
  {
   "property": "C119",
   "status": "proved",
   "theorems": [
    "C119_native_sign",
    "C119_native_verify",
    "C119_bad_key_bytes",
    "C119_web_sign",
    "C119_web_verify",
    "C119_web_unavailable"
   ],
   "note": ""
  },
  {
   "property": "C120",
   "status": "proved",
   "theorems": [
    "C120_caps_error_iff",
    "C120_caps_total"
   ],
   "note": ""
  },
  {
   "property": "C121",
   "status": "proved",
   "theorems": [
    "C121_email_scope",
    "C121_email_ability",
    "C121_wnfs_scope",
    "C121_wnfs_ability"
   ],
   "note": ""
  },
  {
   "property": "C122",
   "status": "proved",
   "theorems": [
    "C122_mutual_enabling",
    "C122_same_capability",
    "C122_no_repetition",
    "C122_examples_are_antisymmetric"
   ],
   "note": ""
  },
  {
   "property": "C123",
   "status": "proved",
   "theorems": [
    "C123_wrapped_key"
   ],
   "note": ""
  },
  {
   "property": "C124",
   "status": "proved",
   "theorems": [
    "C124_generated_text",
    "C124_generate_aborts",
    "C124_generated_token_is_good"
   ],
   "note": ""
  },
  {
   "property": "C125",
   "status": "proved",
   "theorems": [
    "C125_get_capabilities",
    "C125_no_key_types"
   ],
   "note": ""
  },
  {
   "property": "C126",
   "status": "proved",
   "theorems": [
    "C126_selection_text",
    "C126_delegate_text"
   ],
   "note": ""
  },
  {
   "property": "C127",
   "status": "proved",
   "theorems": [
    "C127_read_iff",
    "C127_write_iff",
    "C127_written_when",
    "C127_prefix_free",
    "C127_reencode",
    "C127_read_data"
   ],
   "note": ""
  },
  {
   "property": "C128",
   "status": "proved",
   "theorems": [
    "C128_roundtrip_iff",
    "C128_ucan_roundtrip_iff",
    "C128_bytes_roundtrip",
    "C128_layout",
    "C128_distinct",
    "C128_stable",
    "C128_token_through_block",
    "C128_rust_data"
   ],
   "note": ""
  },
  {
   "property": "C129",
   "status": "proved",
   "theorems": [
    "C129_read_iff",
    "C129_decode_iff",
    "C129_encode_iff",
    "C129_encodes",
    "C129_one_encoding",
    "C129_distinct",
    "C129_did",
    "C129_resolves"
   ],
   "note": ""
  },
  {
   "property": "C130",
   "status": "partial",
   "theorems": [
    "C130_own_did_refuted",
    "C130_asks_partial",
    "C130_generated_did_partial",
    "C130_own_did_partial",
    "C130_small_never_own_partial",
    "C130_token_verifies_partial",
    "C130_sign_aborts_partial"
   ],
   "note": "Refuted: a 510-bit key whose browser DID is that of another key. Partial: true exactly for 1944 to 4096 bits (default 2048); from 936 bits on the other sizes have no DID and signing aborts; below 1944 bits the DID is never the key's own. Exponent 65537, moduli up to 65536 bits."
  },
  {
   "property": "C131",
   "status": "partial",
   "theorems": [
    "C131_own_did_refuted",
    "C131_own_did_iff_partial",
    "C131_rsa_partial",
    "C131_second_did_partial",
    "C131_second_token_partial",
    "C131_names_apart_partial"
   ],
   "note": "Refuted for a P-256 decoder that reads SEC 1's uncompressed form. Partial: true exactly if each decoder reads nothing but encodings, which the DER decoder for RSA does; with a SEC 1 decoder every P-256 key has a second DID, its tokens under that name have valid signatures, and in a chain the two names are different principals. That the p256 crate reads the uncompressed form is assumed from its documentation; for Ed25519 nothing is assumed."
  },
  {
   "property": "C132",
   "status": "proved",
   "theorems": [
    "C132_resource_texts",
    "C132_scope_texts",
    "C132_proof_texts"
   ],
   "note": "The rules are the URL Standard's basic URL parser, a model of third-party code: the theorem is for every library that follows them (its hypothesis). Which path characters are encoded and how IPv6 addresses are read are parameters."
  },
  {
   "property": "C133",
   "status": "proved",
   "theorems": [
    "C133_no_dots",
    "C133_below",
    "C133_stable",
    "C133_user_port_query"
   ],
   "note": "Stability of the printed text needs the encoding set to contain the space and not the percent sign and hexadecimal digits, as in url 2.x, and IPv6 addresses to print as they are read."
  },
  {
   "property": "C134",
   "status": "proved",
   "theorems": [
    "C134_reading",
    "C134_one_number",
    "C134_refused"
   ],
   "note": "A model of third-party code (serde_json with the feature float_roundtrip, which libipld-json turns on; believed from its documentation): the theorems are about any library that rounds correctly."
  },
  {
   "property": "C135",
   "status": "proved",
   "theorems": [
    "C135_reads_back",
    "C135_float_text",
    "C135_shortest",
    "C135_closest",
    "C135_layout",
    "C135_layout_unique",
    "C135_one_layout"
   ],
   "note": "A model of third-party code (the crate ryu), written from its documentation."
  },
  {
   "property": "C136",
   "status": "proved",
   "theorems": [
    "C136_carried",
    "C136_floats_survive",
    "C136_reencode"
   ],
   "note": ""
  },
  {
   "property": "C137",
   "status": "proved",
   "theorems": [
    "C137_sha256"
   ],
   "note": "SHA-256 is third-party code (the crate sha2), modelled from FIPS 180-4."
  },
  {
   "property": "C138",
   "status": "proved",
   "theorems": [
    "C138_verify",
    "C138_sign",
    "C138_short",
    "C138_token",
    "C138_range_loss",
    "C138_range_twin"
   ],
   "note": "The crate rsa is not in the repository; its signatures are modelled from RFC 8017. Whether the release tests the range is a parameter."
  },
  {
   "property": "C139",
   "status": "partial",
   "theorems": [
    "C139_one_signature_refuted",
    "C139_p256_partial",
    "C139_rsa_partial"
   ],
   "note": "Proved: false in general (refuted); for ECDSA verification over any group with the laws of a curve of odd order every accepted P-256 token has a twin; for RSA there is one signature; for Ed25519 see C142."
  },
  {
   "property": "C140",
   "status": "proved",
   "theorems": [
    "C140_keys",
    "C140_seeds",
    "C140_complete",
    "C140_token"
   ],
   "note": "The crates ed25519-zebra and curve25519-dalek are not in the repository; they are modelled from RFC 8032 and ZIP 215. The hash (SHA-512) is a parameter."
  },
  {
   "property": "C141",
   "status": "partial",
   "theorems": [
    "C141_bound_refuted",
    "C141_universal_partial",
    "C141_token_partial",
    "C141_seeds_partial",
    "C141_bound_partial"
   ],
   "note": "Proved: false in general (refuted, by a key of small order); exactly the keys of small order have a universal signature; for keys made from a seed the property holds up to collisions of the hash number."
  },
  {
   "property": "C142",
   "status": "proved",
   "theorems": [
    "C142_first_half",
    "C142_first_halves",
    "C142_tokens"
   ],
   "note": ""
  },
  {
   "property": "C143",
   "status": "partial",
   "theorems": [
    "C143_one_did_refuted",
    "C143_names_partial",
    "C143_points_partial"
   ],
   "note": "Proved: false in general (refuted); exact description of the points with a second name."
  },
  {
   "property": "C144",
   "status": "proved",
   "theorems": [
    "C144_sha512",
    "C144_token",
    "C144_seeds"
   ],
   "note": "The crate sha2 is not in the repository; its hash is modelled from FIPS 180-4. Messages of 2^128 bits and more get the length modulo 2^128."
  },
  {
   "property": "C145",
   "status": "proved",
   "theorems": [
    "C145_keys",
    "C145_pairs",
    "C145_scalars",
    "C145_nonces",
    "C145_token"
   ],
   "note": "The crates p256, ecdsa and elliptic-curve are not in the repository; they are modelled from SEC 1 and FIPS 186-4, with affine arithmetic. The nonce is a parameter."
  },
  {
   "property": "C146",
   "status": "partial",
   "theorems": [
    "C146_one_did_refuted",
    "C146_names_partial",
    "C146_points_partial",
    "C146_did_partial"
   ],
   "note": "Proved: false in general (refuted); the number of names of every point, and which names are stable."
  },
  {
   "property": "C147",
   "status": "proved",
   "theorems": [
    "C147_private",
    "C147_public",
    "C147_order",
    "C147_sum"
   ],
   "note": ""
  },
  {
   "property": "C148",
   "status": "proved",
   "theorems": [
    "C148_ecdsa",
    "C148_twin",
    "C148_exactly_two"
   ],
   "note": ""
  },
  {
   "property": "C149",
   "status": "proved",
   "theorems": [
    "C149_p256",
    "C149_ed25519",
    "C149_rsa"
   ],
   "note": "RSA: whatever the private exponent, because the crate checks a signature before it returns it."
  },
  {
   "property": "C150",
   "status": "proved",
   "theorems": [
    "C150_blake3",
    "C150_pieces"
   ],
   "note": "The crate blake3 (behind multihash) is not in the repository; its reference implementation is modelled, the specification is the tree of the paper. Chunk counters are taken modulo 2^64."
  },
  {
   "property": "C151",
   "status": "proved",
   "theorems": [
    "C151_blake2b256"
   ],
   "note": "The crate blake2b_simd (behind multihash) is not in the repository; modelled from RFC 7693."
  },
  {
   "property": "C152",
   "status": "proved",
   "theorems": [
    "C152_digests",
    "C152_multihash",
    "C152_cid_text",
    "C152_default_citation"
   ],
   "note": "The crate multihash is not in the repository; its other codes stay a parameter."
  },
  {
   "property": "C153",
   "status": "proved",
   "theorems": [
    "C153_read_back",
    "C153_cited_resolves"
   ],
   "note": ""
  },
  {
   "property": "C154",
   "status": "proved",
   "theorems": [
    "C154_one_chain"
   ],
   "note": ""
  },
  {
   "property": "C155",
   "status": "proved",
   "theorems": [
    "C155_block",
    "C155_errors",
    "C155_total"
   ],
   "note": ""
  },
  {
   "property": "C156",
   "status": "partial",
   "theorems": [
    "C156_ucan",
    "C156_errors",
    "C156_never_aborts_refuted",
    "C156_aborts_iff_partial"
   ],
   "note": "Proved: false in general (refuted); what is read, refused and aborts, exactly."
  },
  {
   "property": "C157",
   "status": "proved",
   "theorems": [
    "C157_view_text"
   ],
   "note": ""
  },
  {
   "property": "C158",
   "status": "proved",
   "theorems": [
    "C158_hmac",
    "C158_nonce",
    "C158_found",
    "C158_one",
    "C158_range"
   ],
   "note": ""
  },
  {
   "property": "C159",
   "status": "proved",
   "theorems": [
    "C159_signs",
    "C159_made",
    "C159_once",
    "C159_token",
    "C159_fresh"
   ],
   "note": ""
  },
  {
   "property": "C160",
   "status": "proved",
   "theorems": [
    "C160_signature",
    "C160_token",
    "C160_one_chain"
   ],
   "note": ""
  },
  {
   "property": "C161",
   "status": "proved",
   "theorems": [
    "C161_unforgeable",
    "C161_report",
    "C161_originators",
    "C161_weak_key"
   ],
   "note": ""
  },
  {
   "property": "C162",
   "status": "partial",
   "theorems": [
    "C162_table",
    "C162_unambiguous",
    "C162_every",
    "C162_letters",
    "C162_one_text_partial",
    "C162_one_text_refuted"
   ],
   "note": "Proved except for the last clause: it holds for the 15 letters whose bases have no padding and one case (C162_one_text_partial); it is false for padded bases, where padded blocks may follow one another, and for base 36, which is read in both cases (C162_one_text_refuted)."
  },
  {
   "property": "C163",
   "status": "partial",
   "theorems": [
    "C163_spelling",
    "C163_spellings_partial",
    "C163_spellings_refuted",
    "C163_same_proof",
    "C163_standard"
   ],
   "note": "Proved except that the spelling is read back for the 20 letters whose bases have no '/' only (C163_spellings_partial); the base64 text of a CID can contain /ipfs/ and is then read as another CID (C163_spellings_refuted)."
  },
  {
   "property": "C164",
   "status": "proved",
   "theorems": [
    "C164_read",
    "C164_addresses",
    "C164_print",
    "C164_again"
   ],
   "note": ""
  },
  {
   "property": "C165",
   "status": "proved",
   "theorems": [
    "C165_host",
    "C165_same",
    "C165_apart",
    "C165_stable"
   ],
   "note": ""
  },
  {
   "property": "C166",
   "status": "proved",
   "theorems": [
    "C166_sha3",
    "C166_keccak"
   ],
   "note": ""
  },
  {
   "property": "C167",
   "status": "proved",
   "theorems": [
    "C167_blake2b",
    "C167_blake2s"
   ],
   "note": ""
  },
  {
   "property": "C168",
   "status": "proved",
   "theorems": [
    "C168_digests",
    "C168_multihash",
    "C168_contains",
    "C168_cid_text",
    "C168_citation",
    "C168_apart"
   ],
   "note": ""
  },
  {
   "property": "C169",
   "status": "proved",
   "theorems": [
    "C169_memory",
    "C169_fixture",
    "C169_one_chain",
    "C169_pinned"
   ],
   "note": ""
  },
  {
   "property": "C170",
   "status": "proved",
   "theorems": [
    "C170_portable",
    "C170_needs_blocks"
   ],
   "note": ""
  },
  {
   "property": "C171",
   "status": "proved",
   "theorems": [
    "C171_readings",
    "C171_before_1970",
    "C171_validation",
    "C171_window",
    "C171_aborts",
    "C171_chain",
    "C171_moving"
   ],
   "note": ""
  },
  {
   "property": "C172",
   "status": "proved",
   "theorems": [
    "C172_lifetime",
    "C172_aborts"
   ],
   "note": ""
  }
 ]
}
