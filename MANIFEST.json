{
 "claims": [
  {
   "property": "C01",
   "status": "proved",
   "theorems": [
    "C01_integer_round_trip"
   ],
   "note": ""
  },
  {
   "property": "C02",
   "status": "proved",
   "theorems": [
    "C02_length_round_trip"
   ],
   "note": ""
  },
  {
   "property": "C03",
   "status": "partial",
   "theorems": [
    "C03_integer_size",
    "C03_length_size",
    "C03_integer_shortest",
    "C03_length_shortest",
    "C03_shortest_refuted",
    "C03_prefix_free",
    "C03_accepted_prefix_free"
   ],
   "note": "Holds except at 128, where the reader accepts a one-byte form that the writer does not use (C03_shortest_refuted)."
  },
  {
   "property": "C04",
   "status": "proved",
   "theorems": [
    "C04_typed_round_trip",
    "C04_char_refuted",
    "C04_many_variants_refuted"
   ],
   "note": "The provisos (u64 < 2^63, one-byte chars, fewer than 256 variants, recognisable polymorphic names) are in the predicate fits; C04_char_refuted and C04_many_variants_refuted show that two of them are needed, C07 the third."
  },
  {
   "property": "C05",
   "status": "proved",
   "theorems": [
    "C05_truncated_rejected"
   ],
   "note": ""
  },
  {
   "property": "C06",
   "status": "proved",
   "theorems": [
    "C06_prefix_unique",
    "C06_stream_unique"
   ],
   "note": ""
  },
  {
   "property": "C07",
   "status": "proved",
   "theorems": [
    "C07_u64_round_trip_iff",
    "C07_u64_large_rejected",
    "C07_refuted"
   ],
   "note": "The unrestricted claim is refuted (C07_refuted); the exact range is proved as an equivalence."
  },
  {
   "property": "C08",
   "status": "partial",
   "theorems": [
    "C08_accepted_integers",
    "C08_accepted_lengths",
    "C08_canonical_partial",
    "C08_refuted",
    "C08_malleable"
   ],
   "note": "Canonicity is false (C08_refuted, C08_malleable). Proved: the exact set of accepted byte strings, and canonicity among strings of minimal size."
  },
  {
   "property": "C09",
   "status": "partial",
   "theorems": [
    "C09_version_ignored",
    "C09_refuted"
   ],
   "note": "False: the version on the wire is never compared (C09_version_ignored holds for every type, payload and version)."
  },
  {
   "property": "C10",
   "status": "partial",
   "theorems": [
    "C10_chunking_irrelevant",
    "C10_strict_small",
    "C10_strict_error",
    "C10_strict_general_partial",
    "C10_strict_boundary",
    "C10_refuted",
    "C10_chunk_refuted",
    "C10_strict_short",
    "C10_strict_bounded"
   ],
   "note": "Proved for inputs that fit the read buffer and, on one slice of any length, for values shorter than the buffer (C10_strict_short), and so exactly for all types of bounded size below it (C10_strict_bounded). False in general: C10_strict_boundary for every capacity, C10_refuted for the default capacity, C10_chunk_refuted for chunked readers."
  },
  {
   "property": "C11",
   "status": "partial",
   "theorems": [
    "C11_round_trip",
    "C11_survives_iff",
    "C11_injective",
    "C11_truncated_rejected",
    "C11_strict_round_trip",
    "C11_no_panic",
    "C11_growth",
    "C11_refuted"
   ],
   "note": "Proved for every value of the listed wire types whose u64 fields are below 2^63, and in a release build exactly for these (C11_survives_iff); C11_refuted is an account with balance 2^63 refused by its own reader. A real block from the repository's fixtures decodes and re-encodes byte for byte in the model."
  },
  {
   "property": "C12",
   "status": "partial",
   "theorems": [
    "C12_no_panic",
    "C12_string_refuted",
    "C12_polyvar_refuted"
   ],
   "note": "Proved for types without strings and names that do not overflow; refuted for strings (allocation of 2^63 bytes) and, with overflow checks, for long names."
  },
  {
   "property": "C13",
   "status": "partial",
   "theorems": [
    "C13_variant_selected",
    "C13_large_hash_refuted",
    "C13_large_hash_rejected",
    "C13_nonascii_refuted"
   ],
   "note": "Proved under the stated provisos; C13_large_hash_refuted/rejected and C13_nonascii_refuted show that they are needed."
  },
  {
   "property": "C14",
   "status": "partial",
   "theorems": [
    "C14_tag_is_ocaml",
    "C14_checked",
    "C14_hash_refuted"
   ],
   "note": "The written tag is OCaml's for every name in a release build. With overflow checks long names panic (C14_checked, C14_hash_refuted)."
  },
  {
   "property": "C15",
   "status": "partial",
   "theorems": [
    "C15_exact",
    "C15_encoded",
    "C15_normal",
    "C15_refuted",
    "C15_provisos_needed"
   ],
   "note": "As stated false: long integer forms and even tag words are accepted. Proved: equality exactly for canonical bytes, and re-reading what is written."
  },
  {
   "property": "C16",
   "status": "partial",
   "theorems": [
    "C16_truncated",
    "C16_no_panic",
    "C16_no_panic_fixed",
    "C16_sum_refuted",
    "C16_length_refuted",
    "C16_rules_refuted"
   ],
   "note": "False: sum index, lengths, unimplemented rules. Proved for truncated input and for supported layouts."
  },
  {
   "property": "C17",
   "status": "proved",
   "theorems": [
    "C17_stack",
    "C17_fuel",
    "C17_end",
    "C17_scoped",
    "C17_scope_refuted",
    "C17_custom_types"
   ],
   "note": "Any byte source. The module path of custom types is lexically scoped only in layouts with direct references (C17_scope_refuted)."
  },
  {
   "property": "C18",
   "status": "proved",
   "theorems": [
    "C18_root_of_leaves",
    "C18_overfull_panics",
    "C18_add_total"
   ],
   "note": "For mergers that always answer (all mergers of the project except the one of a test) and leaf hashes that ignore the depth, fewer than 2^62 leaves. A history that panics (proof of a missing leaf, root of an overfull fixed tree) has no later state; adding never panics."
  },
  {
   "property": "C19",
   "status": "partial",
   "theorems": [
    "C19_batching",
    "C19_refuted"
   ],
   "note": "Proved for mergers that always answer; C19_refuted is a stale hash with the merger of merkle/tests/tree_dup_odd_leaf_merger.rs."
  },
  {
   "property": "C20",
   "status": "proved",
   "theorems": [
    "C20_fixed_height",
    "C20_variable_height"
   ],
   "note": ""
  },
  {
   "property": "C21",
   "status": "proved",
   "theorems": [
    "C21_issued_proofs_verify",
    "C21_depth_refuted"
   ],
   "note": "In fixed mode up to height 62 and for mergers that ignore the depth; C21_depth_refuted shows the latter is needed."
  },
  {
   "property": "C22",
   "status": "partial",
   "theorems": [
    "C22_returns",
    "C22_empty",
    "C22_refuted"
   ],
   "note": "Proved for at least two leaves and for the empty tree. C22_refuted: one leaf panics for every hasher and merger, in variable mode and fixed mode of height 2 to 63."
  },
  {
   "property": "C23",
   "status": "proved",
   "theorems": [
    "C23_binding",
    "C23_sound"
   ],
   "note": "C23_sound states it relative to a tree: a well-formed proof against the tree's root is about the tree's leaf, or collides with the honest proof."
  },
  {
   "property": "C24",
   "status": "proved",
   "theorems": [
    "C24_path",
    "C24_malformed"
   ],
   "note": "Paths of 1 to 62 nodes."
  },
  {
   "property": "C25",
   "status": "partial",
   "theorems": [
    "C25_no_panic",
    "C25_refuted",
    "C25_shallow_refuted"
   ],
   "note": "False for malformed proof objects (C25_refuted in both builds); proved for every object of the right shape, whatever its peers."
  },
  {
   "property": "C26",
   "status": "proved",
   "theorems": [
    "C26_account_prefixes",
    "C26_coinbase_prefixes",
    "C26_prefixes_disjoint",
    "C26_node_domains"
   ],
   "note": ""
  },
  {
   "property": "C27",
   "status": "proved",
   "theorems": [
    "C27_member",
    "C27_decision"
   ],
   "note": "C27_decision: for valid tips the decision is the specified one."
  },
  {
   "property": "C28",
   "status": "proved",
   "theorems": [
    "C28_maximum"
   ],
   "note": ""
  },
  {
   "property": "C29",
   "status": "proved",
   "theorems": [
    "C29_agreement",
    "C29_refuted"
   ],
   "note": "Proved for valid tips. C29_refuted: with a window of 12 entries the two nodes keep different chains."
  },
  {
   "property": "C30",
   "status": "partial",
   "theorems": [
    "C30_symmetric",
    "C30_meaning",
    "C30_refuted"
   ],
   "note": "Proved for all chains on which both orders answer, and for valid tips; C30_refuted: with slots_per_epoch = 0 one order answers and the other panics."
  },
  {
   "property": "C31",
   "status": "proved",
   "theorems": [
    "C31_bounded",
    "C31_never_above"
   ],
   "note": ""
  },
  {
   "property": "C32",
   "status": "partial",
   "theorems": [
    "C32_value",
    "C32_not_behind",
    "C32_refuted"
   ],
   "note": "Refuted with the block of the project's own density test; the exact value computed is proved (C32_value, C32_not_behind)."
  },
  {
   "property": "C33",
   "status": "partial",
   "theorems": [
    "C33_prefix",
    "C33_single",
    "C33_empty_candidate",
    "C33_refuted"
   ],
   "note": "Proved for one candidate, and in general that the chain is the one selected from the candidates before the failing one; refuted for several."
  },
  {
   "property": "C34",
   "status": "partial",
   "theorems": [
    "C34_short_range",
    "C34_refuted"
   ],
   "note": "Refuted with valid chains; proved when all share epoch and checkpoint."
  },
  {
   "property": "C35",
   "status": "partial",
   "theorems": [
    "C35_append_only",
    "C35_consecutive",
    "C35_push",
    "C35_first",
    "C35_length",
    "C35_count",
    "C35_refuted",
    "C35_count_refuted"
   ],
   "note": "Consecutive in a checked build, and in a release build below u32::MAX; wraps otherwise (C35_refuted)."
  },
  {
   "property": "C36",
   "status": "partial",
   "theorems": [
    "C36_valid",
    "C36_refuted",
    "C36_epoch_refuted",
    "C36_density_refuted"
   ],
   "note": "Proved for valid tips; three ways to crash are refutations."
  },
  {
   "property": "C37",
   "status": "proved",
   "theorems": [
    "C37_rejected_mainnet",
    "C37_rejected_berkeley",
    "C37_only_valid",
    "C37_consecutive_mainnet",
    "C37_consecutive_berkeley"
   ],
   "note": "Both networks, both builds. Berkeley does no block verification; C37_only_valid is about mainnet."
  },
  {
   "property": "C38",
   "status": "proved",
   "theorems": [
    "C38_by_hash",
    "C38_best_block"
   ],
   "note": "Up to collisions of the state hash; that the proofs are valid is C75."
  },
  {
   "property": "C39",
   "status": "proved",
   "theorems": [
    "C39_fifo",
    "C39_readers",
    "C39_complete",
    "C39_terminates",
    "C39_errors_go_on",
    "C39_bad_message"
   ],
   "note": "Any number of senders, channel of capacity 1, readers of the frontier at any time. Readers that never release the lock are excluded in C39_complete."
  },
  {
   "property": "C40",
   "status": "proved",
   "theorems": [
    "C40_text_denotes",
    "C40_round_trip",
    "C40_injective"
   ],
   "note": ""
  },
  {
   "property": "C41",
   "status": "partial",
   "theorems": [
    "C41_numerals_exact",
    "C41_out_of_range",
    "C41_overflow_refuted",
    "C41_long_fraction_wrong",
    "C41_long_fraction_refuted",
    "C41_plus_refuted",
    "C41_accepts_iff"
   ],
   "note": "False: overflow, long fractions and plus signs. Proved for numerals with at most nine fraction digits; exact acceptance condition."
  },
  {
   "property": "C42",
   "status": "proved",
   "theorems": [
    "C42_text_denotes",
    "C42_round_trip",
    "C42_displayed",
    "C42_overflow_refuted"
   ],
   "note": "Parsing back is proved; parsing texts out of range panics or wraps (C42_overflow_refuted)."
  },
  {
   "property": "C43",
   "status": "proved",
   "theorems": [
    "C43_round_trip",
    "C43_onto",
    "C43_json",
    "C43_json64",
    "C43_json_exact"
   ],
   "note": ""
  },
  {
   "property": "C44",
   "status": "proved",
   "theorems": [
    "C44_round_trip",
    "C44_too_long",
    "C44_injective",
    "C44_bytes"
   ],
   "note": ""
  },
  {
   "property": "C45",
   "status": "partial",
   "theorems": [
    "C45_panics_iff",
    "C45_otherwise_text",
    "C45_full_length",
    "C45_refuted",
    "C45_lossy_refuted"
   ],
   "note": "False: exact condition for the panic in C45_panics_iff; invalid UTF-8 is replaced (C45_lossy_refuted)."
  },
  {
   "property": "C46",
   "status": "partial",
   "theorems": [
    "C46_read_iff",
    "C46_own_iff",
    "C46_increment_nonce_ignored",
    "C46_fixture_says",
    "C46_refuted"
   ],
   "note": "increment_nonce is read from editState (C46_refuted); exact in C46_read_iff."
  },
  {
   "property": "C47",
   "status": "partial",
   "theorems": [
    "C47_iff",
    "C47_refuted",
    "C47_timing_refuted",
    "C47_legacy_refuted",
    "C47_legacy_iff"
   ],
   "note": "Exact: two accounts are hashed from the same fields iff they agree up to Proof/Both permissions and a default timing (C47_iff, C47_refuted, C47_timing_refuted). Legacy accounts are hashed from token and balance only (C47_legacy_refuted)."
  },
  {
   "property": "C48",
   "status": "partial",
   "theorems": [
    "C48_input_injective",
    "C48_message_injective",
    "C48_networks",
    "C48_memo_length_refuted"
   ],
   "note": "Proved for memos of one length. Across lengths the hashed fields collide: one signature is valid for a payment and for a delegation (C48_memo_length_refuted)."
  },
  {
   "property": "C49",
   "status": "partial",
   "theorems": [
    "C49_total",
    "C49_groups",
    "C49_injective",
    "C49_range",
    "C49_shape_refuted",
    "C49_width_refuted",
    "C49_wide_panics",
    "C49_legacy_injective",
    "C49_legacy_refuted"
   ],
   "note": "Proved for inputs of the same shape with chunks below the modulus width; false across shapes (C49_shape_refuted), for chunks wider than declared (C49_width_refuted), and a chunk wider than a field panics (C49_wide_panics)."
  },
  {
   "property": "C50",
   "status": "proved",
   "theorems": [
    "C50_valid_iff",
    "C50_rejects_iff",
    "C50_only_commands"
   ],
   "note": "For every signature scheme (a parameter). Exact conditions for acceptance, rejection and panic."
  },
  {
   "property": "C51",
   "status": "partial",
   "theorems": [
    "C51_refuted",
    "C51_block_refuted"
   ],
   "note": "False: a command signed by anyone verifies (C51_refuted, C51_block_refuted)."
  },
  {
   "property": "C52",
   "status": "partial",
   "theorems": [
    "C52_accepts_iff",
    "C52_round_trip",
    "C52_panics_iff",
    "C52_malformed_refuted",
    "C52_text_denotes",
    "C52_vec_round_trip",
    "C52_vec_sound",
    "C52_body_iff",
    "C52_body_no_panic"
   ],
   "note": "Round trip and exact acceptance are proved; well-formed hex of the wrong length panics (C52_malformed_refuted)."
  },
  {
   "property": "C53",
   "status": "proved",
   "theorems": [
    "C53_round_trip",
    "C53_versioned_round_trip",
    "C53_separated",
    "C53_versioned_separated",
    "C53_kinds_distinct",
    "C53_canonical",
    "C53_panics_iff",
    "C53_memo_round_trip",
    "C53_vrf_round_trip",
    "C53_vrf_length_unchecked",
    "C53_text_denotes",
    "C53_written_iff",
    "C53_read_iff",
    "C53_read_exists",
    "C53_hash_text_iff",
    "C53_hash_read_iff",
    "C53_address_iff",
    "C53_memo_iff",
    "C53_vrf_written_iff",
    "C53_vrf_read_iff",
    "C53_address_round_trip",
    "C53_address_canonical",
    "C53_sha_round_trip",
    "C53_sha_canonical",
    "C53_sha_no_crash"
   ],
   "note": "For every checksum function with four bytes of output, and for the real one, a double SHA-256 (C53_sha_*). Addresses as the signer writes them. Version bytes inside the payload are not checked (see C09); the length byte of VRF texts is not checked."
  },
  {
   "property": "C54",
   "status": "proved",
   "theorems": [
    "C54_round_trip",
    "C54_project",
    "C54_list_iff",
    "C54_ambiguous_refuted"
   ],
   "note": "The project's enums round trip; the ambiguity is exact in C54_list_iff."
  },
  {
   "property": "C55",
   "status": "partial",
   "theorems": [
    "C55_items",
    "C55_leaves",
    "C55_crashes_iff",
    "C55_complete",
    "C55_refuted",
    "C55_fault_refuted",
    "C55_depth_refuted",
    "C55_legacy_leaves",
    "C55_legacy_crashes_iff",
    "C55_root",
    "C55_root_crashes_iff",
    "C55_legacy_root",
    "C55_own_refuted"
   ],
   "note": "Proved if every record decodes and the database reports no error (C55_complete); what is loaded otherwise is exact in C55_items, C55_leaves and C55_root. Records that cannot be decoded are left out silently (C55_refuted), also the program's own encoding of a balance of 2^63 (C55_own_refuted), and so is everything after a database error (C55_fault_refuted). Crashes exactly in C55_crashes_iff and C55_root_crashes_iff."
  },
  {
   "property": "C56",
   "status": "partial",
   "theorems": [
    "C56_timed_iff",
    "C56_untimed_iff",
    "C56_total",
    "C56_refuted",
    "C56_truncation_refuted"
   ],
   "note": "Never an error: anything but five numbers is untimed (C56_untimed_iff, C56_refuted); truncation when hashed in C56_truncation_refuted."
  },
  {
   "property": "C57",
   "status": "proved",
   "theorems": [
    "C57_epoch_slot",
    "C57_refuted"
   ],
   "note": "Proved for positive epoch length; panics for 0."
  },
  {
   "property": "C58",
   "status": "partial",
   "theorems": [
    "C58_refuted",
    "C58_fixed_lengths"
   ],
   "note": "Proved for parts of fixed lengths, up to a SHA-256 collision. Without fixed lengths a byte can move between the two auxiliary hashes (C58_refuted)."
  },
  {
   "property": "C59",
   "status": "partial",
   "theorems": [
    "C59_read_iff",
    "C59_read_no_crash",
    "C59_box_round_trip",
    "C59_written_iff",
    "C59_document_iff",
    "C59_passes_refuted",
    "C59_salt_refuted"
   ],
   "note": "The number of passes is truncated to 32 bits (C59_passes_refuted) and only salts of 3 to 16 bytes are written (C59_salt_refuted); exact in C59_read_iff, C59_written_iff and C59_document_iff."
  },
  {
   "property": "C60",
   "status": "partial",
   "theorems": [
    "C60_exact",
    "C60_large",
    "C60_refuted",
    "C60_seconds",
    "C60_millis"
   ],
   "note": "Exact range in C60_exact; outside it the conversion is wrong (C60_refuted, C60_large)."
  },
  {
   "property": "C61",
   "status": "proved",
   "theorems": [
    "C61_decode_sound"
   ],
   "note": ""
  },
  {
   "property": "C62",
   "status": "proved",
   "theorems": [
    "C62_growth",
    "C62_empty_elements_refuted"
   ],
   "note": ""
  },
  {
   "property": "C63",
   "status": "proved",
   "theorems": [
    "C63_wire_format",
    "C63_format_total"
   ],
   "note": "Release build; with overflow checks long polymorphic names panic (C14)."
  },
  {
   "property": "C64",
   "status": "proved",
   "theorems": [
    "C64_accepted",
    "C64_unique_reading"
   ],
   "note": ""
  },
  {
   "property": "C65",
   "status": "partial",
   "theorems": [
    "C65_well_formed",
    "C65_root_index_rejected",
    "C65_peers_adjacent",
    "C65_refuted"
   ],
   "note": "C65_refuted with a collision-free merger; proved for proofs whose peers are the siblings."
  },
  {
   "property": "C66",
   "status": "partial",
   "theorems": [
    "C66_nonempty",
    "C66_refuted",
    "C66_long_refuted"
   ],
   "note": "Proved for 1 to 62 nodes, refuted for the empty path (both builds) and for 64 nodes (checked build)."
  },
  {
   "property": "C67",
   "status": "partial",
   "theorems": [
    "C67_refuted",
    "C67_variable"
   ],
   "note": "Refuted for every capacity; variable mode behaves as a new tree."
  },
  {
   "property": "C68",
   "status": "proved",
   "theorems": [
    "C68_count_height"
   ],
   "note": ""
  },
  {
   "property": "C69",
   "status": "partial",
   "theorems": [
    "C69_ten_slots"
   ],
   "note": "False: C69_ten_slots holds for every valid chain."
  },
  {
   "property": "C70",
   "status": "proved",
   "theorems": [
    "C70_reoffer"
   ],
   "note": ""
  },
  {
   "property": "C71",
   "status": "partial",
   "theorems": [
    "C71_refuted",
    "C71_one_fork"
   ],
   "note": "Refuted with valid chains; proved within one fork."
  },
  {
   "property": "C72",
   "status": "partial",
   "theorems": [
    "C72_refuted",
    "C72_valid",
    "C72_crash_is_final"
   ],
   "note": "Refuted for every best block of positive length and another epoch; proved for valid states."
  },
  {
   "property": "C73",
   "status": "partial",
   "theorems": [
    "C73_mainnet_refuted",
    "C73_berkeley_refuted"
   ],
   "note": "False for every history."
  },
  {
   "property": "C74",
   "status": "partial",
   "theorems": [
    "C74_refuted",
    "C74_follows"
   ],
   "note": "Refuted; proved from a valid best block of positive length."
  },
  {
   "property": "C75",
   "status": "partial",
   "theorems": [
    "C75_refuted",
    "C75_replay"
   ],
   "note": "False for every first block, and for every redelivery of the best block."
  },
  {
   "property": "C76",
   "status": "partial",
   "theorems": [
    "C76_refuted",
    "C76_no_panic",
    "C76_contents"
   ],
   "note": "Refuted; proved under the stated provisos. The hashes of paths are parsed before this model starts; C127 shows that they crash the client when they are outside the field."
  },
  {
   "property": "C77",
   "status": "proved",
   "theorems": [
    "C77_hand_over"
   ],
   "note": ""
  },
  {
   "property": "C78",
   "status": "proved",
   "theorems": [
    "C78_chunking_irrelevant"
   ],
   "note": ""
  },
  {
   "property": "C79",
   "status": "partial",
   "theorems": [
    "C79_plain",
    "C79_nat0_refuted"
   ],
   "note": "Proved for decoded values; hand-built Nat0 is a refutation."
  },
  {
   "property": "C80",
   "status": "partial",
   "theorems": [
    "C80_accepts_iff",
    "C80_panics_iff",
    "C80_refuted",
    "C80_round_trip"
   ],
   "note": "False: numbers from the modulus on panic (C80_refuted); exact conditions proved."
  },
  {
   "property": "C83",
   "status": "proved",
   "theorems": [
    "C83_accepts_iff",
    "C83_round_trip",
    "C83_text",
    "C83_written_iff",
    "C83_read_iff"
   ],
   "note": ""
  },
  {
   "property": "C86",
   "status": "partial",
   "theorems": [
    "C86_panics_iff",
    "C86_refuted"
   ],
   "note": "False: exact panic condition in C86_panics_iff."
  },
  {
   "property": "C87",
   "status": "proved",
   "theorems": [
    "C87_signed_verifies"
   ],
   "note": "For every scheme whose own signatures verify (premise scheme_ok, toy instance in C51_ex)."
  },
  {
   "property": "C88",
   "status": "partial",
   "theorems": [
    "C88_build",
    "C88_last_unique",
    "C88_default_memo_refuted"
   ],
   "note": "The setters are proved; the default memo is an empty vector and signs differently from the memo of the empty text (C88_default_memo_refuted)."
  },
  {
   "property": "C89",
   "status": "partial",
   "theorems": [
    "C89_panics_iff",
    "C89_refuted"
   ],
   "note": "False: exact panic condition in C89_panics_iff."
  },
  {
   "property": "C90",
   "status": "partial",
   "theorems": [
    "C90_legacy_iff",
    "C90_iff",
    "C90_state_legacy",
    "C90_state",
    "C90_legacy_refuted",
    "C90_refuted",
    "C90_vrf_refuted"
   ],
   "note": "Proved for states with as many densities and VRF bytes (C90_iff, C90_legacy_iff, C90_state, C90_state_legacy). Across lengths states collide (C90_refuted, C90_legacy_refuted, C90_vrf_refuted)."
  },
  {
   "property": "C91",
   "status": "partial",
   "theorems": [
    "C91_legacy_panics_iff",
    "C91_panics_iff",
    "C91_refuted",
    "C91_legacy_refuted"
   ],
   "note": "False: exact panic conditions in C91_panics_iff and C91_legacy_panics_iff."
  },
  {
   "property": "C81",
   "status": "partial",
   "theorems": [
    "C81_tag_crash",
    "C81_crashes_iff",
    "C81_refuted"
   ],
   "note": "False for types with list-tagged enums (C81_refuted); exact over all JSON types in C81_crashes_iff."
  },
  {
   "property": "C82",
   "status": "partial",
   "theorems": [
    "C82_round_trip",
    "C82_identity_iff",
    "C82_injective",
    "C82_protocol_version_refuted",
    "C82_key_crash",
    "C82_version_refuted",
    "C82_key_refuted"
   ],
   "note": "Exact: C82_round_trip gives the carried part, C82_identity_iff the values that come back. Losses in C82_version_refuted, C82_protocol_version_refuted, crash in C82_key_refuted."
  },
  {
   "property": "C84",
   "status": "proved",
   "theorems": [
    "C84_read_sound",
    "C84_stable"
   ],
   "note": ""
  },
  {
   "property": "C85",
   "status": "partial",
   "theorems": [
    "C85_valid_iff",
    "C85_refuted",
    "C85_char_refuted"
   ],
   "note": "False (C85_refuted, C85_char_refuted); exact in C85_valid_iff."
  },
  {
   "property": "C92",
   "status": "proved",
   "theorems": [
    "C92_order",
    "C92_unknown",
    "C92_required"
   ],
   "note": ""
  },
  {
   "property": "C93",
   "status": "partial",
   "theorems": [
    "C93_berkeley",
    "C93_berkeley_valid",
    "C93_read_iff",
    "C93_answered",
    "C93_same_iff",
    "C93_answer_unique",
    "C93_fixture_read",
    "C93_refuted"
   ],
   "note": "Exact in C93_read_iff and C93_same_iff; fixed values in C93_refuted."
  },
  {
   "property": "C94",
   "status": "partial",
   "theorems": [
    "C94_read_iff",
    "C94_answered",
    "C94_same_iff",
    "C94_fixture_read",
    "C94_unread_refuted"
   ],
   "note": "Exact in C94_read_iff and C94_same_iff; dropped members in C94_unread_refuted."
  },
  {
   "property": "C95",
   "status": "proved",
   "theorems": [
    "C95_state_no_crash",
    "C95_account_no_crash"
   ],
   "note": ""
  },
  {
   "property": "C96",
   "status": "partial",
   "theorems": [
    "C96_sealed_key",
    "C96_memory_refuted",
    "C96_crashes_iff",
    "C96_nonce_refuted",
    "C96_keypair"
   ],
   "note": "Proved for limits below 2^42 bytes and 2^32 passes (C96_sealed_key); beyond in C96_memory_refuted; crashes exactly in C96_crashes_iff, reachable by C96_nonce_refuted."
  },
  {
   "property": "C97",
   "status": "partial",
   "theorems": [
    "C97_read_iff",
    "C97_crashes_iff",
    "C97_written",
    "C97_wire_round_trip",
    "C97_unique",
    "C97_legacy_read_iff",
    "C97_legacy_crashes_iff",
    "C97_legacy_written",
    "C97_refuted"
   ],
   "note": "No crash is false: C97_refuted; exactly when in C97_crashes_iff. The rest is proved for both account versions."
  },
  {
   "property": "C98",
   "status": "partial",
   "theorems": [
    "C98_root_binds",
    "C98_legacy_refuted",
    "C98_legacy_root_binds"
   ],
   "note": "Accounts are determined up to same_account (C47). For the older accounts only token and balance are (C98_legacy_root_binds, C98_legacy_refuted)."
  },
  {
   "property": "C99",
   "status": "partial",
   "theorems": [
    "C99_crashes_iff",
    "C99_converts_iff",
    "C99_kept",
    "C99_exact_iff",
    "C99_back",
    "C99_same_iff",
    "C99_crash_refuted",
    "C99_loss_refuted"
   ],
   "note": "No crash is false (C99_crash_refuted), exactly when in C99_crashes_iff; version numbers other than 1 are lost (C99_loss_refuted), exactly in C99_exact_iff and C99_same_iff. The rest is proved."
  },
  {
   "property": "C100",
   "status": "proved",
   "theorems": [
    "C100_state",
    "C100_command",
    "C100_block",
    "C100_commands"
   ],
   "note": ""
  },
  {
   "property": "C101",
   "status": "partial",
   "theorems": [
    "C101_round_trip",
    "C101_sound",
    "C101_crashes_iff",
    "C101_again",
    "C101_same_bytes",
    "C101_refuted"
   ],
   "note": "Round trips for values whose u64s are below 2^63 (C101_round_trip, cf. C11) and for everything that was read (C101_again). No crash is false (C101_refuted), exactly when in C101_crashes_iff."
  },
  {
   "property": "C102",
   "status": "partial",
   "theorems": [
    "C102_accepted_iff",
    "C102_verify_crash",
    "C102_same_hash",
    "C102_hash_crashes_iff",
    "C102_hash_refuted"
   ],
   "note": "Acceptance is exact (C102_accepted_iff). No crash is false: C86_refuted, C102_hash_refuted; conditions in C102_verify_crash and C102_hash_crashes_iff. Hash binding under same_shape as in C90."
  },
  {
   "property": "C103",
   "status": "partial",
   "theorems": [
    "C103_fit_read",
    "C103_fit_read_back",
    "C103_exempt",
    "C103_block",
    "C103_state",
    "C103_snark_work",
    "C103_block_back",
    "C103_state_back",
    "C103_snark_work_back",
    "C103_failed_misread",
    "C103_failed_layout",
    "C103_failed_refuted",
    "C103_two",
    "C103_two_none",
    "C103_two_second",
    "C103_two_none_refuted",
    "C103_narrow_refuted",
    "C103_token_commands",
    "C103_shipped"
   ],
   "note": "Proved for states and snark work, and for blocks without failed commands and without coinbases of two transfers (C103_block, C103_block_back). These two differ: C103_failed_misread, C103_failed_refuted, C103_two_none, C103_two_none_refuted, C103_two_second; a coinbase with a first of two transfers agrees (C103_two). The layouts know numbers and variants the types reject (C103_narrow_refuted, C103_token_commands)."
  },
  {
   "property": "C104",
   "status": "partial",
   "theorems": [
    "C104_verification_key",
    "C104_protocol_state",
    "C104_external_transition",
    "C104_snark_work",
    "C104_read_iff",
    "C104_printed",
    "C104_writable",
    "C104_some_document",
    "C104_stable",
    "C104_derived_refuted",
    "C104_alike",
    "C104_document",
    "C104_repeated",
    "C104_other",
    "C104_order"
   ],
   "note": "Proved for the reader. The derived Serialize of a layout is externally tagged while the reader wants arrays: no printed rule can be read (C104_derived_refuted). Texts are in C128."
  },
  {
   "property": "C105",
   "status": "partial",
   "theorems": [
    "C105_path",
    "C105_name",
    "C105_sum_name_refuted",
    "C105_sum_number",
    "C105_no_number",
    "C105_list",
    "C105_inner"
   ],
   "note": "Proved except for sums indexed by name: the decoder puts a tuple into every sum (C105_sum_name_refuted). Polymorphic variants cannot be indexed at all (C105_no_number)."
  },
  {
   "property": "C106",
   "status": "partial",
   "theorems": [
    "C106_shows",
    "C106_roundtrip",
    "C106_flag",
    "C106_behind_refuted",
    "C106_hex",
    "C106_line_end_refuted",
    "C106_prefix_refuted",
    "C106_digits_refuted"
   ],
   "note": "The guess between hex and raw is wrong for hex texts with a line end or prefix (C106_line_end_refuted, C106_prefix_refuted) and for binaries of hex digits (C106_digits_refuted). Bytes behind the value go unnoticed without the flag and panic with it (C106_behind_refuted). Opening and printing files is not modelled."
  },
  {
   "property": "C107",
   "status": "partial",
   "theorems": [
    "C107_payment_iff",
    "C107_one_reading",
    "C107_payment_refuted",
    "C107_lock_iff",
    "C107_account_iff",
    "C107_unlock_iff",
    "C107_password_refuted",
    "C107_chain_iff",
    "C107_latest"
   ],
   "note": "False for arguments with a quote or a backslash: C107_payment_refuted adds a second payment for every choice of amounts, C107_password_refuted changes the password. Tracked accounts are also used as aliases and must be names (C107_chain_iff)."
  },
  {
   "property": "C108",
   "status": "partial",
   "theorems": [
    "C108_fee_iff",
    "C108_amount_iff",
    "C108_integer",
    "C108_valid_until_none",
    "C108_valid_until_some",
    "C108_sent",
    "C108_not_sent",
    "C108_dropped_refuted",
    "C108_unchecked_refuted",
    "C108_reply_refuted",
    "C108_success_refuted",
    "C108_lock",
    "C108_unlock",
    "C108_account"
   ],
   "note": "Nonce, memo and valid-until have no effect on what is sent (C108_dropped_refuted); valid-until is not even checked (C108_unchecked_refuted); no connection or no JSON is a panic (C108_reply_refuted); error answers are returned as success (C108_success_refuted). JavaScript numbers are modelled as integers, strings and other values with their texts."
  },
  {
   "property": "C109",
   "status": "partial",
   "theorems": [
    "C109_read_iff",
    "C109_taken_iff",
    "C109_first_only",
    "C109_retry_iff",
    "C109_fetch",
    "C109_request",
    "C109_asked",
    "C109_best_refuted"
   ],
   "note": "The first listed block is read, not the best (C109_best_refuted); according to the documentation of the Mina API the list runs from the root to the tip, which is outside of the code. JavaScript property access is modelled on JSON values; names of built-in properties are not special."
  },
  {
   "property": "C110",
   "status": "partial",
   "theorems": [
    "C110_berkeley_iff",
    "C110_berkeley_failed_iff",
    "C110_failing_endpoint_refuted",
    "C110_order_refuted",
    "C110_berkeley_request_refuted",
    "C110_v1_iff",
    "C110_v1_silent_refuted",
    "C110_v1_query_iff",
    "C110_address"
   ],
   "note": "C110_failing_endpoint_refuted, C110_order_refuted, C110_berkeley_request_refuted and C110_v1_silent_refuted. Fetching is a function from addresses to outcomes."
  },
  {
   "property": "C111",
   "status": "partial",
   "theorems": [
    "C111_steps",
    "C111_progress",
    "C111_all_done",
    "C111_not_running_refuted",
    "C111_setters_refuted",
    "C111_requests_refuted",
    "C111_poll_refuted",
    "C111_naive"
   ],
   "note": "Holds for the frontiers of the repository while no block panics (C111_naive). Deadlocks without the loops (C111_not_running_refuted, C111_setters_refuted) and with requesting frontiers (C111_requests_refuted, C111_poll_refuted). Locks are granted in any order; fetching takes no step."
  },
  {
   "property": "C112",
   "status": "partial",
   "theorems": [
    "C112_decode",
    "C112_status",
    "C112_request",
    "C112_response",
    "C112_own",
    "C112_any_bytes",
    "C112_hang_refuted",
    "C112_text_refuted"
   ],
   "note": "C112_hang_refuted and C112_text_refuted. A known field with a wire type that is not its own is outside of C112_decode. The Rust side (generated by rust-protobuf) is the spec `pb_status`, `pb_request`, `pb_response`; it leaves out default values."
  },
  {
   "property": "C113",
   "status": "partial",
   "theorems": [
    "C113_line_iff",
    "C113_line_none",
    "C113_open",
    "C113_failed",
    "C113_broken",
    "C113_closed",
    "C113_returns_iff",
    "C113_end_refuted",
    "C113_arrive",
    "C113_rows",
    "C113_count",
    "C113_peers_refuted",
    "C113_cells_refuted",
    "C113_connect_iff",
    "C113_connect_says",
    "C113_connect_panics_iff",
    "C113_success_refuted",
    "C113_connected_refuted",
    "C113_address"
   ],
   "note": "C113_end_refuted, C113_peers_refuted, C113_cells_refuted, C113_success_refuted, C113_connected_refuted. Reading the JSON of a status, building the transport, reading an address and dialling are parameters."
  },
  {
   "property": "C115",
   "status": "partial",
   "theorems": [
    "C115_round_trip",
    "C115_names",
    "C115_no_error",
    "C115_public_key_refuted",
    "C115_defaults",
    "C115_printed",
    "C115_nat0_refuted",
    "C115_integer_with_refuted",
    "C115_nat0_with_refuted"
   ],
   "note": "C115_public_key_refuted, C115_nat0_refuted, C115_integer_with_refuted, C115_nat0_with_refuted. The command line parser (structopt) and the files are not modelled."
  },
  {
   "property": "C114",
   "status": "partial",
   "theorems": [
    "C114_names",
    "C114_file_iff",
    "C114_query",
    "C114_reply",
    "C114_strip",
    "C114_ends",
    "C114_progress",
    "C114_result",
    "C114_done_iff",
    "C114_crashed_iff",
    "C114_truthful",
    "C114_again",
    "C114_good",
    "C114_crash_refuted",
    "C114_lost_refuted",
    "C114_silent_refuted",
    "C114_slash_refuted"
   ],
   "note": "C114_crash_refuted, C114_lost_refuted, C114_silent_refuted, C114_slash_refuted. Documents are values here; HTTP, failures of the file system and the command line are not modelled."
  },
  {
   "property": "C117",
   "status": "partial",
   "theorems": [
    "C117_mainnet_reads",
    "C117_mainnet_block",
    "C117_panics_iff",
    "C117_state",
    "C117_contents",
    "C117_wire",
    "C117_verifies",
    "C117_valid_iff",
    "C117_length",
    "C117_slot",
    "C117_agree",
    "C117_same_lock",
    "C117_other_lock",
    "C117_mainnet_typed",
    "C117_mainnet_encodable",
    "C117_mainnet_valid",
    "C117_network_refuted",
    "C117_devnet_refuted",
    "C117_wraps_refuted"
   ],
   "note": "C117_network_refuted, C117_devnet_refuted, C117_wraps_refuted. The hashes and keys in the configuration of mainnet are given by their bytes, which Conformance/GenesisTests.v compares with the texts."
  },
  {
   "property": "C116",
   "status": "partial",
   "theorems": [
    "C116_output",
    "C116_kind",
    "C116_struct_compiles",
    "C116_struct",
    "C116_struct_panics",
    "C116_struct_back",
    "C116_tuple_compiles",
    "C116_tuple",
    "C116_tuple_panics",
    "C116_enum_compiles",
    "C116_empty_variant_refuted",
    "C116_no_members_refuted",
    "C116_enum",
    "C116_enum_back",
    "C116_struct_down",
    "C116_struct_up",
    "C116_pre_diff",
    "C116_versioned",
    "C116_versioned_back"
   ],
   "note": "C116_empty_variant_refuted, C116_no_members_refuted. Of the compiler only names and shapes are modelled; which instances of Into it selects for the parts is a parameter."
  },
  {
   "property": "C118",
   "status": "partial",
   "theorems": [
    "C118_builder",
    "C118_connect",
    "C118_mainnet",
    "C118_default_refuted"
   ],
   "note": "C118_default_refuted. The handshakes of libp2p are modelled by when they succeed."
  },
  {
   "property": "C119",
   "status": "partial",
   "theorems": [
    "C119_depth",
    "C119_last",
    "C119_proof",
    "C119_small",
    "C119_panic_refuted",
    "C119_rejected_refuted",
    "C119_rounding_refuted",
    "C119_tree_height",
    "C119_exact_library",
    "C119_division",
    "C119_library_refuted"
   ],
   "note": "C119_panic_refuted, C119_rejected_refuted, C119_rounding_refuted, C119_library_refuted. That a real library gives the correctly rounded logarithms at 2^29 and 2^31 is taken from computing them; the rounding up of the division is proved (C119_division)."
  },
  {
   "property": "C120",
   "status": "partial",
   "theorems": [
    "C120_sent",
    "C120_no_key",
    "C120_shown",
    "C120_forgotten",
    "C120_retry_refuted",
    "C120_order_refuted"
   ],
   "note": "C120_retry_refuted, C120_order_refuted. The browser's event loop is modelled as arbitrary interleaving."
  },
  {
   "property": "C121",
   "status": "partial",
   "theorems": [
    "C121_board",
    "C121_text",
    "C121_settled",
    "C121_failed_refuted",
    "C121_idle_refuted",
    "C121_busy_refuted",
    "C121_log",
    "C121_init_twice",
    "C121_lines",
    "C121_forged_refuted"
   ],
   "note": "C121_failed_refuted, C121_idle_refuted, C121_busy_refuted, C121_forged_refuted."
  },
  {
   "property": "C122",
   "status": "partial",
   "theorems": [
    "C122_field",
    "C122_back",
    "C122_injective",
    "C122_onto",
    "C122_vector",
    "C122_point",
    "C122_points",
    "C122_pairs",
    "C122_infinite",
    "C122_infinites",
    "C122_never_panics_refuted",
    "C122_same_field_refuted",
    "C122_on_curve_refuted",
    "C122_zero_refuted"
   ],
   "note": "C122_never_panics_refuted, C122_same_field_refuted, C122_on_curve_refuted, C122_zero_refuted. Field elements are canonical representatives; arkworks 0.3 is modelled from its published behaviour. The conversions have no caller in the repository."
  },
  {
   "property": "C123",
   "status": "partial",
   "theorems": [
    "C123_round_trip",
    "C123_exact_iff",
    "C123_injective",
    "C123_parity",
    "C123_block_kept",
    "C123_read_sound",
    "C123_crashes_iff",
    "C123_version_refuted",
    "C123_signature_refuted",
    "C123_sent_refuted"
   ],
   "note": "C123_version_refuted, C123_signature_refuted, C123_sent_refuted. Documents are values here; C125 is about texts."
  },
  {
   "property": "C124",
   "status": "partial",
   "theorems": [
    "C124_once",
    "C124_state",
    "C124_state_written",
    "C124_command_read",
    "C124_command",
    "C124_command_written",
    "C124_block_read",
    "C124_block_written",
    "C124_fee_refuted"
   ],
   "note": "C124_fee_refuted: the fee text 1.+5 is read. Of blocks the other members (proofs, coinbase, work) are not described; the converse for whole blocks is left out."
  },
  {
   "property": "C125",
   "status": "partial",
   "theorems": [
    "C125_parse",
    "C125_one_reading",
    "C125_read_iff",
    "C125_not_json",
    "C125_read_sound",
    "C125_round_trip",
    "C125_written",
    "C125_injective",
    "C125_from_string",
    "C125_into_string",
    "C125_string_round_trip",
    "C125_repeated",
    "C125_deep",
    "C125_block_round_trip",
    "C125_state",
    "C125_state_written",
    "C125_command",
    "C125_repeated_refuted",
    "C125_deep_refuted"
   ],
   "note": "C125_repeated_refuted, C125_deep_refuted. The text is parsed before the readers run, so a text that is bad behind a place where a reader crashes is an error here. Members that are ignored are parsed like others, while serde_json checks less of their strings."
  },
  {
   "property": "C126",
   "status": "proved",
   "theorems": [
    "C126_read_iff",
    "C126_read_no_crash",
    "C126_json_error_iff",
    "C126_repeated",
    "C126_document",
    "C126_pretty",
    "C126_round_trip",
    "C126_written"
   ],
   "note": "Passes are read modulo 2^32 and other salts are not written, as in C59 (C59_passes_refuted, C59_salt_refuted)."
  },
  {
   "property": "C127",
   "status": "partial",
   "theorems": [
    "C127_read_iff",
    "C127_kept",
    "C127_text_iff",
    "C127_text_kept_iff",
    "C127_deep",
    "C127_not_json",
    "C127_no_crash",
    "C127_text_no_crash",
    "C127_crash_refuted"
   ],
   "note": "C127_crash_refuted: hashes outside the field and empty paths crash the client."
  },
  {
   "property": "C128",
   "status": "partial",
   "theorems": [
    "C128_text",
    "C128_text_iff",
    "C128_begins",
    "C128_other",
    "C128_printed",
    "C128_every_rule",
    "C128_tool",
    "C128_tool_rule",
    "C128_tool_none",
    "C128_behind_refuted"
   ],
   "note": "C128_behind_refuted: neither reader calls Deserializer::end. The UTF-8 of the file is not checked in the model."
  },
  {
   "property": "C129",
   "status": "partial",
   "theorems": [
    "C129_address",
    "C129_hash",
    "C129_signature",
    "C129_memo",
    "C129_read_refuted",
    "C129_read",
    "C129_long_refuted"
   ],
   "note": "C129_read_refuted and C129_long_refuted: the version number inside is not looked at and has longer forms, so a text that begins otherwise or is longer is read as a state hash. C129_read: a text that is read as a hash of version 1 begins as its kind does unless it is longer than 52 characters. Checksums are the real double SHA-256."
  }
 ]
}