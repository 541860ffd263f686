{"id": "C01", "title": "Integers survive the wire", "statement": "Writing any signed 64-bit integer with the bin_prot integer encoding and reading it back as i64 gives the same integer and leaves exactly the bytes that followed it.", "quantifier": "for every i64 and every suffix of bytes", "why_tests_cant": "2^64 values with four size classes and sign boundaries; tests sample a few boundaries", "anchors": ["protocol/bin-prot/src/write_ext.rs:bin_write_integer", "protocol/bin-prot/src/read_ext.rs:bin_read_integer"]}
{"id": "C02", "title": "Lengths survive the wire", "statement": "Writing any unsigned 64-bit length with the nat0 encoding and reading it back gives the same length and leaves exactly the bytes that followed it.", "quantifier": "for every u64 and every suffix of bytes", "why_tests_cant": "unbounded input space", "anchors": ["protocol/bin-prot/src/write_ext.rs:bin_write_nat0", "protocol/bin-prot/src/read_ext.rs:bin_read_nat0"]}
{"id": "C03", "title": "Integer encodings are shortest and self-delimiting", "statement": "The integer encoding uses 1, 2, 3, 5 or 9 bytes according to the magnitude of the value, it is the shortest encoding the reader accepts for that value, and no encoding is a proper prefix of another.", "quantifier": "for every pair of i64 values", "why_tests_cant": "pairs of 64-bit values cannot be enumerated", "anchors": ["protocol/bin-prot/src/write_ext.rs:bin_write_integer", "protocol/bin-prot/src/read_ext.rs:bin_read_integer"]}
{"id": "C04", "title": "Typed values survive the wire", "statement": "For every type built from the supported serde shapes, serializing a value and deserializing the bytes gives back the value and leaves exactly the bytes that followed it, provided every u64 in it is below 2^63 and every char is a single byte.", "quantifier": "for every type, value and suffix", "why_tests_cant": "types and values are unbounded and nested", "anchors": ["protocol/bin-prot/src/ser.rs:Serializer", "protocol/bin-prot/src/de.rs:Deserializer<R, StronglyTyped>"]}
{"id": "C05", "title": "A truncated message is never misread", "statement": "If a serialized value is cut anywhere before its end, deserializing the remaining bytes fails with an error; it never yields a value.", "quantifier": "for every type, value and cut point", "why_tests_cant": "every crash point of every message", "anchors": ["protocol/bin-prot/src/ser.rs:to_writer", "protocol/bin-prot/src/de.rs:from_reader"]}
{"id": "C06", "title": "Concatenated messages parse in one way", "statement": "Two serialized values of the same type, one of which is a prefix of the other, are the same value; hence a concatenation of messages determines the messages.", "quantifier": "for every type and pair of values", "why_tests_cant": "quantifies over pairs of values", "anchors": ["protocol/bin-prot/src/ser.rs:to_writer"]}
{"id": "C07", "title": "Unsigned 64-bit values survive the wire", "statement": "Serializing a u64 (amounts, balances, token ids) and reading it back as u64 gives the same number. Expected for every u64; the code does so exactly for values below 2^63 and rejects its own output for the others.", "quantifier": "for every u64", "why_tests_cant": "needs the whole upper half of the range", "anchors": ["protocol/bin-prot/src/ser.rs:serialize_u64", "protocol/bin-prot/src/de.rs:deserialize_u64"]}
{"id": "C08", "title": "Accepted bytes are canonical", "statement": "Whatever bytes the reader accepts as a value are the bytes the writer would produce for that value (no malleability). Expected; the reader accepts non-shortest integers and the byte 0x80.", "quantifier": "for every byte string", "why_tests_cant": "quantifies over all byte strings", "anchors": ["protocol/bin-prot/src/read_ext.rs:bin_read_integer", "protocol/bin-prot/src/read_ext.rs:bin_read_nat0"]}
{"id": "C09", "title": "Version tags are checked", "statement": "Decoding a versioned value whose version number on the wire differs from the declared version is rejected.", "quantifier": "for every payload and pair of versions", "why_tests_cant": "all versions and payloads", "anchors": ["protocol/versioned/src/lib.rs:Versioned"]}
{"id": "C10", "title": "The strict reader rejects trailing bytes", "statement": "The strict entry point returns a value only if the whole input was consumed. Holds whenever the input fits the internal read buffer; expected in general.", "quantifier": "for every type, input, and buffer capacity", "why_tests_cant": "depends on input length relative to an internal buffer", "anchors": ["protocol/bin-prot/src/de.rs:from_reader_strict"]}
{"id": "C11", "title": "Blocks and accounts survive the wire", "statement": "A block (external transition), a protocol state, a signed command and a stored account, as declared in the wire types, decode to themselves from their own encoding, and a truncated one is rejected.", "quantifier": "for every block, protocol state, command and account value in range", "why_tests_cant": "the value space of a block is unbounded", "anchors": ["protocol/serialization-types/src/external_transition.rs:ExternalTransitionV1", "protocol/serialization-types/src/account.rs:AccountV1"]}
{"id": "C12", "title": "Hostile bytes never crash the typed decoder", "statement": "Decoding arbitrary bytes at any supported type returns a value or an error; it never panics. (In a build with overflow checks a polymorphic-variant name of more than a few characters panics.)", "quantifier": "for every type and byte string", "why_tests_cant": "all byte strings", "anchors": ["protocol/bin-prot/src/de.rs", "protocol/bin-prot/src/polyvar/caml_hash_variant.rs"]}
{"id": "C13", "title": "Polymorphic variants select the variant that was written", "statement": "For an enum marked as polymorphic variant, decoding the encoding of a variant yields that variant, provided names are ASCII, their hashes are below 2^31 and distinct.", "quantifier": "for every list of variant names and every variant", "why_tests_cant": "quantifies over all names and enum declarations", "anchors": ["protocol/bin-prot/src/ser.rs:write_variant_index_or_tag", "protocol/bin-prot/src/de.rs:PolyvarEnum::variant_seed"]}
{"id": "C14", "title": "Variant hashes agree with OCaml", "statement": "The hash written for a variant name equals the 31-bit OCaml variant hash of that name, for every name.", "quantifier": "for every name", "why_tests_cant": "all strings", "anchors": ["protocol/bin-prot/src/polyvar/caml_hash_variant.rs:caml_hash_variant"]}
{"id": "C15", "title": "Dynamically typed values survive a round trip", "statement": "Decoding bytes by layout into a dynamic value and serializing that value reproduces the bytes, when all polymorphic tags are at least 256 and the sum indices equal their positions.", "quantifier": "for every layout and every accepted byte string", "why_tests_cant": "layouts and inputs are unbounded", "anchors": ["protocol/bin-prot/src/loose_deserializer.rs", "protocol/bin-prot/src/value/ser.rs"]}
{"id": "C16", "title": "The layout-driven decoder never panics on hostile bytes", "statement": "Decoding arbitrary bytes by a layout returns a value or an error. Expected; a sum index outside the declared summands panics.", "quantifier": "for every layout and byte string", "why_tests_cant": "all byte strings", "anchors": ["protocol/bin-prot/src/loose_deserializer.rs:deserialize_loose"]}
{"id": "C17", "title": "The rule stack of the layout decoder is balanced", "statement": "The layout-driven decoder, which pushes and pops rules on one stack, decodes every layout exactly as a decoder by recursion over the layout would, and leaves the stack as it found it.", "quantifier": "for every layout, stack and byte string", "why_tests_cant": "stack histories are unbounded", "anchors": ["protocol/bin-prot/src/loose_deserializer.rs:deserialize_loose", "protocol/bin-prot/src/value/layout/traverse.rs:BinProtRuleIterator"]}
{"id": "C18", "title": "The ledger root depends only on the leaves", "statement": "After any interleaving of adding leaves (one by one or in batches), asking for the root and asking for proofs, the root equals the root computed from scratch from the list of all leaves.", "quantifier": "for every sequence of operations and every hasher/merger whose merge never returns nothing and whose leaf hash ignores depth", "why_tests_cant": "all histories", "anchors": ["merkle/src/tree_impl.rs:MinaMerkleTree::add_batch", "merkle/src/tree_impl.rs:calculate_hash_if_needed"]}
{"id": "C19", "title": "Batching does not change the root, for any merger", "statement": "Two histories adding the same leaves in the same order give the same root. Expected for every merger the trait allows; stale hashes survive when the merger returns nothing for two missing children.", "quantifier": "for every merger and history", "why_tests_cant": "all histories and mergers", "anchors": ["merkle/src/tree_impl.rs:clear_dirty_hashes"]}
{"id": "C20", "title": "Fixed-height root equals the padded tree's root", "statement": "The root in fixed-height mode equals the root of a full tree of that height in which missing leaves are the canonical empty leaf (Poseidon merger).", "quantifier": "for every number of leaves and every height", "why_tests_cant": "all sizes", "anchors": ["merkle/src/tree_impl.rs:FixedHeightMode root", "merkle/src/merger_poseidon.rs"]}
{"id": "C21", "title": "Issued inclusion proofs verify", "statement": "A proof issued for a leaf of a tree with at least two leaves verifies against the tree's root, in variable and fixed height mode, after any history.", "quantifier": "for every history and leaf index", "why_tests_cant": "all histories and indices", "anchors": ["merkle/src/tree_impl.rs:get_proof", "merkle/src/proof.rs:verify"]}
{"id": "C22", "title": "Asking for a proof never crashes", "statement": "Asking a tree for a proof of any index returns a proof or nothing. Expected; on a tree with one leaf it panics.", "quantifier": "for every tree and index", "why_tests_cant": "all trees", "anchors": ["merkle/src/tree_impl.rs:get_proof"]}
{"id": "C23", "title": "Inclusion proofs bind", "statement": "If two proofs with the same leaf index and the same peer indices both verify against one root but for different leaf hashes, then they exhibit two different inputs on which the node merger agrees at one height (a collision).", "quantifier": "for every pair of proofs", "why_tests_cant": "soundness quantifies over adversarial proofs", "anchors": ["merkle/src/proof.rs:root_hash"]}
{"id": "C24", "title": "Merkle paths from the API become the right proof", "statement": "Converting a list of left/right siblings gives a proof whose computed root is the fold of the siblings from leaf to root, whose leaf position is the binary number of the directions; a malformed node is an error.", "quantifier": "for every path of length 1..62", "why_tests_cant": "all paths", "anchors": ["merkle/src/path.rs:to_proof", "merkle/src/proof.rs"]}
{"id": "C25", "title": "Checking a proof never crashes", "statement": "Verifying an arbitrary proof object returns true or false. Expected; malformed peer lists panic.", "quantifier": "for every proof object", "why_tests_cant": "adversarial proofs", "anchors": ["merkle/src/proof.rs:root_hash", "merkle/src/metadata.rs:height"]}
{"id": "C26", "title": "Hash domains of different heights differ", "statement": "Different node heights give different hash domain prefixes, and account-tree and coinbase-tree prefixes never coincide.", "quantifier": "for every pair of heights", "why_tests_cant": "all pairs", "anchors": ["merkle/src/prefixes.rs"]}
{"id": "C27", "title": "Chain selection returns an offered chain", "statement": "Selecting the secure chain from candidates leaves the current chain or sets it to one of the candidates; it never mixes chains.", "quantifier": "for every chain and list of candidates", "why_tests_cant": "all candidate lists", "anchors": ["consensus/src/common.rs:select_secure_chain"]}
{"id": "C28", "title": "Short-range selection is a maximum", "statement": "When all chains share the checkpoint, selection returns a chain maximal in (length, VRF digest, state hash), whatever the order of candidates.", "quantifier": "for every list of candidates and permutation", "why_tests_cant": "all permutations", "anchors": ["consensus/src/common.rs:select_longer_chain"]}
{"id": "C29", "title": "Two nodes agree", "statement": "If two nodes hold valid chains A and B and each offers its chain to the other, both end with chains of the same state hash, length and VRF digest.", "quantifier": "for every pair of valid chains", "why_tests_cant": "all pairs", "anchors": ["consensus/src/common.rs:select_secure_chain", "consensus/src/common.rs:is_short_range"]}
{"id": "C30", "title": "Fork classification is symmetric", "statement": "Whether a fork is short range does not depend on which chain is the current one.", "quantifier": "for every pair of chains", "why_tests_cant": "all pairs", "anchors": ["consensus/src/common.rs:is_short_range"]}
{"id": "C31", "title": "Relative density is bounded and crash free", "statement": "The relative minimum window density of a valid chain never exceeds its stored minimum window density and computing it does not overflow.", "quantifier": "for every pair of valid chains", "why_tests_cant": "all states", "anchors": ["consensus/src/common.rs:relative_min_window_density"]}
{"id": "C32", "title": "A chain that is not behind keeps its own window", "statement": "If a chain's slot is at least the other's, its relative density is the minimum of its stored minimum and the sum of its own window. Expected from the definition of the shift; the code always clears at least one sub-window.", "quantifier": "for every pair of chains past the grace period", "why_tests_cant": "all states", "anchors": ["consensus/src/common.rs:relative_min_window_density"]}
{"id": "C33", "title": "A failed selection changes nothing", "statement": "If selection reports an error the current chain is unchanged. Holds for one candidate; with several, earlier replacements stay.", "quantifier": "for every candidate list", "why_tests_cant": "all lists", "anchors": ["consensus/src/common.rs:select_secure_chain"]}
{"id": "C34", "title": "Selection does not depend on the order of candidates", "statement": "Permuting the candidates does not change the selected state. Expected; fails for mixtures of short and long range forks.", "quantifier": "for every list and permutation", "why_tests_cant": "all permutations", "anchors": ["consensus/src/common.rs:select_secure_chain"]}
{"id": "C35", "title": "Chains have consecutive heights", "statement": "Any sequence of pushes, accepted or rejected, keeps block heights consecutive and never removes a block; the length reported is the height of the last block.", "quantifier": "for every sequence of pushes", "why_tests_cant": "all histories", "anchors": ["consensus/src/common.rs:push", "consensus/src/common.rs:length"]}
{"id": "C36", "title": "Selection never crashes", "statement": "Selecting among arbitrary chains returns success or an error. Expected; epoch and density arithmetic can overflow, and zero slots per epoch divides by zero.", "quantifier": "for every chain", "why_tests_cant": "adversarial states", "anchors": ["consensus/src/common.rs:is_short_range", "consensus/src/common.rs:relative_min_window_density", "base/src/global_slot.rs"]}
{"id": "C37", "title": "The frontier only grows by valid blocks", "statement": "After any sequence of received blocks the best chain holds consecutive heights, and a rejected block changes nothing.", "quantifier": "for every sequence of blocks", "why_tests_cant": "all histories", "anchors": ["network/src/processor/naive_transition_frontier.rs:add_block"]}
{"id": "C38", "title": "Ledger proofs belong to the best block", "statement": "After any sequence of blocks the stored account proofs are those delivered with the block on top of the best chain.", "quantifier": "for every sequence of blocks", "why_tests_cant": "all histories", "anchors": ["network/src/processor/naive_transition_frontier.rs:add_block"]}
{"id": "C39", "title": "A bad block does not stop the processor and no block is lost or reordered", "statement": "For every schedule of the producing and consuming tasks over the bounded channel, the frontier sees exactly the sent blocks in order, and a rejected one does not prevent later ones.", "quantifier": "for every interleaving and block sequence", "why_tests_cant": "all schedules", "anchors": ["network/src/processor/processor_impl.rs"]}
{"id": "C40", "title": "Amounts print and parse back", "statement": "Printing any amount and parsing the text gives the amount back, and the printed text denotes the amount divided by 10^9.", "quantifier": "for every u64", "why_tests_cant": "2^64 values", "anchors": ["base/src/numbers.rs:Amount Display/FromStr"]}
{"id": "C41", "title": "Parsing a decimal amount gives the number written", "statement": "Every decimal text the parser accepts is read as its value times 10^9. Expected; more than nine fraction digits are mis-scaled and large integers overflow.", "quantifier": "for every text", "why_tests_cant": "all strings", "anchors": ["base/src/numbers.rs:Amount FromStr", "protocol/serialization-types/src/common.rs:DecimalJson"]}
{"id": "C42", "title": "JSON decimals round trip", "statement": "Serializing an amount as JSON decimal and parsing it back gives the amount.", "quantifier": "for every u64", "why_tests_cant": "2^64 values", "anchors": ["protocol/serialization-types/src/common.rs:DecimalJson"]}
{"id": "C43", "title": "32-bit counters survive their signed wire form", "statement": "A nonce or slot converted to its signed wire form, written, read and converted back is unchanged, for every u32.", "quantifier": "for every u32", "why_tests_cant": "2^32 values", "anchors": ["protocol/serialization-types/src/common.rs:ExtendedU32", "base/src/serialization_type_conversions/numbers.rs"]}
{"id": "C44", "title": "Memos keep their text", "statement": "A memo made from text of at most 32 bytes gives the text back, longer text is rejected, and distinct texts give distinct memos.", "quantifier": "for every text", "why_tests_cant": "all strings", "anchors": ["base/src/user_commands/memo.rs"]}
{"id": "C45", "title": "Reading a memo never crashes", "statement": "Reading the text of any memo, including a default or received one, returns a string. Expected; short or inconsistent memos panic.", "quantifier": "for every byte string", "why_tests_cant": "all byte strings", "anchors": ["base/src/user_commands/memo.rs:to_text"]}
{"id": "C46", "title": "Permissions are read from their own fields", "statement": "Parsing account permissions from a GraphQL answer sets each permission from the field of the same name. Expected; one is read from another field.", "quantifier": "for every answer", "why_tests_cant": "all answers", "anchors": ["base/src/account/permissions.rs:from_graphql_json"]}
{"id": "C47", "title": "Account hashing separates different permissions", "statement": "Accounts that differ only in permissions, timing or token data feed different inputs to the hash. Expected; two authorisation levels share an encoding.", "quantifier": "for every pair of accounts", "why_tests_cant": "all pairs", "anchors": ["base/src/account/permissions.rs:AuthRequired", "base/src/account/mod.rs"]}
{"id": "C48", "title": "A signature covers every field of a command", "statement": "Two command payloads with memos of the same length that feed the same input to the signing hash are the same payload.", "quantifier": "for every pair of payloads", "why_tests_cant": "all pairs", "anchors": ["base/src/user_commands/signed_command/mod.rs:to_roinput"]}
{"id": "C49", "title": "Hash input packing is injective", "statement": "Packing a sequence of fields and bounded bit chunks into field elements loses nothing: equal packings of equally shaped inputs come from equal inputs.", "quantifier": "for every input", "why_tests_cant": "all inputs", "anchors": ["proof-systems-shim/src/roinput.rs:ChunkedROInput"]}
{"id": "C50", "title": "Block verification means every command's signature is valid", "statement": "A block verifies exactly when every command in both pre-diffs has a signature valid for its signer and payload.", "quantifier": "for every block", "why_tests_cant": "all blocks", "anchors": ["base/src/external_transition.rs:verify", "base/src/staged_ledger_diff.rs:verify"]}
{"id": "C51", "title": "A verified command was authorised by its payer", "statement": "In a verified block the signer of each command is its fee payer. Expected; the code never compares them.", "quantifier": "for every block", "why_tests_cant": "all blocks", "anchors": ["base/src/user_commands/signed_command/mod.rs:verify"]}
{"id": "C52", "title": "Hex texts round trip", "statement": "Printing field elements or 256-bit integers as hex and parsing them back gives the same bytes, with or without prefix; malformed text is an error.", "quantifier": "for every 32 bytes and every text", "why_tests_cant": "all strings", "anchors": ["crypto/src/hex/mod.rs", "protocol/serialization-types/src/field_and_curve_elements.rs", "base/src/numbers.rs:BigInt256"]}
{"id": "C53", "title": "Base58 texts round trip and are type separated", "statement": "A hash printed with its version byte parses back to itself, and the text of one kind of hash is rejected by another kind. The text is the base58 form of the bytes with the Bitcoin alphabet: one digit 1 for each zero byte in front, then the same number; bytes are read from a text exactly if it has no other characters. The text of a hash is that of its version byte, its bytes and the first four bytes of their double SHA-256, and only such texts are read; an address has the version bytes cb 01 01, a memo 14, and a VRF output 15 and its length, which is not looked at.", "quantifier": "for every value, version byte and checksum function", "why_tests_cant": "all values", "anchors": ["protocol/serialization-types/src/common.rs:Base58EncodableType", "protocol/serialization-types/src/version_bytes.rs"]}
{"id": "C54", "title": "Tagged JSON enums round trip", "statement": "An enum value printed in the list-tagged JSON form parses back to itself, for the wire enums of the project; the form is ambiguous for a newtype variant holding a list of zero or one element.", "quantifier": "for every enum value", "why_tests_cant": "all values", "anchors": ["protocol/serialization-types/src/macros.rs:impl_mina_enum_json_serde_with_option"]}
{"id": "C55", "title": "Loading a genesis ledger loses no account", "statement": "The root computed from a stored genesis ledger covers every stored account. Expected; records that fail to decode and everything after a database error are skipped silently.", "quantifier": "for every database content", "why_tests_cant": "all contents", "anchors": ["ledger/src/genesis_ledger.rs", "ledger/src/rocksdb_genesis_ledger.rs"]}
{"id": "C56", "title": "Timing of an account is read or rejected", "statement": "Parsing account timing returns the timing in the answer or an error. Expected; malformed timing is silently untimed and large times are truncated.", "quantifier": "for every answer", "why_tests_cant": "all answers", "anchors": ["base/src/account/timing.rs"]}
{"id": "C57", "title": "Slots split into epoch and slot in epoch", "statement": "The epoch and the slot within the epoch determine the global slot, and the slot within the epoch is below the epoch length.", "quantifier": "for every slot and positive epoch length", "why_tests_cant": "all values", "anchors": ["base/src/global_slot.rs", "consensus/src/common.rs:epoch_slot"]}
{"id": "C58", "title": "Staged ledger digests separate their parts", "statement": "Different staged ledger hashes feed different bytes to the digest. Expected; variable-length parts are concatenated without separators (holds for parts of fixed length).", "quantifier": "for every pair", "why_tests_cant": "all pairs", "anchors": ["crypto/src/hash/types.rs:NonSnarkStagedLedgerHash::digest"]}
{"id": "C59", "title": "Secret keys box and unbox", "statement": "A key box parsed from JSON and printed again is the same box, and a malformed box is an error. Expected; out-of-range parameters are truncated and a wrong nonce length panics.", "quantifier": "for every box", "why_tests_cant": "all boxes", "anchors": ["secrets/src/secret_box"]}
{"id": "C60", "title": "Block times convert losslessly", "statement": "Converting a block time in milliseconds to the calendar type and back gives the same time, or fails.", "quantifier": "for every u64", "why_tests_cant": "2^64 values", "anchors": ["base/src/numbers.rs:BlockTime"]}
{"id": "C61", "title": "Decoding yields a value of the requested type", "statement": "If deserializing any byte string as some type succeeds, the result is a value of that type (every integer in range, every tuple complete, every variant index declared) and the unread bytes are a suffix of the input.", "quantifier": "for every type and byte string", "why_tests_cant": "hostile byte strings cannot be enumerated", "anchors": ["protocol/bin-prot/src/de.rs:Deserializer<R, StronglyTyped>"]}
{"id": "C62", "title": "Decoding cannot inflate its input", "statement": "No string, byte array or sequence inside a decoded value is longer than the input, for every type whose sequence elements occupy at least one byte; at least the minimal size of the type is consumed.", "quantifier": "for every type and byte string", "why_tests_cant": "memory exhaustion by a forged length needs an adversarial input", "anchors": ["protocol/bin-prot/src/de.rs:deserialize_seq", "protocol/bin-prot/src/read_ext.rs:bin_read_bytes"]}
{"id": "C63", "title": "Bytes written are those of OCaml's bin_prot", "statement": "Serializing a value writes exactly the byte string that the bin_prot format assigns to it: shortest integers, little endian, length-prefixed strings and lists, one-byte option and variant tags, and OCaml's hash for polymorphic variants. The format assigns exactly one byte string to every value with one-byte chars and variant indices.", "quantifier": "for every type and value", "why_tests_cant": "interoperation with the OCaml node depends on every byte of every value", "anchors": ["protocol/bin-prot/src/ser.rs:to_writer", "protocol/bin-prot/src/write_ext.rs"]}
{"id": "C64", "title": "The decoder accepts exactly the documented byte strings", "statement": "Deserializing succeeds with value v exactly when the input begins with a byte string of the documented shape for v: booleans and options only 0 or 1, any of the integer forms within the range of the type, valid UTF-8, a declared variant index, and the first polymorphic name with the tag's hash. A byte string has at most one reading.", "quantifier": "for every type and byte string", "why_tests_cant": "quantifies over all byte strings in both directions", "anchors": ["protocol/bin-prot/src/de.rs:Deserializer<R, StronglyTyped>", "protocol/bin-prot/src/read_ext.rs"]}
{"id": "C65", "title": "A verified proof fixes the position of its leaf", "statement": "If a proof object carrying the index of a leaf verifies against a tree's root, its item is the tree's leaf at that index, for a collision-free merger. Expected; checking does not test that the peer at each level is the sibling, so a proof with another index verifies too. Holds for proofs whose peers are the siblings.", "quantifier": "for every tree and proof", "why_tests_cant": "hostile proof objects cannot be enumerated", "anchors": ["merkle/src/proof.rs:get_ordered_siblings", "merkle/src/proof.rs:verify"]}
{"id": "C66", "title": "Converting a path never crashes", "statement": "Converting any list of path nodes to a proof returns a proof or an error. Expected; the empty path panics, as does a path of 64 nodes in a build with overflow checks.", "quantifier": "for every list of nodes", "why_tests_cant": "all lists", "anchors": ["merkle/src/path.rs:to_proof"]}
{"id": "C67", "title": "A fixed-height tree made with an expected capacity holds that many leaves", "statement": "Creating a fixed-height tree with an expected number of leaves gives a tree whose root can be read after adding them. Expected; the height is 0 and the root panics from the second leaf on.", "quantifier": "for every capacity and merger", "why_tests_cant": "quantifies over hashers and mergers", "anchors": ["merkle/src/tree.rs:with_capacity", "merkle/src/tree_impl.rs"]}
{"id": "C68", "title": "Count and height describe the leaves", "statement": "After any history the count is the number of leaves added and the height of a variable-height tree is the least height with room for them.", "quantifier": "for every history", "why_tests_cant": "all histories and sizes", "anchors": ["merkle/src/tree_impl.rs:count", "merkle/src/tree_impl.rs:height"]}
{"id": "C69", "title": "Falling behind costs only the sub-windows missed", "statement": "A chain whose tip is a few slots behind the other loses only the density of the sub-windows (7 slots each) passed since. Expected; the code shifts one sub-window per slot, so ten slots behind leaves density 0.", "quantifier": "for every pair of chains past the grace period", "why_tests_cant": "all pairs of chains", "anchors": ["consensus/src/common.rs:relative_min_window_density"]}
{"id": "C70", "title": "Offering a candidate again changes nothing", "statement": "If selection with one candidate succeeds, offering the same candidate again leaves the resulting chain as it is.", "quantifier": "for every pair of chains, valid or not", "why_tests_cant": "all chains", "anchors": ["consensus/src/common.rs:select_secure_chain"]}
{"id": "C71", "title": "Chain preference is transitive", "statement": "If B replaces A and C replaces B then C replaces A. Expected; fails for mixtures of short and long range forks, where three valid chains can replace each other in a cycle. Holds within one fork (same epoch and checkpoint).", "quantifier": "for every three chains", "why_tests_cant": "all triples of chains", "anchors": ["consensus/src/common.rs:select_secure_chain"]}
{"id": "C72", "title": "No received block crashes the node", "statement": "Adding any received block to the frontier succeeds or is refused. Expected; a verified block announcing epochs of 0 slots panics in every build, and the receive loop handles no later message. Holds for blocks with valid states.", "quantifier": "for every frontier and block", "why_tests_cant": "hostile blocks cannot be enumerated", "anchors": ["network/src/processor/naive_transition_frontier.rs:add_block", "consensus/src/common.rs:epoch_slot"]}
{"id": "C73", "title": "The best chain accumulates its blocks", "statement": "After receiving the successive blocks of a chain, the best chain holds them all. Expected; every block after the first is offered as a candidate chain of one block and replaces the whole chain, which never holds more than two blocks.", "quantifier": "for every history", "why_tests_cant": "all histories", "anchors": ["network/src/processor/naive_transition_frontier.rs:add_block"]}
{"id": "C74", "title": "The first block received cannot lock out later ones", "statement": "Whatever was received first, a better valid block is taken. Expected; after a first block of length 0 every block except one of length 1 is refused for ever. From a valid best block of positive length the frontier follows the selection rule.", "quantifier": "for every history", "why_tests_cant": "all histories", "anchors": ["network/src/processor/naive_transition_frontier.rs:add_block", "consensus/src/common.rs:length"]}
{"id": "C75", "title": "Stored account proofs are checked against the best block", "statement": "The proofs stored after adding a block verify against the block's ledger hash. Expected; they are stored unchecked, and redelivering the best block with other proofs replaces them.", "quantifier": "for every block and list of proofs", "why_tests_cant": "all responses of a hostile server", "anchors": ["network/src/processor/naive_transition_frontier.rs:add_block"]}
{"id": "C76", "title": "No GraphQL response crashes the conversion to a block", "statement": "Converting any response to a protocol state with account proofs succeeds or fails with an error. Expected; an account entry with an empty path panics. Holds for paths of 1 to 62 nodes when the leaf hashes parse without panic.", "quantifier": "for every response", "why_tests_cant": "hostile responses cannot be enumerated", "anchors": ["network/src/processor/naive_transition_frontier.rs:TryFrom<&serde_json::Value> for ProtocolStateWithSparseMerkleLedger"]}
{"id": "C77", "title": "Variant names and sizes survive the in-memory hand-over", "statement": "The layout decoder passes name, index, tag and number of arguments of a variant to the value builder by encoding and decoding them; all of them arrive unchanged.", "quantifier": "for every index, tag, UTF-8 name and length below 2^63", "why_tests_cant": "all names and numbers", "anchors": ["protocol/bin-prot/src/loose_deserializer.rs:variant_seed", "protocol/bin-prot/src/loose_deserializer.rs:EnumData"]}
{"id": "C78", "title": "The layout decoder does not depend on how the input arrives", "statement": "Decoding by layout through a buffered reader of any capacity, with the input in chunks of any sizes, gives the value or error of decoding the whole byte string.", "quantifier": "for every layout, capacity and chunking", "why_tests_cant": "all chunkings", "anchors": ["protocol/bin-prot/src/loose_deserializer.rs:deserialize_loose", "protocol/bin-prot/src/de.rs:from_reader"]}
{"id": "C79", "title": "Decoded values are in the range the writer handles", "statement": "A decoded dynamic value contains no natural number or string node, and every integer, char, index and tag in it is in range of its wire form. A natural number node built by hand is written as a signed integer, which from 32768 on is not the format of a length.", "quantifier": "for every layout and accepted byte string", "why_tests_cant": "layouts and inputs are unbounded", "anchors": ["protocol/bin-prot/src/loose_deserializer.rs:deserialize_loose", "protocol/bin-prot/src/value/ser.rs"]}
{"id": "C80", "title": "Parsing a decimal field element never crashes", "statement": "Parsing a decimal text as a field element, from JSON or as a plain text, gives the number it denotes when that is below the field's modulus, and an error otherwise; it never panics.", "quantifier": "for every text", "why_tests_cant": "only a handful of literals are parsed in tests", "anchors": ["proof-systems-shim/src/fp.rs"]}
{"id": "C83", "title": "Base64 texts are exact", "statement": "Writing bytes as base64 text and reading it back gives the bytes. A text is accepted only when it is that text, possibly with padding missing, so no two different bodies denote the same bytes. The text is the one that RFC 4648 gives for URLs.", "quantifier": "for every byte string and text", "why_tests_cant": "the text space is unbounded", "anchors": ["protocol/serialization-types/src/consensus_state.rs:VrfOutputTruncatedBase64Json", "protocol/serialization-types/src/protocol_state_proof.rs:ProtocolStateProofBase64Json"]}
{"id": "C86", "title": "Verifying a block never crashes", "statement": "Verifying a block always answers yes or no. Expected; a signer that is not a point of the curve makes it panic.", "quantifier": "for every block", "why_tests_cant": "keys off the curve are never in the fixtures", "anchors": ["base/src/user_commands/signed_command/mod.rs:verify", "base/src/external_transition.rs:verify"]}
{"id": "C87", "title": "A command signed with a key verifies on its network", "statement": "A command made from a payload and a keypair has that payload and that public key and verifies in a context for the same network, for every signature scheme whose own signatures verify; the networks use different domains.", "quantifier": "for every payload, keypair and network", "why_tests_cant": "only a few keys and payloads are tried in tests", "anchors": ["base/src/user_commands/signed_command/mod.rs:from_payload"]}
{"id": "C88", "title": "The payment builder keeps the last value set", "statement": "Every field of a built payment is the one given at creation, the argument of the last setter called for it, or its documented default; a payment built without memo equals one built with the memo of the empty text. The latter is expected and false.", "quantifier": "for every sequence of setter calls", "why_tests_cant": "sequences of calls are unbounded", "anchors": ["base/src/user_commands/signed_command/builder.rs"]}
{"id": "C89", "title": "Hashing an account never crashes", "statement": "The hash of every account is a field element. Expected; it panics exactly when the receipt chain hash or the voting hash is not below the field modulus.", "quantifier": "for every account", "why_tests_cant": "hashes above the modulus are never in the fixtures", "anchors": ["base/src/account/mod.rs:hash"]}
{"id": "C90", "title": "The state hash covers the whole state", "statement": "Two protocol states with the same hash agree on the previous state hash and on every hashed part of the body, or a collision of the hash function is exhibited; for both the legacy and the current form. Expected without further conditions; the number of densities and the length of the VRF output are not hashed, bytes of the VRF output after the 32nd and its three highest bits are dropped.", "quantifier": "for all pairs of states and all hash functions", "why_tests_cant": "a colliding pair is not found by sampling", "anchors": ["base/src/protocol_state.rs:state_hash", "base/src/consensus_state.rs:roinput", "base/src/blockchain_state.rs:roinput"]}
{"id": "C91", "title": "Hashing a protocol state never crashes", "statement": "The hash of every protocol state is a field element. Expected; it panics exactly when one of the hashes inside the state is not below the field modulus.", "quantifier": "for every state", "why_tests_cant": "hashes above the modulus are never in the fixtures", "anchors": ["base/src/protocol_state.rs:state_hash"]}
{"id": "C81", "title": "Reading JSON never crashes", "statement": "Converting any JSON document to any of the project's wire types returns a value or an error. Expected; reading panics for exactly the types that contain a list-tagged enum, a single-character string or a field element, and in a build with overflow checks those with a decimal amount.", "quantifier": "for every JSON type of the project and every document", "why_tests_cant": "the fixtures hold well-formed documents only", "anchors": ["protocol/serialization-types/src/macros.rs:impl_mina_enum_json_serde_with_option", "protocol/serialization-types/src/common.rs"]}
{"id": "C82", "title": "Wire values round trip through JSON", "statement": "A wire value written as JSON reads back as the same value. Expected; version numbers of wrappers and the protocol versions of a block are lost, and public keys outside the field cannot be written. Exactly the values with the declared version numbers and default protocol versions come back, every other one comes back with these replaced.", "quantifier": "for every JSON type of the project and every value", "why_tests_cant": "the fixtures have one version number", "anchors": ["protocol/serialization-types/src/json.rs", "protocol/serialization-types/src/external_transition.rs:ExternalTransitionJson", "protocol/serialization-types-macros/src"]}
{"id": "C84", "title": "What is read from JSON is a valid wire value", "statement": "A value read from a JSON document is in the range of its wire type, has the declared version numbers, and written and read again is the same value.", "quantifier": "for every JSON type of the project and every document", "why_tests_cant": "documents outside the fixtures", "anchors": ["protocol/serialization-types/src/common.rs"]}
{"id": "C85", "title": "Written JSON is valid UTF-8", "statement": "Every string of a written document is UTF-8. Expected; it is so exactly if the bytes that are turned into strings without a check (the sok digest, single characters) are UTF-8.", "quantifier": "for every JSON type of the project and every value", "why_tests_cant": "the fixtures have ASCII digests", "anchors": ["protocol/serialization-types/src/common.rs:ByteVecJson", "protocol/serialization-types/src/common.rs:CharJson"]}
{"id": "C92", "title": "Objects are read independently of member order", "statement": "Reordering the members of a JSON object does not change the value that is read; members that are no field are ignored; every field that is neither optional nor skipped has to be present.", "quantifier": "for every struct type and every object with distinct keys", "why_tests_cant": "all orders and all extra members", "anchors": ["protocol/serialization-types/src/external_transition.rs:ExternalTransitionJson"]}
{"id": "C93", "title": "A protocol state is read as the answer says", "statement": "Parsing the protocol state of a GraphQL answer returns the state the answer describes, and an error if it describes none. Expected; the genesis state hash, the local state, the sub-window densities, the slots per epoch and the constants are fixed values. Exactly the states with these values are read as they are, every other one with these put in.", "quantifier": "for every answer and every state", "why_tests_cant": "all answers and all networks", "anchors": ["base/src/protocol_state.rs:from_graphql_json", "base/src/consensus_state.rs:from_graphql_json", "base/src/blockchain_state.rs:from_graphql_json", "base/src/epoch_data.rs:from_graphql_json"]}
{"id": "C94", "title": "An account is read as the answer says", "statement": "Parsing an account of a GraphQL answer returns the account the answer describes, and an error if it describes none. Expected; the token symbol and the zkapp are dropped and one permission is another one's. Exactly the accounts without these are read as they are.", "quantifier": "for every answer and every account", "why_tests_cant": "all answers", "anchors": ["base/src/account/mod.rs:from_graphql_json"]}
{"id": "C95", "title": "Reading GraphQL answers never crashes", "statement": "For every JSON document parsing it as a protocol state or as an account returns a value or an error.", "quantifier": "for every document, with and without overflow checks", "why_tests_cant": "all documents", "anchors": ["base/src/protocol_state.rs:from_graphql_json", "base/src/account/mod.rs:from_graphql_json"]}
{"id": "C96", "title": "A sealed key comes out of its wallet", "statement": "Unlocking a wallet that seals a key under a password, with the costs that the wallet states, returns this key, and anything else is an error. Expected; a memory limit of 2^42 bytes or more is used truncated, and a nonce that has not 24 bytes or an empty sealed text crashes.", "quantifier": "for every wallet, password, key derivation and cipher", "why_tests_cant": "all wallets and passwords", "anchors": ["secrets/src/secret_box/utils.rs", "secrets/src/secret_box/types_impls.rs"]}
{"id": "C97", "title": "Accounts keep their data between wire and base types", "statement": "Converting a decoded account to the account of the base crate keeps every field, converting it back gives the same wire value, and no input crashes the conversion. Expected; a public key or delegate that is no field element crashes it.", "quantifier": "for every account and every wire value, of both account versions", "why_tests_cant": "all accounts and all wire values", "anchors": ["base/src/account/mod.rs", "protocol/serialization-types-macros/src/auto_from.rs", "protocol/serialization-types/src/signatures.rs"]}
{"id": "C98", "title": "The root of a genesis ledger determines its accounts", "statement": "If two stored genesis ledgers have the same root, then they hold the same accounts in the same order, unless the hash function collides or an account has the hash of the missing account. Expected; accounts are the same up to what account hashes leave out, and for the older accounts up to everything but the token and the balance.", "quantifier": "for every two databases and every hash function", "why_tests_cant": "all databases", "anchors": ["ledger/src/genesis_ledger.rs", "ledger/src/rocksdb_genesis_ledger.rs", "base/src/account/mod.rs"]}
{"id": "C99", "title": "Blocks keep their data between wire and base types", "statement": "Converting a decoded block, protocol state or signed command to the base crate's type and back gives the same wire value, every base value comes back from its wire value, and no decoded value crashes the conversion. Expected; version numbers become 1, and a public key or signature that is no field element crashes it.", "quantifier": "for every block, protocol state and command, as wire value and as base value", "why_tests_cant": "all values of the types", "anchors": ["base/src/external_transition.rs", "base/src/protocol_state.rs", "protocol/serialization-types-macros/src/auto_from.rs", "protocol/serialization-types/src/signatures.rs", "protocol/versioned/src/lib.rs"]}
{"id": "C100", "title": "A converted block says what its wire value says", "statement": "Every member of the protocol state and of the commands of a converted block is what stands at its position of the wire value, numbers that are signed on the wire taken modulo 2^32; and the commands of a block are the signed commands found anywhere in the wire value.", "quantifier": "for every wire value of a block, protocol state or command", "why_tests_cant": "all wire values", "anchors": ["base/src/external_transition.rs", "base/src/protocol_state.rs", "base/src/consensus_state.rs", "base/src/blockchain_state.rs", "base/src/user_commands/signed_command/mod.rs", "base/src/staged_ledger_diff.rs", "base/src/serialization_type_conversions/numbers.rs"]}
{"id": "C101", "title": "Blocks survive being written to bytes and read back", "statement": "try_into_binprot of a block, protocol state or command gives bytes from which try_from_binprot reads the same value, however the reader cuts them into pieces. On any bytes try_from_binprot returns an error or the value they encode, which can be written and read again. Expected never to crash; it crashes exactly if the bytes encode a public key or signature that is no field element.", "quantifier": "for every value, every byte string and every chunking", "why_tests_cant": "all values, byte strings and chunkings", "anchors": ["protocol/serialization-types/src/type_annotations.rs", "base/src/external_transition.rs", "protocol/bin-prot/src/de.rs", "protocol/bin-prot/src/ser.rs"]}
{"id": "C102", "title": "A received block is accepted exactly if all signatures in it are valid", "statement": "A block read from bytes verifies exactly when every signed command anywhere in the value encoded by the bytes has a valid signature. Two received blocks with the same state hash agree on all that is hashed unless the hash function collides. Expected never to crash; a signer that is no point or a hash that is no field element crashes it.", "quantifier": "for every byte string and every signature scheme and hash function", "why_tests_cant": "all byte strings", "anchors": ["base/src/external_transition.rs", "base/src/staged_ledger_diff.rs", "base/src/user_commands/signed_command/mod.rs", "base/src/protocol_state.rs", "protocol/serialization-types/src/type_annotations.rs"]}
{"id": "C103", "title": "The shipped layouts describe what the typed decoders read", "statement": "For the shipped layouts of blocks, protocol states and snark work: what the typed decoder reads, the layout-driven decoder reads too, stopping at the same byte and standing for the same bytes; and the other way round, unless a number or a variant is one the Rust types do not have. Expected for everything; failed commands and coinbases with two transfers are laid out differently.", "quantifier": "for every byte string and every layout that passes a structural check against a type", "why_tests_cant": "all byte strings", "anchors": ["protocol/layouts/external_transition.json", "protocol/layouts/protocol_state.json", "protocol/layouts/snark_work.json", "protocol/serialization-types/src/staged_ledger_diff.rs", "protocol/serialization-types/src/external_transition.rs", "protocol/bin-prot/src/loose_deserializer.rs", "protocol/bin-prot/src/de.rs"]}
{"id": "C104", "title": "Layout documents: read exactly what they say", "statement": "Reading a layout from JSON yields a rule exactly when the document is one OCaml's printer could have written for that rule, up to the order of members, members with other names and records given as arrays; every rule with numbers in range is read back from its printed form, and the four shipped documents are read as the rules the decoders are compared with. A document that repeats one of its five members is refused. Expected also of what the crate itself prints; it never reads that.", "quantifier": "for every JSON value and every rule", "why_tests_cant": "all documents of any size and depth", "anchors": ["protocol/bin-prot/src/value/layout/mod.rs", "protocol/bin-prot/src/value/layout/list_tagged_enum.rs", "protocol/layouts/external_transition.json", "protocol/layouts/protocol_state.json", "protocol/layouts/snark_work.json", "protocol/layouts/verification_key.json", "apps/bin-prot-layout-reader/src/main.rs"]}
{"id": "C105", "title": "Indexing into decoded values follows the layout", "statement": "In a value decoded by a layout, indexing along field names and positions of the layout never panics and gives a value of the layout found there; a name that the layout does not have there panics for every input; inner panics exactly where the layout has no option. Expected also by name into a sum with a record inside, as the comment says; that always panics.", "quantifier": "for every layout, byte string and path", "why_tests_cant": "paths, layouts and inputs are unbounded", "anchors": ["protocol/bin-prot/src/value/index.rs", "protocol/bin-prot/src/value/mod.rs:inner", "protocol/bin-prot/src/loose_deserializer.rs"]}
{"id": "C106", "title": "The layout reader shows what the file says", "statement": "The layout reader tool shows the value at the beginning of the binary, which is the file or what its hex digits denote; with the flag it shows it exactly when the binary is the canonical encoding of the value with nothing behind. Expected for every encoded file and every hex text; a hex text that ends with a line end is read as raw bytes, raw bytes that look like hex digits are read as hex, and a failed round trip is a panic.", "quantifier": "for every layout document and every file", "why_tests_cant": "files are unbounded", "anchors": ["apps/bin-prot-layout-reader/src/main.rs"]}
{"id": "C107", "title": "A server reads in a request what the caller asked", "statement": "The text that sendPayment, lockAccount, unlockAccount, getAccountInfo and the best-chain poll put into a request is read by a GraphQL server as exactly the one call with the given arguments. Expected for every argument; true exactly for arguments without quotes, backslashes and control characters. A recipient text chosen by somebody else can add a second payment of any amount, and a password with a backslash is another password or a malformed request.", "quantifier": "for every fee, amount, address, key, password and set of tracked accounts", "why_tests_cant": "texts are unbounded; tests use well-formed addresses", "anchors": ["apps/wasm/mvp/src/payment.rs", "apps/wasm/mina-berkeley/src/payment.rs", "network/js/graphql_berkeley_utils.js", "network/js/graphql_v1_utils.js"]}
{"id": "C108", "title": "Payments are sent with the given data and failures are reported", "statement": "sendPayment sends one request, with the fee and the amount whose decimal text the caller gave, exactly if both are numbers of 64 bits; otherwise it sends nothing and fails. Expected also that nonce, memo and the last valid slot are sent, and that failures of the server are errors; they are never sent, an unreachable server is a panic, and an answer that lists errors is handed on as success.", "quantifier": "for every payment value of JavaScript and every server", "why_tests_cant": "inputs and server behaviours are unbounded", "anchors": ["apps/wasm/mvp/src/payment.rs", "apps/wasm/mina-berkeley/src/payment.rs", "apps/wasm/mina-berkeley/src/js_exports.rs"]}
{"id": "C109", "title": "The chain state a client shows is the one the server answers", "statement": "The answer of a server to the best-chain request is read as a state exactly if it says that state of its first block, with the snarked ledger of the genesis block as genesis ledger; it is tried three times; the fields asked for are all that the reader needs. Expected also that the best of the listed blocks is read; it is the first, whatever the heights.", "quantifier": "for every answer, every state and every behaviour of the network", "why_tests_cant": "answers are unbounded; needs a running server", "anchors": ["network/js/graphql_berkeley_utils.js", "network/src/processor/js/graphql_api_berkeley.rs", "network/src/processor/naive_transition_frontier.rs:try_from"]}
{"id": "C110", "title": "Polling hands on every block that can be had", "statement": "A poll hands the processor the blocks of all endpoints that answer (berkeley) or of all listed hashes that can be fetched (v1), in order, each block from an address of its own. Expected; on berkeley one endpoint that does not answer hides those behind it, so the outcome depends on the order of a hash set, and a request for a block is answered with the chain of the server; on v1 a poll in which no block came is a success.", "quantifier": "for every set of endpoints and every behaviour of the network", "why_tests_cant": "all failure patterns", "anchors": ["network/src/processor/js/graphql_api_berkeley.rs", "network/src/processor/js/graphql_api_v1.rs", "network/js/graphql_v1_utils.js"]}
{"id": "C111", "title": "Polls, setters and readers of a client all finish", "statement": "Against a running processor with a frontier that sends no requests, every execution of any number of polls, setters and readers takes a fixed number of steps and ends with all of them done. Expected in general; a poll of two blocks never ends when the processor does not run and blocks the setters, a frontier that sends four requests for one block never gets past it, and with one request for each block a poll of five blocks never ends.", "quantifier": "for every interleaving of any number of tasks", "why_tests_cant": "all schedules", "anchors": ["network/src/processor/processor_impl.rs", "network/src/processor/mod.rs", "apps/wasm/mina-berkeley/src/js_exports.rs", "network/src/processor/js/graphql_api_v1.rs:poll_latest_once"]}
{"id": "C112", "title": "Messages between the wasm module and its page arrive", "statement": "The page reads any sequence of protobuf fields, in any order, repeated or unknown, as the protobuf format says; a peer status or a response sent by the wasm module is shown with all its values; a request written by the page is what the format prescribes; what the page writes it reads back. Expected also for all bytes and all texts; a length of more than 2^31 makes the reader loop for ever, and a text with half of a surrogate pair arrives as another text.", "quantifier": "for every message, every text of Unicode scalar values and every 64-bit number", "why_tests_cant": "all texts and numbers", "anchors": ["apps/wasm/mvp/web/pb/messages.ts", "apps/wasm/mvp/web/pb/requests.ts", "apps/wasm/mvp/web/pb/responses.ts", "apps/wasm/mvp/proto/messages.proto"]}
{"id": "C113", "title": "The node status of every peer reaches the page", "statement": "Reading the answers of a node: each line that, after trimming white space, is the base64 of a status document makes one status message, every other line none; the messages come in the order of the lines and with the same values on the page; a line that is not text ends the reading. Expected also: reading ends with the stream, each peer has a row of its own with its values, and the page is told whether dialling succeeded. Reading never ends when the stream does; there is one row with the key \"undefined\" whatever peers there are; the promise is fulfilled only when dialling fails, and says success.", "quantifier": "for every byte stream, every line, every list of peers and every result of dialling", "why_tests_cant": "all byte streams and lists", "anchors": ["apps/wasm/mvp/src/lib.rs", "apps/wasm/mvp/src/js_exports.rs", "apps/wasm/mvp/web/pages/libp2p.vue"]}
{"id": "C115", "title": "The checker of the codec reads what it writes", "statement": "Every value of the types of the checker tool, written and handed over in pieces of any size and with anything behind it, is read back; the eight names of tests are accepted and every other name panics; what is printed tells the values of one test apart. Expected also: the test nat0 reads the encoding of a natural number, a listed name is a test, and fields marked as integer or nat0 can be read; none of these holds.", "quantifier": "for every value of every test type, every splitting of the bytes and every name", "why_tests_cant": "all values and all splittings", "anchors": ["protocol/bin_prot_checker/src/main.rs", "protocol/bin-prot/src/integers/integer.rs", "protocol/bin-prot/src/integers/nat0.rs"]}
{"id": "C114", "title": "The block crawler saves every block it was told of", "statement": "The name of the file of a block determines height and hash, and is one in the folder exactly when the hash has no slash; the request asks for the announced blocks and the answer is read back. For every list of blocks, every disk, every limit and every order of replies: each run of the crawl ends; it stops early only on a crash or when no reply comes for any running check; when done, the disk holds for each block not already saved the document served, under success or failure as the check says, and nothing else has changed; whether it crashes depends on the replies alone; at any moment every record is old or true; crawling again changes nothing; a block written by this code succeeds, with any scheduled_time added. Expected also: no document crashes the crawl, a record is never lost, a silent server does not stop the others, every hash has a file name; none of these holds.", "quantifier": "for every folder, list of blocks, server reply and order of events", "why_tests_cant": "all folders, replies and schedules", "anchors": ["apps/tools/blocks-crawler/src/blocks.rs", "apps/tools/blocks-crawler/src/main.rs"]}
{"id": "C117", "title": "The first block of a chain is fit for use", "statement": "For every configuration of typed members: making the first block fails exactly when sub-windows times slots does not fit 32 bits in a checked build; the block carries every member under its name, height 1, epoch 0, slot 0, no command; its bytes are read back as the same block; it verifies on every network; it meets the hypotheses of chain selection exactly when epochs have slots and there are eleven densities of at most 7; chains that begin with it have as many blocks as they say; the same block as a candidate changes nothing; between two configurations the winner is decided by the checkpoint, the density and the tie-break only. Expected also: a node keeps to its network, the development network has its own first block, the density is the number of slots in every build; none of these holds.", "quantifier": "for every configuration and every pair of configurations", "why_tests_cant": "all configurations", "anchors": ["consensus/src/genesis/config.rs", "consensus/src/genesis/genesis_impl.rs", "consensus/src/genesis/mod.rs", "consensus/src/common.rs"]}
{"id": "C116", "title": "Derived conversions carry every member", "statement": "For every declaration and every attribute list: the macro generates, for each named target type and in order, the same body in both directions; it stops the compiler exactly for a unit struct or a union with a target and generates nothing exactly without a target or without members. A member is mapped over a vector, an option or a box by the first such name in its path. Both instances compile exactly if the two types have the same names (numbers) of members and the same variants; each member of the result is then the conversion of the member of the same name or position, in whatever order the types declare them; it fails exactly if the conversion of a part does; inverse conversions of the parts give inverse instances; up to four version numbers are put on and taken off. These are the conversions used for blocks (C99). Expected also: identical members suffice, as the documentation says; variants and types without members are exceptions.", "quantifier": "for every declaration, every target type and every value", "why_tests_cant": "all declarations, orders of members and values", "anchors": ["protocol/serialization-types-macros/src/auto_from.rs", "protocol/serialization-types-macros/src/lib.rs", "protocol/versioned/src/lib.rs"]}
{"id": "C118", "title": "The transport builder keeps the last configuration", "statement": "For every hash of 32 bytes, key pair and sequence of calls: a builder fails only if its noise keys cannot be signed; it ends with the shared key and multiplexer name of the last configuration, the last timeout (one minute without any) and the peer id of its key pair. Two transports connect exactly if the last rendezvous strings hash alike and the multiplexer names agree and begin with a slash, and each sees the other's peer id; two on mainnet always do. Expected also: a builder with no configuration reaches mainnet; it does not.", "quantifier": "for every pair of key pairs and sequences of calls", "why_tests_cant": "all sequences of calls", "anchors": ["network/src/p2p/builder.rs", "network/src/p2p/config.rs"]}
{"id": "C119", "title": "Node depths computed with f64 are the levels of the tree", "statement": "For every logarithm of the library that is accurate to 2^-45 up to 2^44, and every node below 2^44: the depth computed for a node that is not the last of its level is its distance from the root; for the last it is that or one more, depending on the library's answer for that power of two alone. Where the answers for the powers on the way are right, checking a proof gives what it gives with exact logarithms, so always below 28 levels; the height of a tree is exact. Expected also: so at every level. An accurate library whose division rounds up at 2^29 and 2^31, as IEEE division of the correctly rounded logarithms does, makes the check of the last leaf's proof of a 28-level tree panic in a checked build, and refuses the true proof of the last account of the 35-level ledger.", "quantifier": "for every accurate logarithm, every node, tree size and proof", "why_tests_cant": "all nodes of trees up to 43 levels and all admissible roundings of a library", "anchors": ["merkle/src/metadata.rs", "merkle/src/tree_impl.rs", "merkle/src/proof.rs"]}
{"id": "C120", "title": "The payment page sends only what the user gave", "statement": "For every sequence of typing, clicks, answers to prompts and ends of calls: every call that leaves the page names a key the user gave, with a password the user gave, and a payment is the object in the box with only the sender set to a key given; without a key nothing leaves. The line about the lock changes only to how a call to lock or unlock has ended, or to a refused argument. A successful lock forgets the password. Expected also: after a refused password the user is asked again, and the line shows how the last request ended; neither holds.", "quantifier": "for every sequence of events", "why_tests_cant": "all interleavings of user actions with ends of calls", "anchors": ["apps/wasm/mvp/web/pages/sendPayment.vue", "apps/wasm/mina-berkeley/web/pages/sendPayment.vue"]}
{"id": "C121", "title": "The chain page and the log show what was answered and logged", "statement": "For every sequence of clicks and answers: the chain page shows the last answer to a poll under way, below one line for each click since; without failed polls and with none under way it shows an answer only. For every sequence of initialisations, records and clearings: the log is exactly the records above trace since the logger was first set and the log last cleared, in order, a line each if they have no line ends; initialising twice is an error and changes nothing. Expected also: the update line is there exactly while a poll is under way, and a record cannot look like two; neither holds.", "quantifier": "for every sequence of events", "why_tests_cant": "all interleavings and all texts", "anchors": ["apps/wasm/mvp/web/pages/graphql.vue", "apps/wasm/mvp/src/logger.rs", "apps/wasm/mvp/src/js_exports.rs"]}
{"id": "C122", "title": "The parts of a proof become the numbers and points they encode", "statement": "For every modulus and all 32-byte elements: an element below the modulus becomes the number its bytes stand for, and gives them back; different elements become different numbers; vectors, pairs and points are converted part by part, in order; a point is infinite afterwards exactly if it was. An element that is not below the modulus makes the conversion panic, and nothing else does. Expected also: what a peer sends can be converted without a crash, the points are on the curve, and the infinite point is the curve's zero; none of these holds, and a part of the first block of mainnet becomes a point on neither curve.", "quantifier": "for every modulus, element, vector and point", "why_tests_cant": "all 2^256 values of an element and both fields", "anchors": ["base/src/numbers.rs:BigInt256", "base/src/protocol_state_proof/field_and_curve_elements.rs"]}
{"id": "C123", "title": "Blocks survive being written to JSON and read back", "statement": "Every block, protocol state and signed command can be written as a JSON document, and reading the document gives the value back; of a block everything comes back but the two protocol versions, which become 2.0.0 and none. Values with the same document agree in all the rest. A block received in bytes and written as JSON reads as the same block: same commands, same protocol state. A document that is read gives a value of the type, which can be written and read again. Reading crashes exactly if the JSON reader does or some signature in the document is none; public keys are checked by the reader. Expected also: a block comes back whole, no signature crashes the conversion, what comes by JSON can be handed on in bytes; none of these holds.", "quantifier": "for every base value of the three types and every JSON document", "why_tests_cant": "documents and blocks are unbounded; fixtures have version 2.0.0 only", "anchors": ["protocol/serialization-types/src/type_annotations.rs:try_from_json", "base/src/external_transition.rs", "protocol/versioned/src/macros.rs:impl_from_with_proxy"]}
{"id": "C124", "title": "A JSON document is read as it says, and written to say what was meant", "statement": "A JSON document is read as a protocol state exactly if its members say one: every member under its name in the right object, numbers as decimal texts below 2^32 or 2^64, hashes and keys as base58 texts with their own version bytes and right checksums, the VRF output in base64, members with other names ignored. The state that is read is the one that the members say. The same for signed commands whose fee is a decimal number with at most nine digits behind the point that fits; whatever is read as a command has its members so, and its fee is right if the text is such a number. A block that is read has the protocol state and, in order, the commands that its document says. What is written for a state, a command or a block says it, every member once. Expected also: a fee that is no decimal number is refused; it is not.", "quantifier": "for every JSON document in which no object repeats a member, and every base value", "why_tests_cant": "a round trip does not notice a member under a wrong name; documents are unbounded", "anchors": ["protocol/serialization-types/src/protocol_state.rs:ProtocolStateJson", "protocol/serialization-types/src/staged_ledger_diff.rs:SignedCommandJson", "protocol/serialization-types/src/consensus_state.rs:ConsensusStateJson", "protocol/serialization-types/src/external_transition.rs:ExternalTransitionJson"]}
{"id": "C125", "title": "JSON texts are read and written as RFC 8259 says", "statement": "try_from_json accepts a text only if it is a JSON text of RFC 8259, which has one reading. A text in which no object repeats a name, nested at most 127 levels, is read as a value exactly if the document that it stands for is read as that value; blanks, escapes and the order of members do not matter. What is read is a value of the type. try_into_json writes every value with valid public keys as such a text, the text is that of the document of C82, reading it gives the value back, and two values with one text differ only in what JSON does not carry. Blocks, protocol states and signed commands of the base types go through texts so, and a text is read as a protocol state exactly if it says one. A struct with one of its members twice is refused, and so is an enum of more than 127 levels. The strings of impl_strconv_via_json are exactly the strings in the JSON form, and give the value back. Expected also: a text that repeats a name is refused, and so is one of more than 127 levels; neither is so: a payment with two amounts inside a command is read with the last one, and a member that is not known may have any depth.", "quantifier": "for every byte string, every JSON type of the wire and all its values, every conversion of numbers to and from floats", "why_tests_cant": "texts are unbounded, with free blanks, escapes and order of members; two parsers may differ on texts that no test has", "anchors": ["protocol/serialization-types/src/type_annotations.rs:try_from_json", "protocol/serialization-types/src/type_annotations.rs:try_into_json", "protocol/serialization-types/src/macros.rs:impl_strconv_via_json", "protocol/serialization-types/src/macros.rs:impl_mina_enum_json_serde"]}
{"id": "C126", "title": "Wallet files are texts", "statement": "SecretBox::try_from(&str) accepts a text exactly if it is JSON with the six parts of a wallet file, by name among other members or as a list, with base58 texts, 64 bit limits and the two known primitives; it gives the nonce, the salt, the memory limit, the passes modulo 2^32 and the ciphertext of the text. It never crashes. The JSON error comes exactly for texts without the six parts, so also for a part that comes twice. A text in which no name comes twice is read as its document is. Writing a box whose salt has 3 to 16 bytes gives a text on several lines that is JSON, and reading the text or the Value gives the box back; the text has eleven lines, the same for every box but for its five values.", "quantifier": "for every byte string and every box", "why_tests_cant": "texts have free blanks, escapes and order of members; the tests read one file", "anchors": ["secrets/src/secret_box/types_impls.rs", "secrets/src/secret_box/types.rs:SecretBoxJson"]}
{"id": "C127", "title": "Answers of the berkeley API", "statement": "An answer is read as a protocol state and proofs exactly if the first block of its best chain says that state and every member whose name is an address says a proof: the leaf hash, at the place that the directions of the path give, with the sibling hashes. Members with other names are ignored; no address goes without a proof. A text in which no name comes twice, nested at most 127 levels, is read as its document, with the proofs in the order of the addresses; of members with one name the last counts; a text that is no JSON or is nested deeper is an error. No answer crashes if its hashes are below the modulus and its paths have 1 to 62 nodes. Expected also: no answer crashes; it does on a hash of a path or a leaf that is not below the modulus, and on an empty path.", "quantifier": "for every JSON document and text with paths of at most 62 nodes, in builds with and without overflow checks", "why_tests_cant": "the answer comes from a server; every address and every node of a path may be wrong in its own way", "anchors": ["network/src/processor/naive_transition_frontier.rs:ProtocolStateWithSparseMerkleLedger", "network/src/processor/js/graphql_api_berkeley.rs:fetch_best_chain_json", "merkle/src/path.rs:MerklePath"]}
{"id": "C128", "title": "Layout files are texts", "statement": "The layout readers read a text that begins, behind blanks, with an object or an array as what is kept of that value; nothing else is read. They give a rule exactly if the document is a layout with that rule: its five members come at most once and of other members only the form counts, while of members with one name inside a rule the last counts. Every rule that OCaml can print is read from the text of its document, whatever comes behind it. The tool on a layout file and a binary then accepts, with its round trip flag, exactly the canonical encodings of values of the rule; without a layout in the file it gives an error. Expected also: a text that is no JSON is refused; it is not, since what comes behind the layout is never looked at.", "quantifier": "for every byte string, every JSON document and every writable rule", "why_tests_cant": "layout files have thousands of lines; the fixtures are well-formed files without anything behind the layout", "anchors": ["apps/bin-prot-layout-reader/src/main.rs", "protocol/test-fixtures/src/lib.rs", "protocol/bin-prot/src/value/layout/mod.rs:Layout"]}
{"id": "C129", "title": "Texts show the kind of hash or key by how they begin", "statement": "Every address that is read has 55 characters and begins with B62q. The text written for a state hash has 52 characters and begins with 3N, that of a ledger hash has 51 and begins with j, and likewise for the other kinds of hashes (2, 2v, 3W, 4Q, 4Y), for signatures (96 characters, 7m) and memos of bytes (53 characters, E4). Expected also of every text that is read as a hash; not so, since the version number inside is not looked at and may take more bytes; a text of at most 52 characters that is read as a hash of version 1 does begin so.", "quantifier": "for every public key, hash, signature and memo", "why_tests_cant": "there are 2^256 hashes; tests look at a few texts", "anchors": ["protocol/serialization-types/src/common.rs:HashV1Json", "protocol/serialization-types/src/version_bytes.rs", "protocol/serialization-types/src/signatures.rs:SignatureJson", "protocol/serialization-types/src/staged_ledger_diff.rs:SignedCommandMemoJson"]}
