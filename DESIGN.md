# Formal model of mina-rs: design

The source in `/repo` is Rust and is read as text only. This directory holds a
model of it in Coq 8.16.1 (`rocq/theories`), the theorems about the model, and
the record of mutation tests (`seeded/LOG.jsonl`). `properties.jsonl` lists the
claims in words; `MANIFEST.json` maps each claim to exact theorem names.

## How the model is built

* Functions are total Gallina functions over lists, `Z`, `N`, `nat`, `option`
  and records. A `&mut self` method returns the new value.
* `Result`/`Option` stay data. A panic is an explicit value (`Panic` in the
  type `res`), so "never panics" is a statement that can be proved or refuted.
* Integers are `Z` with explicit ranges. Where overflow matters the model has a
  flag `checked : bool`: `true` is a build with overflow checks (debug: panic),
  `false` is a release build (wrap). The root `Cargo.toml` has no `[profile]`
  section, so these are the two Cargo defaults.
* Loops are structural recursion or folds.
* Hash functions, signature checks, field arithmetic and curve membership are
  Section variables. After the section closes they are ordinary universally
  quantified arguments of the theorems, so no axiom is introduced.
* Specifications (`*Spec.v`) are written without the model's helpers.
* Files named `*Props.v` contain the property theorems only, each closed by
  `exact`, followed by `Print Assumptions` and a concrete non-trivial instance.
* `…_refuted` theorems exhibit a concrete counterexample in the faithful model
  to a claim one would expect. `…_partial` theorems prove part of a claim.

## Mutation log

Each line of `seeded/LOG.jsonl` is one wrong program, built in a scratch copy.
`first_broken_proofs` is what the build reported: without `all_observed`, the
place where it stopped in each file (often a helper lemma); with
`"all_observed": true`, every broken proof, found by leaving out the broken
proofs in the scratch copy and building on. `failed` is computed from it: the
property theorems whose own proof is broken or that use a broken helper.
`predicted_not_observed`, where present, lists theorems that were expected to
fail and were not seen to. `tightened` lists theorems changed or added because
of the attempt. (Earlier versions of the log merged the predictions into
`failed`.)

## Conformance

The codec model and the wire type descriptors were run (`vm_compute`) on real
blocks from `protocol/test-fixtures/src/data`. One is kept as an example in
`Wire/Fixture.v` (`C11_block_77749`). All eleven fixture blocks
below 50 kB, tried in a scratch directory, decode with nothing left over and
re-encode to the same bytes. `theories/Conformance` runs the model on the inputs
of the repository's own unit tests and compares with the results they expect:
the byte tables, round trips and layouts of bin_prot, chain selection, the
Merkle trees, texts of amounts, hashes, memos and addresses, and the hash inputs
of the Berkeley state. The first block of mainnet, made from the texts of
`config.rs` with its proof, has exactly the 8217 bytes of the fixture
(`C117_mainnet_block`). The JSON file of block 77748 is read by the model and
encodes to exactly the bytes of that block's hex fixture
(`Conformance/JsonTests.v`). Left out are
tests that need Poseidon or files that the repository does not contain. These
are tests of the transcription, not proofs.

## Trusted base

* Coq's kernel (and `coqchk`), and the statement of each theorem.
* `Print Assumptions` for each property theorem: see the table at the end.
  Target: "Closed under the global context" for all of them.
* That the Gallina functions transcribe the cited Rust lines. Every definition
  cites its file and lines, and says where it simplifies.
* Behaviour of Rust's standard library and of external crates is transcribed
  from documentation and memory, at these points: integer parsing and
  formatting, `str::split`, `BufReader` (capacity, bypass for large reads,
  `read_exact`), `Vec`/slice indexing panics, `num::FromPrimitive`, serde derive
  (field order, variant index, newtype transparency), `bs58`, `hex`, `base64` (0.13),
  `serde_json` (parser, both printers, `Value`, depth limit), `tokio::sync::mpsc` (FIFO, bounded).

## Not modelled

* Poseidon, Blake2, Argon2, XSalsa20: uninterpreted functions. SHA-256 is
  computed for the checksums (`Lib/Sha256.v`) and uninterpreted elsewhere.
* The arithmetic of the Pasta curves: the field is represented by its modulus
  where packing needs it, curve membership is an uninterpreted predicate.
* libp2p itself (only when two transports connect), protobuf, the other wasm bindings, RocksDB itself (only its ordered
  list of entries), logging except the wasm logger, the other CLI tools.
* Floating point: floats are 32/64-bit patterns. `MerkleTreeNodeMetadata::depth`
  uses an `f64` logarithm; `Merkle/Tree.v` uses the exact integer logarithm.
  `Merkle/Float.v` has the `f64` conversions, with the library's logarithm as a
  parameter, and C119 says where the two models agree and where they do not.
* Stack overflow, and allocation failure except one case: allocating 2^63 bytes
  or more panics (`alloc`), as `vec![0u8; len]` does for any element size.

## Files

| Directory | Models |
|---|---|
| `theories/Lib` | results with panic, bytes, little endian, list lemmas |
| `theories/BinProt` | `protocol/bin-prot`: primitives, typed codec, strict reader |
| `theories/Wire` | `protocol/serialization-types`, `protocol/versioned` as type descriptors |
| `theories/Merkle` | `merkle` |
| `theories/Consensus` | `consensus/src/common.rs`, `base/src/global_slot.rs`; `consensus/src/genesis`: the first block of a chain, the configuration of mainnet with its proof, the first state of Berkeley |
| `theories/Frontier` | `network/src/processor` |
| `theories/Loose` | `protocol/bin-prot`: layout-driven decoder, rule iterator, dynamic values and indexing into them |
| `theories/Text` | decimal, hex, base58, base64, memo texts; base58 checksums with SHA-256 (`Lib/Sha256.v`, FIPS 180-4) and signer addresses (`Checksum.v`, written from the signer's description) |
| `theories/Json` | JSON forms of the wire types: descriptors, writing, reading; JSON texts as serde_json reads and prints them (`Parse.v`, `JsonText.v`, `Pretty.v`, `BlockText.v`) |
| `theories/GraphQL` | parsing of protocol states and accounts in GraphQL answers |
| `theories/Secrets` | wallet files: reading, writing, unlocking (key derivation and cipher are parameters) |
| `theories/Ledger` | accounts between wire and base types; genesis ledgers in RocksDB (the database is its ordered list of entries) |
| `theories/Convert` | blocks, protocol states and signed commands between bytes, wire values and base types; the base types are described by data (`BlockConv.v`), with the fields and variants in the order of the Rust declarations; the conversions of field elements and points to arkworks types (`Curve.v`); base types read from and written to JSON documents (`JsonBlock.v`) |
| `theories/Layout` | the reader of layout documents (`LayoutJson.v`); the shipped documents (`DocumentProps.v`) and their rules (`Shipped.v`), both written by a script; the check of a layout against a wire type; the layout reader tool of `apps/bin-prot-layout-reader` (`Reader.v`) |
| `theories/Network` | `network/src/p2p`: the transport builder |
| `theories/Tools` | command line tools |
| `theories/Proto` | protocol buffers between the wasm module and its page |
| `theories/Client` | requests of the wasm clients and the JavaScript glue: GraphQL texts, payments, fetching and polling; the payment page, the chain page and the log they show |
| `theories/Hashing` | `proof-systems-shim`, hash inputs of commands, accounts and protocol states (SHA-256 and Poseidon are parameters) |
| `theories/Conformance` | the inputs and expected results of the repository's unit tests, run on the model |

## Per property: what is modelled and how it is proved

| Id | Title | Model and proof |
|---|---|---|
| C01 | Integers survive the wire | `bin_write_integer`/`bin_read_integer` on byte lists; case split on the size class, little-endian round trip, lia. |
| C02 | Lengths survive the wire | `bin_write_nat0`/`bin_read_nat0`; same method. |
| C03 | Integer encodings are shortest and self-delimiting | Spec `enc_len` by magnitude; shortest among all byte strings the reader maps to the value; prefix-freeness from C01. |
| C04 | Typed values survive the wire | Universe `ty` of serde shapes with values `val` and typing relation; `ser`/`de` by recursion over `ty`; nested induction. |
| C05 | A truncated message is never misread | Lemma: the decoder is monotone in the input (success on a prefix implies same success with more bytes), with C04 this excludes success on a strict prefix. |
| C06 | Concatenated messages parse in one way | Corollary of C04, stated with `app`; list version by induction. |
| C07 | Unsigned 64-bit values survive the wire | Equivalence `round trip <-> v < 2^63`, plus `_refuted` for the expected claim. |
| C08 | Accepted bytes are canonical | `_refuted` with witness byte 0x80 and a non-shortest int16; and the exact set of accepted encodings of a value is characterised. |
| C09 | Version tags are checked | `Versioned` as a struct of u16 and payload; `_refuted` in the strong form: every version in range is accepted. |
| C10 | The strict reader rejects trailing bytes | `BufReader` of capacity `cap` over a byte source with an explicit buffer state, refined to plain list decoding; strict check inspects the buffer. Proved for inputs not longer than `cap`; `_refuted` in general. |
| C11 | Blocks and accounts survive the wire | Wire structs as terms of `ty`; instances of C04/C05. Well-formedness computed. |
| C12 | Hostile bytes never crash the typed decoder | `de` never returns `Panic` for any input when names hash without overflow; `_refuted` for the checked build and a name such as `Three`. |
| C13 | Polymorphic variants select the variant that was written | Polyvar branch of `ser`/`de`; induction over the names. `_refuted` for a non-ASCII name before the variant. |
| C14 | Variant hashes agree with OCaml | OCaml function from the comment in the source as spec on 31 bits; equality modulo 2^31 for the wrapping build; `_refuted` for the exact value. |
| C15 | Dynamically typed values survive a round trip | Layout rules `rule`, dynamic `value`; accepted strings as a relation `wire`; a value is written as read iff the bytes are canonical; `_refuted` for long forms. |
| C16 | The layout-driven decoder never panics on hostile bytes | `_refuted` for sum indices, lengths and unimplemented rules; proved: truncation is an error, no panic on `supported` layouts. |
| C17 | The rule stack of the layout decoder is balanced | Stack machine with explicit rule stack versus recursion over the layout, with enough fuel; lexical scoping of module paths, `_refuted` in general. |
| C18 | The ledger root depends only on the leaves | Tree state (leaves, cached hashes, heights), operations as a list; invariant: every cached hash is the recomputed hash or dirty ancestors are empty. Induction over operations. |
| C19 | Batching does not change the root, for any merger | `_refuted` by a concrete history for the merger of the project's own test. |
| C20 | Fixed-height root equals the padded tree's root | Poseidon-style merger from an uninterpreted 2-to-1 function and empty hashes; induction over height. |
| C21 | Issued inclusion proofs verify | `get_proof` and `root_hash` over the same tree; induction along the path. |
| C22 | Asking for a proof never crashes | `_refuted` for one leaf; proved for all other sizes. |
| C23 | Inclusion proofs bind | Collision extraction by induction over the peer list. |
| C24 | Merkle paths from the API become the right proof | `to_proof` and `root_hash`; spec is a fold; induction over the path. |
| C25 | Checking a proof never crashes | `_refuted` with a concrete malformed proof; proved for proofs whose peers are as `get_proof`/`to_proof` build them. |
| C26 | Hash domains of different heights differ | Decimal printing with zero padding; injectivity. |
| C27 | Chain selection returns an offered chain | Fold over candidates; induction. |
| C28 | Short-range selection is a maximum | Total preorder; the fold returns a maximum; permutation by antisymmetry up to key equality. |
| C29 | Two nodes agree | Symmetry of the pairwise decision; case analysis on short/long range and comparison results. |
| C30 | Fork classification is symmetric | Case analysis. |
| C31 | Relative density is bounded and crash free | Bounds on sums of 11 sub-windows. |
| C32 | A chain that is not behind keeps its own window | `_refuted` with a concrete pair; and the exact value that the code computes is proved against an independent description. |
| C33 | A failed selection changes nothing | Proved for a single candidate; `_refuted` for two. |
| C34 | Selection does not depend on the order of candidates | `_refuted` with concrete chains; proved when all pairs are short range. |
| C35 | Chains have consecutive heights | Invariant over a list of pushes. |
| C36 | Selection never crashes | `_refuted` with concrete states; proved for states within bounds. |
| C37 | The frontier only grows by valid blocks | `add_block` for both networks over abstract verification; invariant over block lists. |
| C38 | Ledger proofs belong to the best block | Invariant over block lists. |
| C39 | A bad block does not stop the processor and no block is lost or reordered | Transition system of producer, channel of capacity 1 and consumer; invariant: sent = consumed ++ in channel; result equals fold over the sent prefix. |
| C40 | Amounts print and parse back | Decimal printing and parsing on character lists; digit lemmas. |
| C41 | Parsing a decimal amount gives the number written | `_refuted`; proved for at most nine fraction digits without overflow. |
| C42 | JSON decimals round trip | `trim_end_matches` model; lemma on trailing zeros. |
| C43 | 32-bit counters survive their signed wire form | Casts modulo 2^32 and the integer codec. |
| C44 | Memos keep their text | Memo layout on byte lists. |
| C45 | Reading a memo never crashes | `_refuted` plus exact condition for success. |
| C46 | Permissions are read from their own fields | JSON object model; `_refuted` plus a proof for the other fields. |
| C47 | Account hashing separates different permissions | `_refuted` for the collision; injective for the rest. |
| C48 | A signature covers every field of a command | Hash input as field list and bit list; bit-level injectivity by fixed widths. |
| C49 | Hash input packing is injective | Packing into chunks below 255 bits; injectivity by induction. |
| C50 | Block verification means every command's signature is valid | Verification as boolean fold over an abstract signature check. |
| C51 | A verified command was authorised by its payer | `_refuted` with a concrete block and a signature check accepting it. |
| C52 | Hex texts round trip | Hex printing and parsing; `_refuted` for wrong-length text (panic). |
| C53 | Base58 texts round trip and are type separated | Base58 big-integer conversion modelled in full, checksum uninterpreted. `Base58Spec.v` says which text bytes have, without the conversion. |
| C54 | Tagged JSON enums round trip | JSON value model, list-tag transform both ways; general round trip for enums without lists in newtype variants, exact condition (two elements or more) with one. |
| C55 | Loading a genesis ledger loses no account | The database is the ordered list of its entries. The accounts loaded are compared with the records under the account prefix and what their values decode to (`acc`); root against a perfect tree; exact conditions for crashes; `_refuted` by undecodable records and database errors. |
| C56 | Timing of an account is read or rejected | `_refuted`, plus exactness for well-formed answers. |
| C57 | Slots split into epoch and slot in epoch | Division lemmas. |
| C58 | Staged ledger digests separate their parts | `_refuted`; proved for fixed part lengths. |
| C59 | Secret keys box and unbox | The reader is compared with a relation between JSON and wallets (members, base58 texts, numbers); writing inverts it exactly within the salt and pass limits; `_refuted` outside. |
| C60 | Block times convert losslessly | Range of the calendar type from the `time` crate's documentation. |
| C61 | Decoding yields a value of the requested type | Typing relation `rust_val` on results of `de`, induction over types. |
| C62 | Decoding cannot inflate its input | Measure `longest` on values, `min_size` on types; induction. `_refuted` for empty elements. |
| C63 | Bytes written are those of OCaml's bin_prot | Independent inductive relation `fmt` of the format (FormatSpec.v); shown equal to the writer, and functional. |
| C64 | The decoder accepts exactly the documented byte strings | Inductive relation `acc` of accepted byte strings; equivalence with the decoder by induction over types. |
| C65 | A verified proof fixes the position of its leaf | `_refuted` with hashes as symbolic trees (no collisions exist); for well-formed proofs a corollary of C23_sound. |
| C66 | Converting a path never crashes | `_refuted` for the empty path and 64 nodes; proved for 1 to 62 nodes. |
| C67 | A fixed-height tree made with an expected capacity holds that many leaves | `_refuted` for every capacity, hasher and merger. |
| C68 | Count and height describe the leaves | Part of the tree invariant. |
| C69 | Falling behind costs only the sub-windows missed | All eleven sub-windows are in the range cleared; arithmetic modulo 11. |
| C70 | Offering a candidate again changes nothing | Case analysis on the one selection step; no validity assumed. |
| C71 | Chain preference is transitive | `_refuted` with three valid chains of equal slot; transitivity of the preference order within one fork. |
| C72 | No received block crashes the node | `_refuted` for every frontier with a best block of another epoch; invariant for valid states; the crash is final in the transition system of C39. |
| C73 | The best chain accumulates its blocks | `_refuted`: invariant over block lists (shape of the best chain). |
| C74 | The first block received cannot lock out later ones | `_refuted` by induction over later blocks; the selection rule via C27. |
| C75 | Stored account proofs are checked against the best block | `_refuted` for every block and list of proofs. |
| C76 | No GraphQL response crashes the conversion to a block | `_refuted`; otherwise via C66. |
| C77 | Variant names and sizes survive the in-memory hand-over | The typed codec on the descriptor of `EnumData`, via C04. |
| C78 | The layout decoder does not depend on how the input arrives | Simulation between two byte sources, for the recursive decoder; then C17. |
| C79 | Decoded values are in the range the writer handles | Induction over the wire relation of accepted strings; `_refuted` for hand-built numbers. |
| C80 | Parsing a decimal field element never crashes | Exact acceptance and panic conditions; `_refuted` from the modulus on. |
| C83 | Base64 texts are exact | Groups of three bytes and four symbols; the accepted texts characterised. |
| C86 | Verifying a block never crashes | Exact panic condition by induction over the commands of the block; `_refuted` by one signer off the curve. |
| C87 | A command signed with a key verifies on its network | From the correctness of the scheme, a premise with a toy instance. |
| C88 | The payment builder keeps the last value set | Induction over the calls, with a relational spec of "last value set"; `_refuted` for the default memo. |
| C89 | Hashing an account never crashes | Exact panic condition; `_refuted` by a receipt chain hash of 255s. |
| C90 | The state hash covers the whole state | States as lists of parts (fields, words, bits, bytes); parts of the same kinds are recovered from the packed fields. `_refuted` for every state: a density moved into the VRF output. |
| C91 | Hashing a protocol state never crashes | Exact panic condition over the list of hashes inside the state; `_refuted` by one state. |
| C81 | Reading JSON never crashes | Mutual induction over the type descriptors; a crashing document is computed for every descriptor that is not calm, the others are proved calm. SHA-256 of nothing enters by its first byte. |
| C82 | Wire values round trip through JSON | Descriptors for 61 pairs of JSON and wire types give both conversions; one mutual induction gives the round trip up to the carried part, and the carried part is the value iff it is declared. |
| C84 | What is read from JSON is a valid wire value | Mutual induction over the descriptors. |
| C85 | Written JSON is valid UTF-8 | Mutual induction over the descriptors; `_refuted` by a statement with digest 0xff. |
| C92 | Objects are read independently of member order | Permutations of member lists. |
| C93 | A protocol state is read as the answer says | The reader is compared with a relation between JSON and states that mentions members, numbers and base58 texts only; both directions from one equivalence per kind of member. `_refuted` by another network's constants. The state built in for Berkeley is the one that is read from the node's answer. |
| C94 | An account is read as the answer says | Likewise for accounts, with C46 for the permissions. |
| C95 | Reading GraphQL answers never crashes | No reader of a member panics; SHA-256 of nothing is computed. |
| C96 | A sealed key comes out of its wallet | Key derivation and cipher are arbitrary functions with 32-byte keys; unlocking is compared with what the wallet states. Exact condition for a crash; `_refuted` by memory limits equal modulo 2^42 and by other nonce lengths. |
| C97 | Accounts keep their data between wire and base types | A relation between wire values and accounts, field by field; the conversion is exactly this relation, with the exact condition for a crash. |
| C98 | The root of a genesis ledger determines its accounts | Roots of perfect trees are injective unless the hash function collides (a collision is exhibited by the proof); then C47. |
| C99 | Blocks keep their data between wire and base types | Conversions are described by data (which field goes where, in both directions) and interpreted; one theorem for every description that agrees with its wire type, by induction on it. Renumbering and badness are inductive relations on wire values. |
| C100 | A converted block says what its wire value says | A relation between wire values and records by positions, independent of the names used in the code; the conversion satisfies it, and it determines the record. |
| C101 | Blocks survive being written to bytes and read back | C11 for the codec together with C99; exact condition for a crash; `_refuted` by a block whose keys consist of bytes 255. |
| C102 | A received block is accepted exactly if all signatures in it are valid | C50, C86, C90 and C91 composed with C100 and C101; the commands quantified over are found by the inductive relation `inside` on the wire value. |
| C103 | The shipped layouts describe what the typed decoders read | A decidable check `fit` of a layout against a type, up to grouping; soundness in both directions against the wire relations of C15 and C64; the check is evaluated on the shipped layouts. `_refuted` for the two variants left out. |
| C104 | Layout documents: read exactly what they say | A relation `denotes` between JSON and rules, a printer, and a relation `alike` of documents; the reader is equivalent to the relation by induction on the depth, and invariant under the other two. The shipped documents by evaluation. `_refuted` for the derived printer. |
| C105 | Indexing into decoded values follows the layout | A relation `under` on layouts says which rule a key selects; by inversion of the wire relation of C15 every decoded value has it. |
| C106 | The layout reader shows what the file says | Composition of C104 (document), C52 (hex) and C15 (wire relation). `_refuted` for the guess between hex and raw. |
| C107 | A server reads in a request what the caller asked | An independent spec of GraphQL tokens and documents; a literal prefix is lexed by computation, a string between quotes is lexed as itself iff it is plain. Documents are determined by the text (`C107_one_reading`), so nothing else is read. `_refuted` with an explicit recipient text. |
| C108 | Payments are sent with the given data and failures are reported | The functions return the requests sent and the result. Numbers through the `u64` parser of C52's kind; the sent text through C107. |
| C109 | The chain state a client shows is the one the server answers | `has` (C93) as the spec of members; assignment and nested update are characterised by `has`, so the patched answer is read by C93. The request is answered by a spec of selection (`respond`), under which the reader sees the same members. |
| C110 | Polling hands on every block that can be had | Induction over the endpoints; the fetched blocks as an inductive relation; injectivity of decimal numerals for the addresses. |
| C111 | Polls, setters and readers of a client all finish | A transition system with both channels and both locks. A work function decreases by exactly one in each step; progress from an invariant. Deadlocks by invariants on a count of messages under way that no step lowers. |
| C112 | Messages between the wasm module and its page arrive | A spec of the protobuf wire format in plain arithmetic (`varint`, `utf8`, `utf16`, fields of four wire types). The 32-bit operators of JavaScript are related to division and remainder; induction over the fields; the endless loop by induction over the fuel. |
| C113 | The node status of every peer reaches the page | UTF-8 validity is related to code points (`utf8_valid_iff`); trimming is split off at code point boundaries; the loop over the stream is a recursion over rounds and `None` means that no number of rounds is enough; with C112 for the message bytes. |
| C115 | The checker of the codec reads what it writes | The generic round trip of the codec (C04) and of the buffered reader (C05) at the eight types; decimal texts end before a non-digit. |
| C114 | The block crawler saves every block it was told of | A transition system (start a request, get a reply, save) with an invariant over the list of announced blocks; every file is accounted for by position. |
| C117 | The first block of a chain is fit for use | The block is built by a struct expression over the conversions of C99, so that typing, encoding (C101) and the view of chain selection (C27, C35) apply to it; the first block of mainnet, with the proof read from the texts of config.rs, is compared with all bytes of the fixture. |
| C116 | Derived conversions carry every member | The generated code is data with an evaluator; facts by induction over the list of members; the struct expression's order is shown to be a permutation of the declaration. |
| C118 | The transport builder keeps the last configuration | Induction over the calls; the hash, the key pair and the noise keys are parameters. |
| C119 | Node depths computed with f64 are the levels of the tree | The conversions u64 to f64, ceil and f64 to u32 are computed; the logarithm is a parameter, accurate by a bound on integers (powers of two). Levels are defined by the walk to the root. |
| C120 | The payment page sends only what the user gave | An invariant of the page under any event; calls under way are a list and may end in any order. JSON.parse and JSON.stringify are parameters. |
| C121 | The chain page and the log show what was answered and logged | Induction over the events from the end; the last answer that counts is found by splitting the events. |
| C122 | The parts of a proof become the numbers and points they encode | The number is a sum of weighted bytes, the code reads four words. Vectors by one lemma about mapping a function that returns or panics. |
| C123 | Blocks survive being written to JSON and read back | C82 and C84 (wire values and JSON) are joined with C99 (wire and base values) by an induction over the JSON types: version numbers that are all one and keys that are points make a value one that JSON carries, and conversely the keys that were read are points. `released` says in base terms what is lost. |
| C124 | A JSON document is read as it says, and written to say what was meant | `JsonViewSpec.v` says what a document says, with the names of the members and the texts of C31, C41 and C97, apart from the readers. Reading and writing are proved against it type by type (`JsonViewTypes.v`), and joined with C99 and the reading of base values by `ViewSpec.v`. |
| C125 | JSON texts are read and written as RFC 8259 says | `Grammar.v` is the grammar of RFC 8259 and `TextSpec.v` the document of a text. `Parse.v` and `JsonText.v` model serde_json (parser, printer, `Value` as a sorted map, the depth limit, repeated fields) and the derived readers on texts. The parser is proved exact for the grammar, the printer right for it, and the readers on texts equal to those on documents (`TextReadFacts.v`, `TextWriteFacts.v`); C82, C123 and C124 give the rest. Conversions between numbers and floats are parameters. |
| C126 | Wallet files are texts | `Json/Pretty.v` is the printer of serde_json for several lines, `WalletText.v` the derived reader of `SecretBoxJson` on texts and the three conversions. `WalletTextSpec.v` says what a wallet file is in terms of the grammar of RFC 8259. |
| C127 | Answers of the berkeley API | `Response.v` joins the readers of C93 (states), C80 (hashes), C24/C66 (paths) and C125 (texts). `ResponseSpec.v` says what an answer says about an account. Reading through `Value` sorts the members, so the proofs come by name; the reader is shown to give equal results on documents that differ in the order of members only. |
| C128 | Layout files are texts | `LayoutText.v` joins the parser of C125 with the reader of C104: a text is parsed up to the end of its first value, the members of the layout are read through `Value`, so their members are sorted and of one name the last counts. `LayoutTextSpec.v` says which value a text begins with. |
| C129 | Texts show the kind of hash or key by how they begin | `PrefixProps.v`: the number that the bytes denote lies between two numbers with the same first digits in base 58, whatever follows the version bytes. Uses the spec of C53 (`Base58Spec.v`). `PrefixReadProps.v` is about the texts that are read. |

## Print Assumptions

`Print Assumptions` is run at the end of every `*Props.v` file. Every property theorem below is reported as
"Closed under the global context": no axiom, neither of this project nor of the
standard library.

* `BinProt/AcceptProps.v`: `C64_accepted`, `C64_unique_reading`.
* `BinProt/CheckerProps.v`: `C115_round_trip`, `C115_names`, `C115_no_error`, `C115_public_key_refuted`, `C115_defaults`, `C115_printed`, `C115_nat0_refuted`, `C115_integer_with_refuted`, `C115_nat0_with_refuted`.
* `BinProt/CodecProps.v`: `C04_typed_round_trip`, `C04_char_refuted`, `C04_many_variants_refuted`, `C05_truncated_rejected`, `C06_prefix_unique`, `C06_stream_unique`, `C07_u64_round_trip_iff`, `C07_u64_large_rejected`, `C07_refuted`, `C09_version_ignored`, `C09_refuted`, `C10_chunking_irrelevant`, `C10_strict_small`, `C10_strict_error`, `C10_strict_general_partial`, `C10_strict_boundary`, `C10_refuted`, `C10_chunk_refuted`, `C12_no_panic`, `C12_string_refuted`, `C12_polyvar_refuted`, `C13_variant_selected`, `C13_large_hash_refuted`, `C13_large_hash_rejected`, `C13_nonascii_refuted`, `C14_tag_is_ocaml`, `C14_checked`, `C14_hash_refuted`, `C61_decode_sound`, `C62_growth`, `C62_empty_elements_refuted`.
* `BinProt/FormatProps.v`: `C63_wire_format`, `C63_format_total`.
* `BinProt/PrimProps.v`: `C01_integer_round_trip`, `C02_length_round_trip`, `C03_integer_size`, `C03_length_size`, `C03_integer_shortest`, `C03_length_shortest`, `C03_shortest_refuted`, `C03_prefix_free`, `C03_accepted_prefix_free`, `C08_accepted_integers`, `C08_accepted_lengths`, `C08_canonical_partial`, `C08_refuted`, `C08_malleable`.
* `BinProt/StrictProps.v`: `C10_strict_short`.
* `BinProt/WidthProps.v`: `C10_strict_bounded`.
* `Client/FetchProps.v`: `C109_read_iff`, `C109_taken_iff`, `C109_first_only`, `C109_retry_iff`, `C109_fetch`, `C109_request`, `C109_asked`, `C109_best_refuted`.
* `Client/PagesProps.v`: `C120_sent`, `C120_no_key`, `C120_shown`, `C120_forgotten`, `C120_retry_refuted`, `C120_order_refuted`, `C121_board`, `C121_text`, `C121_settled`, `C121_failed_refuted`, `C121_idle_refuted`, `C121_busy_refuted`, `C121_log`, `C121_init_twice`, `C121_lines`, `C121_forged_refuted`.
* `Client/PaymentProps.v`: `C108_fee_iff`, `C108_amount_iff`, `C108_integer`, `C108_valid_until_none`, `C108_valid_until_some`, `C108_sent`, `C108_not_sent`, `C108_dropped_refuted`, `C108_unchecked_refuted`, `C108_reply_refuted`, `C108_success_refuted`, `C108_lock`, `C108_unlock`, `C108_account`.
* `Client/PollProps.v`: `C110_berkeley_iff`, `C110_berkeley_failed_iff`, `C110_failing_endpoint_refuted`, `C110_order_refuted`, `C110_berkeley_request_refuted`, `C110_v1_iff`, `C110_v1_silent_refuted`, `C110_v1_query_iff`, `C110_address`.
* `Client/QueryProps.v`: `C107_payment_iff`, `C107_one_reading`, `C107_payment_refuted`, `C107_lock_iff`, `C107_account_iff`, `C107_unlock_iff`, `C107_password_refuted`, `C107_chain_iff`, `C107_latest`.
* `Consensus/BerkeleyProps.v`: `C93_berkeley`, `C93_berkeley_valid`.
* `Consensus/ConsensusProps.v`: `C27_member`, `C27_decision`, `C36_valid`, `C28_maximum`, `C34_short_range`, `C29_agreement`, `C30_symmetric`, `C30_meaning`, `C31_bounded`, `C31_never_above`, `C32_value`, `C32_not_behind`, `C69_ten_slots`, `C33_prefix`, `C33_single`, `C33_empty_candidate`, `C70_reoffer`, `C35_append_only`, `C35_consecutive`, `C35_push`, `C35_first`, `C35_length`, `C35_count`, `C57_epoch_slot`, `C57_refuted`, `C29_refuted`, `C30_refuted`, `C32_refuted`, `C33_refuted`, `C34_refuted`, `C71_refuted`, `C71_one_fork`, `C35_refuted`, `C35_count_refuted`, `C36_refuted`, `C36_epoch_refuted`, `C36_density_refuted`.
* `Consensus/GenesisProofProps.v`: `C117_mainnet_reads`, `C117_mainnet_block`.
* `Consensus/GenesisProps.v`: `C117_panics_iff`, `C117_state`, `C117_contents`, `C117_wire`, `C117_verifies`, `C117_valid_iff`, `C117_length`, `C117_slot`, `C117_agree`, `C117_same_lock`, `C117_other_lock`, `C117_mainnet_typed`, `C117_mainnet_encodable`, `C117_mainnet_valid`, `C117_network_refuted`, `C117_devnet_refuted`, `C117_wraps_refuted`.
* `Convert/AutoFromProps.v`: `C116_output`, `C116_kind`, `C116_struct_compiles`, `C116_struct`, `C116_struct_panics`, `C116_struct_back`, `C116_tuple_compiles`, `C116_tuple`, `C116_tuple_panics`, `C116_enum_compiles`, `C116_empty_variant_refuted`, `C116_no_members_refuted`, `C116_enum`, `C116_enum_back`, `C116_struct_down`, `C116_struct_up`, `C116_pre_diff`, `C116_versioned`, `C116_versioned_back`.
* `Convert/BlockProps.v`: `C99_crashes_iff`, `C99_converts_iff`, `C99_kept`, `C99_exact_iff`, `C99_back`, `C99_same_iff`, `C99_crash_refuted`, `C99_loss_refuted`, `C100_state`, `C100_command`, `C100_block`, `C100_commands`, `C101_round_trip`, `C101_sound`, `C101_crashes_iff`, `C101_again`, `C101_same_bytes`, `C101_refuted`, `C102_accepted_iff`, `C102_verify_crash`, `C102_same_hash`, `C102_hash_crashes_iff`, `C102_hash_refuted`.
* `Convert/CurveProps.v`: `C122_field`, `C122_back`, `C122_injective`, `C122_onto`, `C122_vector`, `C122_point`, `C122_points`, `C122_pairs`, `C122_infinite`, `C122_infinites`, `C122_never_panics_refuted`, `C122_same_field_refuted`, `C122_on_curve_refuted`, `C122_zero_refuted`.
* `Convert/JsonBlockProps.v`: `C123_round_trip`, `C123_exact_iff`, `C123_injective`, `C123_parity`, `C123_block_kept`, `C123_read_sound`, `C123_crashes_iff`, `C123_version_refuted`, `C123_signature_refuted`, `C123_sent_refuted`.
* `Convert/JsonViewProps.v`: `C124_once`, `C124_state`, `C124_state_written`, `C124_command_read`, `C124_command`, `C124_command_written`, `C124_block_read`, `C124_block_written`, `C124_fee_refuted`.
* `Frontier/FrontierProps.v`: `C37_rejected_mainnet`, `C37_rejected_berkeley`, `C37_only_valid`, `C37_consecutive_mainnet`, `C37_consecutive_berkeley`, `C73_mainnet_refuted`, `C73_berkeley_refuted`, `C38_by_hash`, `C38_best_block`, `C74_refuted`, `C74_follows`, `C75_refuted`, `C75_replay`, `C72_refuted`, `C72_valid`, `C76_refuted`, `C76_no_panic`, `C76_contents`, `C39_fifo`, `C39_readers`, `C39_complete`, `C39_terminates`, `C72_crash_is_final`, `C39_errors_go_on`, `C39_bad_message`.
* `Frontier/ResponseProps.v`: `C127_read_iff`, `C127_kept`, `C127_text_iff`, `C127_text_kept_iff`, `C127_deep`, `C127_not_json`, `C127_no_crash`, `C127_text_no_crash`, `C127_crash_refuted`.
* `Frontier/TasksProps.v`: `C111_steps`, `C111_progress`, `C111_all_done`, `C111_not_running_refuted`, `C111_setters_refuted`, `C111_requests_refuted`, `C111_poll_refuted`, `C111_naive`.
* `GraphQL/GraphQLProps.v`: `C46_read_iff`, `C46_own_iff`, `C46_increment_nonce_ignored`, `C46_fixture_says`, `C46_refuted`, `C56_timed_iff`, `C56_untimed_iff`, `C56_total`, `C56_refuted`, `C56_truncation_refuted`, `C93_read_iff`, `C93_answered`, `C93_same_iff`, `C93_answer_unique`, `C93_fixture_read`, `C93_refuted`, `C94_read_iff`, `C94_answered`, `C94_same_iff`, `C94_fixture_read`, `C94_unread_refuted`, `C95_state_no_crash`, `C95_account_no_crash`.
* `Hashing/AccountProps.v`: `C47_iff`, `C47_refuted`, `C47_timing_refuted`, `C89_panics_iff`, `C89_refuted`, `C47_legacy_refuted`, `C47_legacy_iff`.
* `Hashing/CommandProps.v`: `C48_input_injective`, `C48_message_injective`, `C48_networks`, `C48_memo_length_refuted`, `C50_valid_iff`, `C50_rejects_iff`, `C86_panics_iff`, `C86_refuted`, `C50_only_commands`, `C51_refuted`, `C51_block_refuted`, `C87_signed_verifies`, `C88_build`, `C88_last_unique`, `C88_default_memo_refuted`.
* `Hashing/ROInputProps.v`: `C49_total`, `C49_groups`, `C49_injective`, `C49_range`, `C49_shape_refuted`, `C49_width_refuted`, `C49_wide_panics`, `C49_legacy_injective`, `C49_legacy_refuted`.
* `Hashing/StateProps.v`: `C90_legacy_iff`, `C90_iff`, `C90_state_legacy`, `C90_state`, `C91_legacy_panics_iff`, `C91_panics_iff`, `C58_refuted`, `C58_fixed_lengths`, `C90_legacy_refuted`, `C90_refuted`, `C90_vrf_refuted`, `C91_refuted`, `C91_legacy_refuted`.
* `Json/JsonProps.v`: `C82_round_trip`, `C82_identity_iff`, `C82_injective`, `C82_protocol_version_refuted`, `C82_key_crash`, `C54_round_trip`, `C54_project`, `C54_list_iff`, `C84_read_sound`, `C84_stable`, `C81_tag_crash`, `C81_crashes_iff`, `C85_valid_iff`, `C92_order`, `C92_unknown`, `C92_required`, `C54_ambiguous_refuted`, `C82_version_refuted`, `C82_key_refuted`, `C81_refuted`, `C85_refuted`, `C85_char_refuted`.
* `Json/JsonTextProps.v`: `C125_parse`, `C125_one_reading`, `C125_read_iff`, `C125_not_json`, `C125_read_sound`, `C125_round_trip`, `C125_written`, `C125_injective`, `C125_from_string`, `C125_into_string`, `C125_string_round_trip`, `C125_repeated`, `C125_deep`, `C125_block_round_trip`, `C125_state`, `C125_state_written`, `C125_command`, `C125_repeated_refuted`, `C125_deep_refuted`.
* `Layout/DocumentProps.v`: `C104_verification_key`, `C104_protocol_state`, `C104_external_transition`, `C104_snark_work`.
* `Layout/FitProps.v`: `C103_fit_read`, `C103_fit_read_back`, `C103_exempt`, `C103_block`, `C103_state`, `C103_snark_work`, `C103_block_back`, `C103_state_back`, `C103_snark_work_back`, `C103_failed_misread`, `C103_failed_layout`, `C103_failed_refuted`, `C103_two`, `C103_two_none`, `C103_two_second`, `C103_two_none_refuted`, `C103_narrow_refuted`, `C103_token_commands`, `C103_shipped`.
* `Layout/LayoutProps.v`: `C104_read_iff`, `C104_printed`, `C104_writable`, `C104_some_document`, `C104_stable`, `C104_derived_refuted`, `C104_alike`, `C104_document`, `C104_repeated`, `C104_other`, `C104_order`.
* `Layout/LayoutTextProps.v`: `C128_text`, `C128_text_iff`, `C128_begins`, `C128_other`, `C128_printed`, `C128_every_rule`, `C128_tool`, `C128_tool_rule`, `C128_tool_none`, `C128_behind_refuted`.
* `Layout/ReaderProps.v`: `C106_shows`, `C106_roundtrip`, `C106_flag`, `C106_behind_refuted`, `C106_hex`, `C106_line_end_refuted`, `C106_prefix_refuted`, `C106_digits_refuted`.
* `Ledger/AccountWireProps.v`: `C97_read_iff`, `C97_crashes_iff`, `C97_written`, `C97_wire_round_trip`, `C97_unique`, `C97_legacy_read_iff`, `C97_legacy_crashes_iff`, `C97_legacy_written`, `C97_refuted`.
* `Ledger/LedgerProps.v`: `C55_items`, `C55_leaves`, `C55_crashes_iff`, `C55_complete`, `C55_refuted`, `C55_fault_refuted`, `C55_depth_refuted`, `C55_legacy_leaves`, `C55_legacy_crashes_iff`, `C55_root`, `C55_root_crashes_iff`, `C98_root_binds`, `C55_legacy_root`, `C98_legacy_refuted`, `C98_legacy_root_binds`, `C55_own_refuted`.
* `Loose/IndexProps.v`: `C105_path`, `C105_name`, `C105_sum_name_refuted`, `C105_sum_number`, `C105_no_number`, `C105_list`, `C105_inner`.
* `Loose/LooseProps.v`: `C15_exact`, `C15_encoded`, `C15_normal`, `C15_refuted`, `C15_provisos_needed`, `C16_truncated`, `C16_no_panic`, `C16_no_panic_fixed`, `C16_sum_refuted`, `C16_length_refuted`, `C16_rules_refuted`, `C17_stack`, `C17_fuel`, `C17_end`, `C17_scoped`, `C17_scope_refuted`, `C17_custom_types`, `C77_hand_over`, `C78_chunking_irrelevant`, `C79_plain`, `C79_nat0_refuted`.
* `Merkle/FloatProps.v`: `C119_depth`, `C119_last`, `C119_proof`, `C119_small`, `C119_panic_refuted`, `C119_rejected_refuted`, `C119_rounding_refuted`, `C119_tree_height`, `C119_exact_library`, `C119_division`, `C119_library_refuted`.
* `Merkle/MerkleProps.v`: `C18_root_of_leaves`, `C18_overfull_panics`, `C18_add_total`, `C19_batching`, `C19_refuted`, `C20_fixed_height`, `C20_variable_height`, `C21_issued_proofs_verify`, `C21_depth_refuted`, `C22_returns`, `C22_empty`, `C22_refuted`, `C23_binding`, `C23_sound`, `C65_well_formed`, `C65_root_index_rejected`, `C65_peers_adjacent`, `C65_refuted`, `C24_path`, `C24_malformed`, `C66_nonempty`, `C66_refuted`, `C66_long_refuted`, `C25_no_panic`, `C25_refuted`, `C25_shallow_refuted`, `C26_account_prefixes`, `C26_coinbase_prefixes`, `C26_prefixes_disjoint`, `C26_node_domains`, `C67_refuted`, `C67_variable`, `C68_count_height`.
* `Network/TransportProps.v`: `C118_builder`, `C118_connect`, `C118_mainnet`, `C118_default_refuted`.
* `Proto/NodeStatusProps.v`: `C113_line_iff`, `C113_line_none`, `C113_open`, `C113_failed`, `C113_broken`, `C113_closed`, `C113_returns_iff`, `C113_end_refuted`, `C113_arrive`, `C113_rows`, `C113_count`, `C113_peers_refuted`, `C113_cells_refuted`, `C113_connect_iff`, `C113_connect_says`, `C113_connect_panics_iff`, `C113_success_refuted`, `C113_connected_refuted`, `C113_address`.
* `Proto/PbProps.v`: `C112_decode`, `C112_status`, `C112_request`, `C112_response`, `C112_own`, `C112_any_bytes`, `C112_hang_refuted`, `C112_text_refuted`.
* `Secrets/SecretBoxProps.v`: `C59_read_iff`, `C59_read_no_crash`, `C59_box_round_trip`, `C59_written_iff`, `C59_document_iff`, `C59_passes_refuted`, `C59_salt_refuted`, `C96_sealed_key`, `C96_memory_refuted`, `C96_crashes_iff`, `C96_nonce_refuted`, `C96_keypair`.
* `Secrets/WalletTextProps.v`: `C126_read_iff`, `C126_read_no_crash`, `C126_json_error_iff`, `C126_repeated`, `C126_document`, `C126_pretty`, `C126_round_trip`, `C126_written`.
* `Text/Base58Props.v`: `C53_round_trip`, `C53_versioned_round_trip`, `C53_separated`, `C53_versioned_separated`, `C53_kinds_distinct`, `C53_canonical`, `C53_panics_iff`, `C53_memo_round_trip`, `C53_vrf_round_trip`, `C53_vrf_length_unchecked`, `C53_text_denotes`.
* `Text/Base58SpecProps.v`: `C53_written_iff`, `C53_read_iff`, `C53_read_exists`, `C53_hash_text_iff`, `C53_hash_read_iff`, `C53_address_iff`, `C53_memo_iff`, `C53_vrf_written_iff`, `C53_vrf_read_iff`.
* `Text/Base64Props.v`: `C83_accepts_iff`, `C83_round_trip`, `C83_text`.
* `Text/Base64SpecProps.v`: `C83_written_iff`, `C83_read_iff`.
* `Text/ChecksumProps.v`: `C53_address_round_trip`, `C53_address_canonical`, `C53_sha_round_trip`, `C53_sha_canonical`, `C53_sha_no_crash`.
* `Text/FieldTextProps.v`: `C80_accepts_iff`, `C80_panics_iff`, `C80_refuted`, `C80_round_trip`.
* `Text/HexProps.v`: `C52_accepts_iff`, `C52_round_trip`, `C52_panics_iff`, `C52_malformed_refuted`, `C52_text_denotes`, `C52_vec_round_trip`, `C52_vec_sound`, `C52_body_iff`, `C52_body_no_panic`.
* `Text/MemoProps.v`: `C44_round_trip`, `C44_too_long`, `C44_injective`, `C44_bytes`, `C45_panics_iff`, `C45_otherwise_text`, `C45_full_length`, `C45_refuted`, `C45_lossy_refuted`.
* `Text/NumbersProps.v`: `C40_text_denotes`, `C40_round_trip`, `C40_injective`, `C41_numerals_exact`, `C41_out_of_range`, `C41_overflow_refuted`, `C41_long_fraction_wrong`, `C41_long_fraction_refuted`, `C41_plus_refuted`, `C41_accepts_iff`, `C42_text_denotes`, `C42_round_trip`, `C42_displayed`, `C42_overflow_refuted`, `C43_round_trip`, `C43_onto`, `C43_json`, `C43_json64`, `C43_json_exact`, `C60_exact`, `C60_large`, `C60_refuted`, `C60_seconds`, `C60_millis`.
* `Text/PrefixProps.v`: `C129_address`, `C129_hash`, `C129_signature`, `C129_memo`, `C129_read_refuted`.
* `Text/PrefixReadProps.v`: `C129_read`, `C129_long_refuted`.
* `Tools/CrawlerProps.v`: `C114_names`, `C114_file_iff`, `C114_query`, `C114_reply`, `C114_strip`, `C114_ends`, `C114_progress`, `C114_result`, `C114_done_iff`, `C114_crashed_iff`, `C114_truthful`, `C114_again`, `C114_good`, `C114_crash_refuted`, `C114_lost_refuted`, `C114_silent_refuted`, `C114_slash_refuted`.
* `Wire/WireProps.v`: `C11_round_trip`, `C11_survives_iff`, `C11_injective`, `C11_truncated_rejected`, `C11_strict_round_trip`, `C11_no_panic`, `C11_growth`, `C11_refuted`.
