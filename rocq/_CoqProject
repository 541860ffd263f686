-Q theories Verif
theories/Lib/Res.v
theories/Lib/Bytes.v
theories/Lib/Vec.v
theories/Lib/Decimal.v
theories/BinProt/Prim.v
theories/BinProt/PrimProofs.v
theories/BinProt/PrimSpec.v
theories/BinProt/PrimSpecProofs.v
theories/BinProt/Codec.v
theories/BinProt/CodecSpec.v
theories/BinProt/CodecProofs.v
theories/BinProt/BufRead.v
theories/BinProt/BufReadProofs.v
theories/BinProt/CodecFacts.v
theories/BinProt/PrimProps.v
theories/BinProt/CodecProps.v
theories/BinProt/FormatSpec.v
theories/BinProt/FormatProps.v
theories/BinProt/AcceptProps.v
theories/Wire/Types.v
theories/Wire/Fixture.v
theories/Wire/WireProps.v
theories/Merkle/Tree.v
theories/Merkle/MerkleSpec.v
theories/Merkle/TreeProofs.v
theories/Merkle/ProofProofs.v
theories/Merkle/PathProofs.v
theories/Merkle/Poseidon.v
theories/Merkle/MerkleProps.v
theories/Lib/Hex.v
theories/Lib/Text.v
theories/Lib/Radix.v
theories/Consensus/Chain.v
theories/Consensus/ConsensusSpec.v
theories/Consensus/ChainProofs.v
theories/Consensus/ConsensusProps.v
theories/Frontier/Frontier.v
theories/Frontier/Processor.v
theories/Frontier/FrontierProps.v
theories/Loose/Loose.v
theories/Loose/LooseSpec.v
theories/Loose/LooseProofs.v
theories/Loose/LooseWire.v
theories/Loose/LooseFacts.v
theories/Loose/LooseProps.v
theories/Text/Numbers.v
theories/Text/NumbersSpec.v
theories/Text/NumbersProps.v
theories/Text/Memo.v
theories/Text/MemoProps.v
theories/Text/Base58.v
theories/Text/Base58Props.v
theories/Lib/Sha256.v
theories/Text/Checksum.v
theories/Text/ChecksumProps.v
theories/Text/Hex.v
theories/Text/HexSpec.v
theories/Text/HexProps.v
theories/Text/FieldText.v
theories/Text/FieldTextProps.v
theories/Text/Base64.v
theories/Text/Base64Props.v
theories/Hashing/ROInput.v
theories/Hashing/ROInputProps.v
theories/Hashing/Command.v
theories/Hashing/CommandProps.v
theories/Hashing/Items.v
theories/Hashing/Account.v
theories/Hashing/AccountProps.v
theories/Hashing/State.v
theories/Hashing/StateParts.v
theories/Hashing/StateProps.v
theories/Json/Json.v
theories/Json/JsonTypes.v
theories/Json/JsonSpec.v
theories/Json/JsonFacts.v
theories/Json/JsonReadFacts.v
theories/Json/JsonTextFacts.v
theories/Json/JsonCrashFacts.v
theories/Json/JsonProps.v
theories/BinProt/StrictProps.v
theories/GraphQL/GraphQL.v
theories/GraphQL/GraphQLSpec.v
theories/GraphQL/GraphQLFacts.v
theories/GraphQL/GraphQLProps.v
theories/Secrets/SecretBox.v
theories/Secrets/SecretBoxSpec.v
theories/Secrets/SecretBoxProps.v
theories/BinProt/WidthProps.v
theories/Ledger/AccountWire.v
theories/Ledger/AccountWireSpec.v
theories/Ledger/AccountWireFacts.v
theories/Ledger/AccountWireProps.v
theories/Ledger/Ledger.v
theories/Ledger/LedgerSpec.v
theories/Ledger/LedgerFacts.v
theories/Ledger/LedgerProps.v
theories/Convert/Conv.v
theories/Convert/BlockConv.v
theories/Convert/ConvSpec.v
theories/Convert/ConvFacts.v
theories/Convert/View.v
theories/Convert/ViewSpec.v
theories/Convert/ViewFacts.v
theories/Convert/Block.v
theories/Convert/BlockFacts.v
theories/Convert/BlockProps.v
theories/Layout/Shipped.v
theories/Layout/FitSpec.v
theories/Layout/FitFacts.v
theories/Layout/FitProps.v
theories/Layout/LayoutJson.v
theories/Layout/LayoutSpec.v
theories/Layout/LayoutFacts.v
theories/Layout/LayoutProps.v
theories/Layout/DocumentProps.v
theories/Loose/Index.v
theories/Loose/IndexSpec.v
theories/Loose/IndexProps.v
theories/Layout/Reader.v
theories/Layout/ReaderProps.v
theories/Client/GqlSpec.v
theories/Client/GqlFacts.v
theories/Client/ReadingFacts.v
theories/Client/Query.v
theories/Client/Payment.v
theories/Client/QueryProps.v
theories/Client/PaymentProps.v
theories/Client/Fetch.v
theories/Client/FetchProps.v
theories/Client/PollProps.v
theories/Frontier/Tasks.v
theories/Frontier/TasksProps.v
theories/Proto/Pb.v
theories/Proto/PbSpec.v
theories/Proto/PbFacts.v
theories/Proto/TextFacts.v
theories/Proto/LongFacts.v
theories/Proto/PbProps.v
theories/Proto/Utf8Facts.v
theories/Proto/NodeStatus.v
theories/Proto/NodeStatusProps.v
theories/BinProt/Checker.v
theories/BinProt/CheckerProps.v
theories/Tools/Crawler.v
theories/Tools/CrawlerProps.v
theories/Consensus/Genesis.v
theories/Consensus/GenesisProps.v
theories/Convert/AutoFrom.v
theories/Convert/AutoFromFacts.v
theories/Convert/AutoFromProps.v
theories/Network/Transport.v
theories/Network/TransportProps.v
theories/Conformance/BinProtTests.v
theories/Conformance/MerkleTests.v
theories/Conformance/ConsensusTests.v
theories/Conformance/TextTests.v
theories/Conformance/LayoutTests.v
theories/Merkle/Float.v
theories/Merkle/FloatProps.v
theories/Client/Pages.v
theories/Client/PagesProps.v
theories/Consensus/GenesisProof.v
theories/Consensus/GenesisProofProps.v
theories/Consensus/Berkeley.v
theories/Consensus/BerkeleyProps.v
theories/Convert/Curve.v
theories/Convert/CurveProps.v
theories/Conformance/StateTests.v
theories/Conformance/GenesisTests.v
theories/Convert/JsonBlock.v
theories/Convert/JsonBlockSpec.v
theories/Convert/JsonBlockFacts.v
theories/Convert/JsonBlockProps.v
theories/Conformance/JsonTests.v
theories/Convert/JsonViewSpec.v
theories/Convert/JsonViewFacts.v
theories/Convert/JsonViewLeaf.v
theories/Convert/JsonViewTypes.v
theories/Convert/JsonViewProps.v
theories/Json/Grammar.v
theories/Json/Parse.v
theories/Json/ParseFacts.v
theories/Json/JsonText.v
theories/Json/TextSpec.v
theories/Json/PrintFacts.v
theories/Json/TextFacts.v
theories/Json/TextReadFacts.v
theories/Json/TextWriteFacts.v
theories/Json/SaysFacts.v
theories/Json/BlockText.v
theories/Json/JsonTextProps.v
theories/Json/Pretty.v
theories/Json/PrettyFacts.v
theories/Secrets/WalletText.v
theories/Secrets/WalletTextSpec.v
theories/Secrets/WalletTextProps.v
theories/Frontier/Response.v
theories/Frontier/ResponseSpec.v
theories/Frontier/ResponseProps.v
theories/Layout/LayoutText.v
theories/Layout/LayoutTextSpec.v
theories/Layout/LayoutTextProps.v
theories/Text/Base64Spec.v
theories/Text/Base64SpecProps.v
theories/Text/Base58Spec.v
theories/Text/Base58SpecProps.v
theories/Text/PrefixProps.v
theories/Text/PrefixReadProps.v
