{"id": "C01", "title": "Sia binary encoding loses no information", "statement": "Encoding an integer with the Sia encoder gives exactly 8 little-endian bytes and every integer outside 0..2^64-1 is rejected; encoding a byte slice gives its 8-byte length followed by the bytes; consequently the encoding of any sequence of such values of known shape can be decoded back to exactly those values, whatever bytes follow.", "quantifier": "every integer, every byte string, every sequence of encoded values and every trailing byte string", "why_tests_cant": "The input space (2^64 integers, byte strings of any length, any trailing data) cannot be enumerated; injectivity is a statement about pairs of inputs.", "anchors": ["tfchain/encoders/sia.py: SiaBinaryEncoder.add_int, add_slice, add_array, add_byte, add, add_all"]}
{"id": "C02", "title": "Rivine slice length prefix is a minimal prefix code", "statement": "Every slice length below 2^29 is encoded with a 1, 2, 3 or 4 byte prefix, the shortest that fits, from which a reader recovers the exact length and the position of the first content byte, whatever follows; lengths of 2^29 or more are rejected and never truncated.", "quantifier": "every length and every trailing byte string", "why_tests_cant": "Boundary errors between the four forms appear only at particular lengths up to 2^29, beyond what tests build as slices.", "anchors": ["tfchain/encoders/rivine.py: RivineBinaryEncoder._add_slice_length, add_slice"]}
{"id": "C03", "title": "Rivine fixed-width integers never wrap", "statement": "Adding an integer as an 8/16/24/32/64 bit value writes exactly 1/2/3/4/8 little-endian bytes holding that value, and an integer that does not fit is refused with IntegerOutOfRange with nothing written.", "quantifier": "every integer and each of the five widths", "why_tests_cant": "All integers, negative and arbitrarily large, for each width.", "anchors": ["tfchain/encoders/rivine.py: add_int8, add_int16, add_int24, add_int32, add_int64, _check_int_type"]}
{"id": "C04", "title": "A string slice declares the number of bytes it contains", "statement": "The length prefix written for a text value equals the number of content bytes that follow it, in both encoders, so that a reader consumes exactly the text.", "quantifier": "every text value (sequence of Unicode code points)", "why_tests_cant": "The existing tests only use ASCII text; the claim is about all code points.", "anchors": ["tfchain/encoders/sia.py: add_slice", "tfchain/encoders/rivine.py: add_slice"]}
{"id": "C05", "title": "Merkle root is the canonical tree hash", "statement": "After pushing any non-empty list of leaves one by one, root() is the hash of the tree which splits the leaves at the largest power of two smaller than their number, with leaves hashed as H(0||data) and nodes as H(1||left||right).", "quantifier": "every non-empty list of leaves of any length and every hash function", "why_tests_cant": "The incremental stack of subtrees has to agree with the recursive definition for every number of leaves.", "anchors": ["tfchain/crypto/merkletree.py: Tree.push, Tree.root, join_subtree, leaf_sum, node_sum"]}
{"id": "C06", "title": "Multi-signature address does not depend on owner order", "statement": "Two multi-signature conditions which list the same owners in a different order and require the same number of signatures have the same wallet address.", "quantifier": "every list of owner addresses, every permutation of it, every minimum signature count and every hash function", "why_tests_cant": "The number of permutations and of owner sets is unbounded.", "anchors": ["tfchain/types/ConditionTypes.py: ConditionMultiSignature.unlockhash, unlockhashes"]}
{"id": "C07", "title": "Currency arithmetic is exact", "statement": "Adding, subtracting and multiplying amounts of currency gives exactly the mathematical result; no unit is silently created, lost or rounded.", "quantifier": "every pair of valid currency amounts", "why_tests_cant": "Rounding errors only appear for particular magnitudes; the space of amounts is unbounded.", "anchors": ["tfchain/types/PrimitiveTypes.py: Currency.__add__, __sub__, __mul__, __iadd__, value"]}
{"id": "C08", "title": "Currency text forms round-trip", "statement": "Converting an amount to its JSON string (smallest units) or to its display string (with or without TFT suffix) and parsing it back gives the same amount.", "quantifier": "every valid currency amount", "why_tests_cant": "Formatting strips zeros and pads decimals; every digit pattern has to survive.", "anchors": ["tfchain/types/PrimitiveTypes.py: Currency.from_str, from_json, json, str, __int__"]}
{"id": "C09", "title": "A currency amount is never negative and never finer than one unit", "statement": "A Currency object can only come to hold a non-negative amount that is a whole number of 10^-9 units; any attempt to give it another amount fails with the documented currency errors and leaves the amount unchanged.", "quantifier": "every history of constructions, assignments and in-place arithmetic", "why_tests_cant": "It is an invariant over every sequence of operations.", "anchors": ["tfchain/types/PrimitiveTypes.py: Currency.value, Currency.__init__, __isub__, __iadd__", "tfchain/errors.py: CurrencyPrecisionOverflow, CurrencyNegativeValue"]}
{"id": "C10", "title": "Subtracting a currency from a number means what it says", "statement": "Evaluating n - c for a plain number n and a currency c yields the amount n minus c (or the negative-value error).", "quantifier": "every number and every currency amount", "why_tests_cant": "A sign mistake is only visible when the two operands are distinguished for all pairs.", "anchors": ["tfchain/types/PrimitiveTypes.py: Currency.__rsub__"]}
{"id": "C11", "title": "Currency binary encoding is canonical and injective", "statement": "Equal amounts have equal binary encodings and different amounts different ones, in both encodings, and the encoded number is the minimal big-endian representation of the amount in smallest units.", "quantifier": "every pair of valid currency amounts", "why_tests_cant": "Minimal-length big-endian encodings fail at byte boundaries only.", "anchors": ["tfchain/types/PrimitiveTypes.py: Currency.sia_binary_encode, Currency.rivine_binary_encode"]}
{"id": "C12", "title": "Address strings round-trip", "statement": "Printing a wallet or contract address and parsing the string returns the same address (type and hash), for every address of a type the library defines.", "quantifier": "every 32-byte hash and every address type", "why_tests_cant": "2^256 hashes, and the type byte is printed and parsed in different bases.", "anchors": ["tfchain/types/ConditionTypes.py: UnlockHash.__str__, UnlockHash.from_json, UnlockHashType"]}
{"id": "C13", "title": "Mistyped addresses are rejected", "statement": "Parsing an address succeeds only for 78-character strings whose last 12 characters are the checksum of the type and hash before them, so an address whose checksum does not match is always refused.", "quantifier": "every input string", "why_tests_cant": "It is a claim about every string that is not a valid address.", "anchors": ["tfchain/types/ConditionTypes.py: UnlockHash.from_json"]}
{"id": "C14", "title": "Public key strings round-trip and determine the address", "statement": "Printing and parsing a public key returns the same key, strings of any other shape are rejected, and the wallet address of a key depends only on its algorithm and bytes with distinct hash inputs for distinct keys.", "quantifier": "every public key and every string", "why_tests_cant": "All key values and all malformed strings.", "anchors": ["tfchain/types/CryptoTypes.py: PublicKey.from_json, json, unlockhash, PublicKeySpecifier"]}
{"id": "C15", "title": "Time locks open exactly when their height or time is reached, and stay open", "statement": "A lock value below 500,000,000 is a block height, otherwise a timestamp; the output is locked exactly while the chain height (respectively time) is below the value, and once unlocked it stays unlocked as the chain advances.", "quantifier": "every lock value and every non-decreasing history of chain height and time", "why_tests_cant": "Universally quantified over the whole chain future and all lock values.", "anchors": ["tfchain/types/ConditionTypes.py: OutputLock, ConditionLockTime.lock", "tfchain/types/IO.py: CoinOutput"]}
{"id": "C16", "title": "Condition JSON round-trips", "statement": "Serialising any spending condition to JSON and parsing that JSON gives an equal condition of the same type.", "quantifier": "every condition tree the constructors accept", "why_tests_cant": "Conditions nest and carry lists of arbitrary length.", "anchors": ["tfchain/types/ConditionTypes.py: from_json, ConditionBaseClass.json, from_json_data_object, json_data_object"]}
{"id": "C17", "title": "Condition binary encoding is unambiguous", "statement": "Two different spending conditions never have the same binary encoding, in either encoding, whatever data follows.", "quantifier": "every pair of well-formed conditions and every trailing bytes", "why_tests_cant": "Injectivity over unbounded nested structures.", "anchors": ["tfchain/types/ConditionTypes.py: sia_binary_encode, rivine_binary_encode, sia_binary_encode_data, rivine_binary_encode_data"]}
{"id": "C18", "title": "Recipients resolve to the intended condition", "statement": "The recipient argument of sending calls (nothing, an address, a list of addresses, an address list with a signature count, a condition) is turned into the condition that pays exactly that recipient, optionally wrapped in the given lock, and everything else is rejected.", "quantifier": "every recipient value of the accepted shapes and every lock", "why_tests_cant": "Combinatorial recipients of unbounded length.", "anchors": ["tfchain/types/ConditionTypes.py: from_recipient"]}
{"id": "C19", "title": "A signature request can be fulfilled once and only by its owner", "statement": "A signature request accepts a signature at most once, only from the key whose address it was issued for, and a refused or failed attempt neither stores a signature nor uses up the request.", "quantifier": "every sequence of fulfilment attempts with arbitrary keys", "why_tests_cant": "A safety property over every sequence of attempts.", "anchors": ["tfchain/types/FulfillmentTypes.py: SignatureRequest.fulfill, SignatureCallbackBase"]}
{"id": "C20", "title": "Multi-signature inputs count distinct signers", "statement": "A multi-signature input is reported as fulfilled exactly when it holds at least the required number of signatures, and its signatures come from pairwise different keys that own the wallet.", "quantifier": "every sequence of signing attempts by arbitrary keys, owners and counts", "why_tests_cant": "All interleavings of signers and repeated attempts.", "anchors": ["tfchain/types/FulfillmentTypes.py: FulfillmentMultiSignature.add_pair, is_fulfilled, signature_requests_new"]}
{"id": "C21", "title": "Fulfilment JSON round-trips, including unsigned ones", "statement": "Serialising a fulfilment to JSON and parsing it gives an equal fulfilment, in particular an input that is not yet signed is still reported as unsigned.", "quantifier": "every fulfilment in every signing state", "why_tests_cant": "All fulfilment values at every stage of signing.", "anchors": ["tfchain/types/FulfillmentTypes.py: from_json, FulfillmentBaseClass.json, FulfillmentSingleSignature, FulfillmentMultiSignature, FulfillmentAtomicSwap"]}
{"id": "C22", "title": "A standard transaction signature commits to the whole payment", "statement": "The data hashed for signing an input of a standard transaction determines the input index, all inputs, all outputs with their amounts and conditions, the miner fees and the arbitrary data: two transactions with the same signature data pay the same.", "quantifier": "every pair of standard transactions and every input index", "why_tests_cant": "Injectivity over unbounded structures.", "anchors": ["tfchain/types/transactions/Standard.py: TransactionV1._signature_hash_input_get", "tfchain/types/transactions/Base.py: signature_hash_get"]}
{"id": "C23", "title": "Signing does not disturb other signatures", "statement": "The data hashed for signing does not depend on any fulfilment, so adding signatures in any order never invalidates another signature.", "quantifier": "every transaction of every version and every order of signing", "why_tests_cant": "All orders of signing over any number of inputs.", "anchors": ["tfchain/types/transactions/Standard.py, Minting.py, ThreeBot.py, ERC20.py: _signature_hash_input_get"]}
{"id": "C24", "title": "Minting transaction signatures commit to their content", "statement": "The data hashed for signing a coin creation or minter definition determines the nonce, the outputs or the new minting condition, the fees and the arbitrary data, and differs between the two kinds.", "quantifier": "every pair of minting transactions", "why_tests_cant": "Injectivity over unbounded structures.", "anchors": ["tfchain/types/transactions/Minting.py: TransactionV128, TransactionV129"]}
{"id": "C25", "title": "ERC20 transaction signatures commit to their content", "statement": "The data hashed for signing an ERC20 convert, coin creation or address registration determines the target or source addresses, the amounts, the Ethereum ids, the inputs and refund output and the fees, and differs between the kinds.", "quantifier": "every pair of ERC20 bridge transactions", "why_tests_cant": "Injectivity over unbounded structures.", "anchors": ["tfchain/types/transactions/ERC20.py: TransactionV208, TransactionV209, TransactionV210"]}
{"id": "C26", "title": "3Bot transaction signatures commit to their content", "statement": "The data hashed for signing a 3Bot registration, update or name transfer determines the names, addresses, months, bot ids, key, inputs, fees and refund output, and differs between the kinds and the signers.", "quantifier": "every pair of 3Bot transactions", "why_tests_cant": "Injectivity over unbounded structures.", "anchors": ["tfchain/types/transactions/ThreeBot.py: TransactionV144, TransactionV145, TransactionV146"]}
{"id": "C27", "title": "Output identifiers are distinct", "statement": "Within and across transactions, output ids of different kind, different transaction or different index are computed from different hash inputs, and asking for the id of an output that does not exist is refused.", "quantifier": "every pair of transactions, output kinds and indices", "why_tests_cant": "All pairs of transactions and indices.", "anchors": ["tfchain/types/transactions/Base.py: coin_outputid_new, blockstake_outputid_new, _outputid_new"]}
{"id": "C28", "title": "Transaction JSON round-trips keep the transaction identity", "statement": "Parsing the JSON of a transaction gives a transaction with the same binary encoding, hence the same id, same signature data and same signing state.", "quantifier": "every transaction of every version in every signing state", "why_tests_cant": "Unbounded structured values.", "anchors": ["tfchain/types/transactions/Transactions.py: from_json", "tfchain/types/transactions/Base.py: json", "tfchain/types/transactions/*.py: _from_json_data_object, _json_data_object"]}
{"id": "C29", "title": "A transaction can be handed to an explorer", "statement": "The JSON representation of every transaction consists only of JSON values, so it can be serialised and posted.", "quantifier": "every transaction", "why_tests_cant": "The test-suite's explorer stub bypasses serialisation.", "anchors": ["tfchain/types/transactions/Base.py: json", "tfchain/TFChainClient.py: transaction_put", "tfchain/internal/jsutils.py: json_dumps"]}
{"id": "C30", "title": "Wallet balance classifies outputs by their whole history", "statement": "After any sequence of output observations (created or spent, in a confirmed or unconfirmed transaction, in any order) an output counts as spent exactly when a confirmed spend of it was seen, as spent but unconfirmed exactly when only an unconfirmed spend was seen, as confirmed balance exactly when no spend but a confirmed creation was seen, and as unconfirmed balance exactly when no spend was seen and its last creation seen was unconfirmed; once a spend was seen it never counts as available again.", "quantifier": "every finite sequence of observations over any outputs in any order", "why_tests_cant": "All interleavings of an unbounded history.", "anchors": ["tfchain/TFChainWallet.py: WalletBalance.output_add"]}
{"id": "C31", "title": "Available and locked partition the confirmed balance", "statement": "The reported available and locked amounts are disjoint, together are the sum of all confirmed unspent outputs, and an output counts as available exactly when its lock is open at the current chain height and time; as long as height or time are not known every output counts as available.", "quantifier": "every balance state and chain context", "why_tests_cant": "Any number of outputs with any locks.", "anchors": ["tfchain/TFChainWallet.py: WalletBalance.available, locked, unconfirmed, unconfirmed_locked"]}
{"id": "C32", "title": "No coin output is counted twice", "statement": "At any time an output contributes to at most one of the confirmed and unconfirmed parts of a wallet balance.", "quantifier": "every finite sequence of observations", "why_tests_cant": "Invariant over all histories.", "anchors": ["tfchain/TFChainWallet.py: WalletBalance.output_add, available, unconfirmed"]}
{"id": "C33", "title": "Merging balances adds them up", "statement": "Adding one balance to another gives the outputs of both, each counted once, independent of the order in which balances are added; a spent output in either is not available in the merge.", "quantifier": "every pair of balances", "why_tests_cant": "All pairs of states.", "anchors": ["tfchain/TFChainWallet.py: WalletBalance.balance_add, MultiSigWalletBalance.balance_add, WalletsBalance"]}
{"id": "C34", "title": "Funding selects only spendable outputs, once each, and pays exactly", "statement": "When funding succeeds, the chosen inputs spend spendable outputs of the wallet (or of the given source), none more often than the balance lists it and hence pairwise different if the balance lists no output twice, at most 99, and their sum is exactly the amount plus the reported remainder.", "quantifier": "every balance, amount and source selection", "why_tests_cant": "Any number of outputs with any amounts.", "anchors": ["tfchain/TFChainWallet.py: WalletsBalance.fund, _fund_individual, _fund_multisig"]}
{"id": "C35", "title": "Funding succeeds whenever the funds allow", "statement": "Funding from personal addresses fails with insufficient funds only if no selection of at most 99 spendable outputs covers the amount.", "quantifier": "every balance and amount", "why_tests_cant": "Completeness over all subsets of outputs.", "anchors": ["tfchain/TFChainWallet.py: WalletsBalance.fund, _fund_individual, _fund_multisig"]}
{"id": "C36", "title": "Wallet operations conserve value", "statement": "In every transaction the wallet builds (sending, atomic swap contracts, swap claims, 3Bot and ERC20 operations) the inputs equal outputs plus fees plus protocol fees, with the remainder refunded to the chosen refund recipient.", "quantifier": "every balance, recipient list, amount and fee", "why_tests_cant": "Any number of inputs and outputs.", "anchors": ["tfchain/TFChainWallet.py: coins_send, _create_contract, _claim_contract, record_new, record_update, name_transfer, coins_send (ERC20), CoinTransactionBuilder"]}
{"id": "C37", "title": "Draining moves everything", "statement": "Draining a wallet, when it succeeds, produces transactions of at most 99 inputs that together spend every selected output exactly once, each paying its inputs minus the fee to the recipient; it succeeds if every selected output is worth the fee.", "quantifier": "every balance and recipient", "why_tests_cant": "Any number of outputs and chunks.", "anchors": ["tfchain/TFChainWallet.py: WalletBalance.drain"]}
{"id": "C38", "title": "Wallet recovery finds all used addresses", "statement": "When a wallet is scanned, every key address up to the last used one is part of the loaded wallet, as long as gaps of unused keys are within the scan window.", "quantifier": "every pattern of used and unused key indices and every scan window", "why_tests_cant": "All usage patterns.", "anchors": ["tfchain/TFChainWallet.py: TFChainWallet._key_scan, addresses"]}
{"id": "C39", "title": "Atomic swap verification accepts only matching contracts", "statement": "Verifying a contract by its output id succeeds exactly when the output exists, is unspent, is an atomic swap and matches each given expectation (amount, hashed secret, refund time, sender or receiver ownership), and otherwise raises; a contract object handed in by the caller is checked against the expectations without a look at the chain.", "quantifier": "every contract and every combination of expectations", "why_tests_cant": "All combinations of optional expectations.", "anchors": ["tfchain/TFChainWallet.py: TFChainAtomicSwap.verify"]}
{"id": "C40", "title": "Atomic swap redeem and refund respect the contract", "statement": "A contract is redeemed only with the right secret by the receiver and refunded only by the sender after the refund time; the produced input is signed accordingly and pays amount minus fee.", "quantifier": "every contract, wallet key set, secret and chain time", "why_tests_cant": "All wallets and times.", "anchors": ["tfchain/TFChainWallet.py: TFChainAtomicSwap.redeem, refund, _claim_contract", "tfchain/types/FulfillmentTypes.py: FulfillmentAtomicSwap", "tfchain/types/AtomicSwap.py"]}
{"id": "C41", "title": "3Bot fees follow the price list", "statement": "The additional fee of a 3Bot transaction is registration, monthly and name fees according to the published discounts: 10 TFT a month, 30% off from 12 months and 50% off from 24, 50 TFT a name (the first is free when registering), 20 TFT for changing addresses; it never falls when names or addresses are added, nor when months are added within one discount.", "quantifier": "every number of months, names and addresses", "why_tests_cant": "All combinations.", "anchors": ["tfchain/types/transactions/ThreeBot.py: compute_monthly_bot_fees, required_bot_fees"]}
{"id": "C42", "title": "3Bot records stay within protocol limits and encode unambiguously", "statement": "Names, addresses and months accepted by a 3Bot transaction stay within 5 names, 10 addresses, 24 months, and the packed length and flag bytes can be decoded to exactly those counts.", "quantifier": "every sequence of additions and every count", "why_tests_cant": "All sequences of operations.", "anchors": ["tfchain/types/transactions/ThreeBot.py: BotMonthsAndFlagsData, TransactionV144.addresses, names"]}
{"id": "C43", "title": "Network address encoding is decodable", "statement": "Every accepted network address (hostname, IPv4, IPv6) is encoded to a type-and-length byte and its bytes, from which the address is recovered; different addresses encode differently.", "quantifier": "every accepted address", "why_tests_cant": "All hostnames and IPs.", "anchors": ["tfchain/types/ThreeBot.py: NetworkAddress, BotName"]}
{"id": "C44", "title": "ERC20 address validity agrees with acceptance", "statement": "The ERC20 address validity check returns true exactly for the strings the ERC20Address constructor accepts.", "quantifier": "every string", "why_tests_cant": "All strings.", "anchors": ["tfchain/types/ERC20.py: ERC20Address.is_valid_value, __init__, from_unlockhash"]}
{"id": "C45", "title": "Explorer requests use a working explorer whatever the order", "statement": "A get or post to the explorer set returns the answer of some contacted explorer, contacts each at most once, stops at the first that answers, and reports unavailability only if all of them failed to answer, for every random order.", "quantifier": "every list of explorers, every order and every outcome of each request", "why_tests_cant": "All shuffles and all failure combinations.", "anchors": ["tfchain/TFChainExplorerClient.py: TFChainExplorerClient.get, post"]}
{"id": "C46", "title": "Explorer transactions get their ids and parents attached in order", "statement": "When a transaction is read from an explorer each output gets the id at its position and each input the parent output at its position, and any length mismatch is rejected.", "quantifier": "every explorer answer", "why_tests_cant": "All lists.", "anchors": ["tfchain/TFChainClient.py: _transaction_from_explorer_transaction"]}
{"id": "C47", "title": "Output lookup returns the creation and the spend", "statement": "Looking up an output returns the transaction creating it and, if spent, the one spending it, the output being the one with the requested id, for every order of the explorer's answer.", "quantifier": "every explorer answer with one or two transactions", "why_tests_cant": "All answers and orders.", "anchors": ["tfchain/TFChainClient.py: _output_get, coin_output_get, blockstake_output_get"]}
{"id": "C48", "title": "Address history is newest first", "statement": "The transactions of an address are returned as a permutation of the explorer's answer ordered with unconfirmed first and then descending height.", "quantifier": "every explorer answer (block heights below 2^63 - 1, as those of the chain are)", "why_tests_cant": "All lists and orders.", "anchors": ["tfchain/TFChainClient.py: unlockhash_get"]}
{"id": "C49", "title": "Address balance reflects the address history", "statement": "The balance computed from an address history contains exactly the outputs paid to that address and not spent in that history.", "quantifier": "every history", "why_tests_cant": "All histories.", "anchors": ["tfchain/TFChainClient.py: ExplorerUnlockhashResult.balance"]}
{"id": "C50", "title": "Duration strings round-trip", "statement": "Formatting a number of seconds as a duration and parsing it again gives the same number of seconds.", "quantifier": "every non-negative number of seconds that a Python timedelta can hold (below 10^9 days)", "why_tests_cant": "Unbounded integers.", "anchors": ["tfchain/internal/jsutils.py: Duration"]}
{"id": "C51", "title": "A transaction builder sends at most once", "statement": "A coin transaction builder produces at most one transaction containing exactly the outputs added in order; after sending it refuses further outputs.", "quantifier": "every sequence of builder calls", "why_tests_cant": "All call sequences.", "anchors": ["tfchain/TFChainWallet.py: CoinTransactionBuilder"]}
{"id": "C52", "title": "Transaction version dispatch", "statement": "JSON of each supported transaction version is parsed to the transaction type of that version, and any other version is rejected.", "quantifier": "every version number and JSON object", "why_tests_cant": "All integers and JSON values.", "anchors": ["tfchain/types/transactions/Transactions.py: from_json, new"]}
{"id": "C53", "title": "A wallet signs exactly what it owns", "statement": "Signing a transaction signs every outstanding input owned by a wallet key, leaves inputs of other owners untouched, and submits the transaction only if all inputs are fulfilled and submission was asked for.", "quantifier": "every transaction and key set", "why_tests_cant": "All key sets and inputs.", "anchors": ["tfchain/TFChainWallet.py: transaction_sign, _transaction_sign"]}
{"id": "C54", "title": "Arbitrary data limit", "statement": "A transaction never carries more than 83 bytes of arbitrary data.", "quantifier": "every assignment and every parsed transaction", "why_tests_cant": "All inputs and parse paths.", "anchors": ["tfchain/types/transactions/Base.py: data", "tfchain/types/transactions/*.py"]}
{"id": "C55", "title": "Binary data sizes are enforced", "statement": "A value of a fixed-size binary type (hash, address hash, key, signature) has exactly the declared size, so that its encoding has that size.", "quantifier": "every accepted value", "why_tests_cant": "All byte strings.", "anchors": ["tfchain/types/PrimitiveTypes.py: BinaryData, Hash"]}
{"id": "C56", "title": "3Bot names follow the name grammar", "statement": "A 3Bot name is accepted exactly when it has at most 63 characters and consists of dot-separated parts of at least five letters, digits and dashes, each starting with a letter and ending with a letter or digit; accepted names are encoded so that they can be read back.", "quantifier": "every string", "why_tests_cant": "All strings.", "anchors": ["tfchain/types/ThreeBot.py: BotName"]}
{"id": "C57", "title": "Minting operations create exactly what was asked", "statement": "Minting coins or setting the mint definition builds a transaction with exactly the asked output or condition, the minimum fee and the given data, under the mint condition in force, and submits it only when that condition is completely signed; only definitions that are an address or a multi-signature are accepted.", "quantifier": "every recipient, amount, condition, data and wallet", "why_tests_cant": "All inputs and key sets.", "anchors": ["tfchain/TFChainWallet.py: TFChainMinter.definition_set, coins_new", "tfchain/types/transactions/Minting.py"]}
{"id": "C58", "title": "Transaction equality", "statement": "Two transaction objects compare equal, and hash alike, exactly when they are the same transaction.", "quantifier": "every pair of transaction objects, built, parsed or fetched", "why_tests_cant": "All pairs of transactions.", "anchors": ["tfchain/types/transactions/Base.py: __eq__, __hash__, id", "tfchain/types/transactions/Transactions.py: from_json"]}
{"id": "C59", "title": "Every wallet key is its own", "statement": "The key with an index is derived from the seed and the index alone, and two different seed and index pairs are never derived from the same data.", "quantifier": "every seed and index", "why_tests_cant": "All seeds and indices.", "anchors": ["tfchain/TFChainWallet.py: TFChainWallet._key_pair_new"]}
{"id": "C60", "title": "A new address is new", "statement": "Asking a wallet for a new address always gives an address the wallet did not have, which it has from then on; addresses are never lost, are all different, and the primary address stays the first one.", "quantifier": "every wallet and every sequence of scans and new addresses, whatever the explorer answers", "why_tests_cant": "All operation histories and explorer answers.", "anchors": ["tfchain/TFChainWallet.py: TFChainWallet.address_new, public_key_new, addresses, _key_pair_add"]}
{"id": "C61", "title": "Lock texts mean what they say", "statement": "A lock given as text is the moment the text names: '+' and a duration is that duration from now, a date with or without a time of day in one of the documented forms is that local time, and the text a lock is shown as means the same lock.", "quantifier": "every duration text, date and time of day", "why_tests_cant": "All dates, times and texts.", "anchors": ["tfchain/types/ConditionTypes.py: OutputLock", "tfchain/internal/jsutils.py: DateTime, Duration, Time_"]}
{"id": "C62", "title": "A wallet's balance is that of its addresses", "statement": "The balance of a wallet reports, with the context of the last block, exactly the outputs the explorer's histories of its addresses report as available, unconfirmed or spent, each once, and one balance with the right owners and number of signatures for each multi-signature wallet it co-owns; unused addresses don't matter, and it is available whenever the histories are.", "quantifier": "every set of addresses, chain and history of answers", "why_tests_cant": "All chains, histories and ownership patterns.", "anchors": ["tfchain/TFChainWallet.py: TFChainWallet.balance, _key_pair_add, WalletsBalance", "tfchain/TFChainClient.py: ExplorerUnlockhashResult.balance"]}
{"id": "C63", "title": "A wallet's transactions are those of its addresses", "statement": "The transactions of a wallet are the transactions of all its addresses, each once, newest first; addresses that were not used yet contribute nothing.", "quantifier": "every set of addresses, history of answers and set iteration order", "why_tests_cant": "All histories and iteration orders.", "anchors": ["tfchain/TFChainWallet.py: TFChainWallet.transactions"]}
{"id": "C64", "title": "A block lookup returns the block asked for", "statement": "Looking up a block by id or height returns the block with that id or height: its transactions, and its miner payouts each with the id at its position, exactly as the explorer reports them; an answer about another block, or with mismatching payouts, is refused.", "quantifier": "every id, height and explorer answer", "why_tests_cant": "All answers.", "anchors": ["tfchain/TFChainClient.py: TFChainClient.block_get, ExplorerBlock, ExplorerMinerPayout"]}
{"id": "C65", "title": "The blockchain info is that of the last block", "statement": "The blockchain info is about the very block the explorer names as its last; an answer that names none is refused as an invalid explorer response. Printed, it says the identifier, height and time of that block.", "quantifier": "every pair of explorer answers", "why_tests_cant": "All answers.", "anchors": ["tfchain/TFChainClient.py: TFChainClient.blockchain_info_get, ExplorerBlockchainInfo"]}
{"id": "C66", "title": "Bad explorer answers are explorer errors", "statement": "Whatever an explorer answers, a lookup that cannot use the answer fails with an explorer error (ExplorerInvalidResponse when the thing asked for is missing), and errors of the explorers themselves are passed on; no other exception leaks out.", "quantifier": "every lookup and explorer answer", "why_tests_cant": "All answers, including malformed ones.", "anchors": ["tfchain/TFChainClient.py: TFChainClient.block_get, transaction_get, unlockhash_get, _output_get, TFChainMinterClient.condition_get, TFChainThreeBotClient.record_get, TFChainERC20Client.address_get"]}
{"id": "C67", "title": "A 3Bot record lookup finds the 3Bot asked for", "statement": "A 3Bot is looked up by id, key or name at the one place for that kind of identifier; what the explorer tells about it is returned; an unknown one raises ThreeBotNotFound; a text that is neither a name nor a key raises ValueError without a request; the record returned is that of the identifier.", "quantifier": "every identifier and explorer answer", "why_tests_cant": "All identifiers and answers.", "anchors": ["tfchain/TFChainClient.py: TFChainThreeBotClient.record_get", "tfchain/types/ThreeBot.py: BotName", "tfchain/types/CryptoTypes.py: PublicKey.from_json"]}
{"id": "C68", "title": "A mint condition lookup returns the condition told", "statement": "The mint condition is asked for at the given height (an int or a text of one), or the latest if none is given, anything else being refused without a request, and the condition returned is exactly the one the explorer tells.", "quantifier": "every height argument and every condition the network knows", "why_tests_cant": "All conditions and heights.", "anchors": ["tfchain/TFChainClient.py: TFChainMinterClient.condition_get", "tfchain/types/ConditionTypes.py: from_json"]}
{"id": "C69", "title": "An ERC20 address lookup returns the registration of the address", "statement": "Only addresses of single keys can be looked up, given as object or text alike; a registered one gives its ERC20 address and confirmations as told, the same as the lookup of the address itself; an unregistered one raises ExplorerNoContent; the registration is that of the address asked for.", "quantifier": "every address and explorer answer", "why_tests_cant": "All addresses and answers.", "anchors": ["tfchain/TFChainClient.py: TFChainERC20Client.address_get, TFChainClient.unlockhash_get"]}
{"id": "C70", "title": "A transaction lookup returns the transaction asked for", "statement": "Looking up a transaction by id, given as bytes, text or Hash, returns the transaction with that id as told by the explorer, an answer about another transaction is refused, and submitting a transaction returns the id the explorer answers.", "quantifier": "every id and explorer answer", "why_tests_cant": "All ids and answers.", "anchors": ["tfchain/TFChainClient.py: TFChainClient.transaction_get, transaction_put, _normalize_id"]}
{"id": "C71", "title": "A condition read from JSON is the one the JSON says", "statement": "A JSON value is accepted as a condition exactly when it says one: the type it names, every part under its key, swap parties that are nil or single key addresses, a swap lock that is a moment and not a height, a time lock around a nil, address or multi-signature condition only; and the condition returned is that one, whenever it is read.", "quantifier": "every JSON value and time", "why_tests_cant": "All JSON values.", "anchors": ["tfchain/types/ConditionTypes.py: from_json, ConditionBaseClass.from_json, from_json_data_object"]}
{"id": "C72", "title": "A fulfilment read from JSON is the one the JSON says", "statement": "A JSON value is accepted as a fulfilment exactly when it says one: the type it names, keys, signatures and secrets under their keys, the pairs of a multi-signature in their order, a secret exactly when one is given; and the fulfilment returned is that one.", "quantifier": "every JSON value", "why_tests_cant": "All JSON values.", "anchors": ["tfchain/types/FulfillmentTypes.py: from_json, FulfillmentBaseClass.from_json, from_json_data_object"]}
{"id": "C73", "title": "A wallet's ERC20 lookups are of its own addresses", "statement": "The ERC20 lookups and registrations of a wallet work on its own addresses only: given as text, as object, by index or left out (the primary one) the lookup is that of the address and the key registered is that of the address; any other address is refused with AddressNotInWallet without a request; all lookups together list exactly the registered addresses in order.", "quantifier": "every wallet, way of giving the address, and explorer answer", "why_tests_cant": "All wallets and answers.", "anchors": ["tfchain/TFChainWallet.py: ERC20.address_get, addresses_get, address_register"]}
{"id": "C74", "title": "Wallet operations submit at most one, complete transaction and return that one", "statement": "An operation of a wallet (sending, swap contracts, redeeming, refunding, 3Bot and ERC20 transactions, minting, signing) makes at most one transaction reach an explorer, and only one with every signature it needs. If it returns an id, the explorers gave that id to exactly the transaction it returns (up to the ids noted in its outputs, which are those the outputs have on the chain); if it returns none it submitted nothing. If it raises after the explorers took the transaction, the caller can know: an operation that raises has submitted nothing.", "quantifier": "Every wallet, operation with its arguments, answer of the explorers, and result of the look-ups made after the submission.", "why_tests_cant": "Failures between the submission and the return depend on the moment the network fails and on the kind of addresses paid; tests use one happy path.", "anchors": ["tfchain/TFChainWallet.py: coins_send, transaction_sign, _transaction_put, AtomicSwap._create_contract, _claim_contract, Minter, ThreeBot, ERC20, WalletsBalance.output_add"]}
{"id": "C75", "title": "coins_send sends what its arguments say", "statement": "Sending coins pays exactly the amount given, in the unit documented, to the recipient given: the ERC20 address if the recipient names one (as text with or without 0x, bytes or object), and then with neither lock nor data; otherwise the owner or owners named, under the lock asked for and with the data attached. It is paid from the source addresses given, with the remainder to the refund recipient given. It does not matter in which form an address is given, and no recipient names two different payees.", "quantifier": "Every recipient, amount, source, refund, lock and data argument, and every wallet.", "why_tests_cant": "All argument values and forms in combination.", "anchors": ["tfchain/TFChainWallet.py: coins_send, ERC20.coins_send, WalletBalance._fund_individual, tfchain/types/ConditionTypes.py: from_recipient"]}
{"id": "C76", "title": "What a wallet spends is free according to the chain", "statement": "Every input of a transaction that a paying operation submits spends an output which, as the explorers tell the history of the wallet's addresses and of the multi-signature addresses it co-owns, was paid to such an address, has not been spent by a confirmed or pending transaction, and is locked by no lock closed at the chain's height and time; no output is spent twice by one transaction; and two operations in a row never spend the same output.", "quantifier": "Every wallet, paying operation, explorer answer and chain height and time.", "why_tests_cant": "All histories, with confirmed and pending transactions in any order, and all sequences of operations.", "anchors": ["tfchain/TFChainWallet.py: balance, coins_send, WalletBalance.fund, WalletsBalance, ExplorerUnlockhashResult.balance, CoinTransactionBuilder.send"]}
{"id": "C77", "title": "A payment the wallet can afford goes through", "statement": "Sending coins, paying many at once, starting an atomic swap, withdrawing to and registering an ERC20 address, and creating, updating and transferring 3Bots, paid from the wallet's own addresses, succeed exactly when at most 99 of its spendable outputs together are worth the amount (or the price of the operation) plus the fee; the transaction is then complete and submitted. Otherwise the operation fails with InsufficientFunds, and with no other exception. For a wallet loaded from the explorers this is decided by the outputs the chain shows as free.", "quantifier": "Every wallet, amount, recipient and argument the operation accepts, and every history the explorers tell.", "why_tests_cant": "All selections of outputs and all histories; that no step of building, encoding and signing fails cannot be tested for all values.", "anchors": ["tfchain/TFChainWallet.py: coins_send, AtomicSwap._create_contract, ThreeBot, ERC20, WalletBalance.fund, transaction_sign, CoinTransactionBuilder.send"]}
{"id": "C78", "title": "An atomic swap between two wallets", "statement": "The contract a wallet makes is the one asked for (amount, receiver, hash of the secret, refund time; the sender is where the change goes). As long as the explorers show its output as unspent: a wallet with the key of the receiver verifies it against those values and can redeem it with the secret, by a transaction which pays the amount minus the fee to the receiver and shows the secret to everyone, and with no other secret; the wallet that made it gets it back from the refund time on and not before; any other wallet is refused both. Once the output is spent all are told so.", "quantifier": "Every pair of wallets, amount, secret, refund time, fee and data.", "why_tests_cant": "Three parties, two outcomes, and all values; the steps happen in different processes.", "anchors": ["tfchain/TFChainWallet.py: AtomicSwap.initiate, participate, verify, redeem, refund"]}
{"id": "C79", "title": "Co-owners of multi-signature wallets sign in any order", "statement": "When wallets sign one after the other a coin transaction that spends outputs of multi-signature wallets, each taking up what the one before made of it (with or without what was looked up about the inputs), nobody is refused, nothing but the signatures changes, and afterwards each input carries exactly one valid signature for each owner a key of whom is in one of those wallets, over the transaction, the position of the input and the key. The order of the wallets changes neither whose signatures there are nor whether the transaction is complete; it is complete exactly when every input has the number of owners it asks for. A wallet asked to submit does so exactly if its signatures complete the transaction, or others' have and some owner's signature was still missing.", "quantifier": "Every such transaction, every sequence of wallets, every distribution of the owners' keys over them.", "why_tests_cant": "All orders and distributions of keys, in different processes; each wallet sees only its own keys and outputs.", "anchors": ["tfchain/TFChainWallet.py: transaction_sign, tfchain/types/FulfillmentTypes.py: FulfillmentMultiSignature, SignatureRequest, tfchain/types/transactions/Base.py: signature_requests_new, is_fulfilled"]}
{"id": "C80", "title": "A transaction read from JSON is the one the JSON says", "statement": "Reading a transaction from JSON succeeds exactly when the value says a transaction: a dictionary with a known version whose data, field by field, tell inputs, outputs, fees, amounts, keys, signatures, names, addresses and numbers in their documented forms, with the documented default where a field is missing or empty; the old format (version 0) tells a key and a signature for each input. The transaction read is that one, no value says two, the time of reading does not matter, and fields nobody asks for change nothing.", "quantifier": "Every JSON value.", "why_tests_cant": "All JSON values, of any shape and depth, including values of the wrong kind at every place.", "anchors": ["tfchain/types/transactions/Transactions.py: from_json, tfchain/types/transactions/Standard.py, Minting.py, ERC20.py, ThreeBot.py: _from_json_data_object, legacy_from_json, tfchain/types/IO.py: from_json"]}
{"id": "C81", "title": "The encoders write the published form of every value", "statement": "For a boolean, integer, text, byte string, list (of such, at any depth) or object with an encoding of its own, and for every method of the Sia and the Rivine encoder (add, add_all, add_array, add_slice, add_int and add_int8 to add_int64, add_byte), the call succeeds exactly when the value is of a kind the method takes and fits, and then appends exactly its published form: fixed-width little-endian numbers, UTF-8 text, and before texts, bytes and lists the number of items in the length format of the encoder. What was written before stays. Otherwise the documented error is raised.", "quantifier": "Every Python value of these kinds, and every content of the encoder.", "why_tests_cant": "All values, nested to any depth, and all lengths.", "anchors": ["tfchain/encoders/sia.py, tfchain/encoders/rivine.py: add, add_all, add_array, add_slice, add_int, add_int8, add_int16, add_int24, add_int32, add_int64, add_byte"]}
{"id": "C82", "title": "An amount written as text is the amount it says", "statement": "Currency(text), and every place that takes an amount as text, accepts a text exactly when, between blanks, it writes a number that is not negative and has at most nine decimals (an optional plus, digits with an optional point, an optional exponent, underscores anywhere, and TFT behind it in upper or lower case if any), and the amount is then that number of TFT exactly. A number with a fraction used in arithmetic is the number Python prints for it. The text of an amount in JSON is read as a number of smallest units, whole after rounding to 28 digits. Whole numbers (heights, times, counts, block stakes) are texts of an optional sign and digits with single underscores between them.", "quantifier": "Every text of ASCII characters.", "why_tests_cant": "All texts, of any length.", "anchors": ["tfchain/types/PrimitiveTypes.py: Currency.value, Currency.from_json, Currency._op_other_as_currency, Blockstake.value"]}
{"id": "C83", "title": "The texts of hashes, signatures, keys, addresses and data are exactly the documented ones", "statement": "An identifier, signature, secret, public key, address or piece of binary data given as text is accepted exactly when the text writes one: hexadecimal digits in pairs (of either case, blanks before or between the pairs) of no bytes or of the right number of bytes; for a key the name of its kind and one colon before them; for an address of 78 characters two with the type, 64 with the hash and 12 with the first six bytes (in lower case) of the hash of both, where the type is not that of nobody; for data also base64, or 0x before the digits. What is read is what the text writes, and no text writes two.", "quantifier": "Every text and every JSON value.", "why_tests_cant": "All texts of any length and characters.", "anchors": ["tfchain/types/PrimitiveTypes.py: BinaryData.from_json, Hash.from_json, tfchain/types/CryptoTypes.py: PublicKey.from_json, tfchain/types/ConditionTypes.py: UnlockHash.from_json, AtomicSwapSecret.from_json, tfchain/types/FulfillmentTypes.py: ED25519Signature.from_json"]}
{"id": "C84", "title": "The bytes of a transaction are those of its layout", "statement": "The bytes written for a public key, an address, a condition, a fulfilment, a transaction of any version (also the old format), the bytes whose hash is signed (for any extra objects) or is the identifier of a transaction, and those whose hash is the identifier of an output (of a number below that of the coin outputs), are the fields of the documented layout one after the other, each in its documented form: versions, names filled with zeros, amounts with the highest byte first after their length, lists after their number of items, flags, months, keys, hashes. Where a field has no such form the call raises an error, otherwise it succeeds. The address of a key and of a condition is the hash, or the Merkle root, of the documented bytes; the owners of a shared wallet come in the order of their printed addresses, so it does not depend on the order in which they are given. An address is printed as type, hash and checksum in lower case.", "quantifier": "Every transaction of any version and size, every condition, fulfilment, key and address, every list of extra objects, every hash function.", "why_tests_cant": "All transactions with any number of inputs, outputs, owners, names and addresses; all lengths and numbers at the limits of their fields.", "anchors": ["tfchain/types/transactions/Base.py: binary_encode, signature_hash_get, id, coin_outputid_new, blockstake_outputid_new, tfchain/types/transactions/Standard.py, Minting.py, ERC20.py, ThreeBot.py: _signature_hash_input_get, _id_input_compute, _binary_encode_data, tfchain/types/ConditionTypes.py: unlockhash, sia_binary_encode, rivine_binary_encode, tfchain/types/FulfillmentTypes.py: sia_binary_encode, rivine_binary_encode, tfchain/types/CryptoTypes.py: unlockhash"]}
{"id": "C85", "title": "Building a transaction by hand", "statement": "Starting from a new transaction of any version, a caller may assign its properties (inputs, outputs, fees, amounts, addresses, keys, signatures, names, months, identifiers, data, mint conditions) and call its methods that add inputs, outputs, miner fees, names and addresses, in any order and going on after errors. An assignment or call succeeds exactly when the part exists on that version and the value given is one it takes, and then exactly that part changes: to the value given, or to what it was with that value added at the end. When it is refused nothing changes. What can be reached are exactly the transactions of that version within the limits (identifiers of 32 bytes, signatures of 64, at most 83 bytes of data, five names, ten addresses, 24 months and so on). Assigning a transaction the inputs it has changes nothing about it.", "quantifier": "Every version, every sequence of assignments and calls with every value, refused or not.", "why_tests_cant": "All histories of any length, with values of every kind, including the wrong ones.", "anchors": ["tfchain/types/transactions/Standard.py, Minting.py, ERC20.py, ThreeBot.py: the property setters, coin_input_add, coin_output_add, blockstake_input_add, blockstake_output_add, miner_fee_add, refund_coin_output_set, network_address_add, name_add, tfchain/types/IO.py: CoinInput, CoinOutput, BlockstakeInput, BlockstakeOutput, tfchain/types/transactions/Transactions.py: new"]}
{"id": "C86", "title": "A client works on the network it was asked for", "statement": "A client made for a network by name (in letters of any case) or by type works on that network, pays its least fee and contacts only its public explorers, or only the given explorers; without network and explorers it is the standard network; with explorers only, it is the network the explorers tell. What the explorers raise is raised. A name of no network, and a type of another value, is refused.", "quantifier": "Every text, type and list of explorers, every answer of the explorers, every behaviour of the network.", "why_tests_cant": "All names and all answers, including the wrong ones.", "anchors": ["tfchain/TFChainClient.py: NetworkType, TFChainClient.__init__, network_type, minimum_miner_fee, ExplorerBlockchainInfo, tfchain/TFChainExplorerClient.py: TFChainExplorerClient"]}
{"id": "C87", "title": "An atomic swap contract says what its output says", "statement": "A contract is made exactly of an output that pays to a swap condition, with a state, and gives the same output back. Two contracts compare equal exactly if they are the same in state, identifier, amount, both addresses, hash and refund time; comparing with anything else is an error. A secret is accepted exactly if its hash is that of the contract. The text of a contract shows the identifier, whether and when it can be refunded at the time of the contract, the amount, sender, receiver and hash, in a fixed form; from the text and the time everything can be told, except the exact moment of a refund already open and that of a spent contract.", "quantifier": "Every output, contract, time, secret, hash function and time zone.", "why_tests_cant": "All amounts, addresses, identifiers and times.", "anchors": ["tfchain/types/AtomicSwap.py: AtomicSwapContract.__init__, __eq__, __ne__, verify_secret, coin_output, __repr__, tfchain/internal/jsutils.py: Time_.epoch2HRDateTime, Duration.toString"]}
{"id": "C88", "title": "What a balance prints is what it holds", "statement": "The text of the balance of a wallet shows the height and time of the balance if known, and the worth of the outputs that can be spent and of those locked at that height and time, of the unconfirmed ones likewise, and the worth of what unconfirmed transactions spend (left out if nothing); then for each multi-signature wallet with unspent outputs the number of signatures and of owners, the address its outputs pay to, the owners and its amounts at that height and time. Two wallets with the same text have the same amounts and the same multi-signature wallets in use.", "quantifier": "Every balance, every sequence of outputs added and balances merged.", "why_tests_cant": "All sets of outputs, of any size, locks, heights and times.", "anchors": ["tfchain/TFChainWallet.py: WalletBalance.__repr__, _human_readable_balance, MultiSigWalletBalance._human_readable_balance, address, owners, WalletsBalance.__repr__, WalletBalance.active"]}
{"id": "C89", "title": "The JSON document of a transaction is the documented one", "statement": "The document of a condition, a fulfilment, an input, an output and a transaction of any version has exactly the fields of its kind, in their order, each with the value it has in the object: amounts as texts of their units, identifiers, signatures, secrets and hashes as lower-case hexadecimal texts (identifiers, and keys after the name of their kind, as 64 zeros if empty), addresses with their checksum, Ethereum data with 0x, other data and nonces in base64, numbers of blocks, months, signatures and bots as numbers. A standard transaction leaves out every empty part, and its data if it has none; a refund, a secret, lists of names and addresses of a 3Bot are left out when missing. A withdrawal registration also names the address of its key, the Ethereum address and the fee of 10 TFT. There is no document of a 3Bot registration without key or signature, of a transaction that never got inputs of a kind that starts without, or with an address of a type that is not a byte; otherwise there is exactly one.", "quantifier": "Every condition, fulfilment, input, output and transaction of any version and size, every hash function with 32 bytes.", "why_tests_cant": "All nestings of conditions, all lists of any length, all amounts and bytes.", "anchors": ["tfchain/types/transactions/Base.py: json, tfchain/types/transactions/Standard.py, Minting.py, ERC20.py, ThreeBot.py: _json_data_object, tfchain/types/IO.py: json, tfchain/types/ConditionTypes.py: json, json_data_object, tfchain/types/FulfillmentTypes.py: json, json_data_object, tfchain/types/PrimitiveTypes.py: json, __str__"]}
{"id": "C90", "title": "What is sent arrives, and balances follow the ledger", "statement": "If explorers show a consistent chain (each address: nothing, or every transaction that concerns it, in any order, maybe with others), then a wallet's balance lists exactly the outputs of the chain that pay to its addresses and are not spent, confirmed ones apart from waiting ones, each once, and its four amounts add up to what they are worth; for a wallet that co-owns no multi-signature wallet there is such a balance. If the wallet then pays n TFT and the payment becomes part of the chain, the balance of a separate wallet that owns the paid address grows by exactly n, that of the sender shrinks by exactly n plus the fee, and wallets that are not paid are not touched. In every history of wallets that pay, register and convert in turn, each from a balance of its time, with transactions that are lost, wait, and get into or out of blocks, nothing is ever spent twice and the worth of all unspent outputs only drops by the fees and the fixed costs.", "quantifier": "Every chain, every order and wording of answers, every wallet, amount, recipient, lock and history of any length.", "why_tests_cant": "The histories, chains and answers are unbounded, and conservation of coins is a statement about two wallets and two points of time.", "anchors": ["tfchain/TFChainWallet.py: balance, coins_send, tfchain/TFChainClient.py: unlockhash_get, _transaction_from_explorer_transaction, ExplorerUnlockhashResult.balance"]}
{"id": "C91", "title": "A wallet recovered from its seed has its coins", "statement": "A wallet made again from its seed, with any number of keys to start with and any window to scan for more, opens, has the address of the seed's first key as its primary address, and its balance is all the chain has for any key of the seed that was ever used; so any two wallets of one seed report the same amount, and a payment goes through if and only if at most 99 outputs for keys of the seed, unspent and unlocked, suffice for the amount and the fee.", "quantifier": "Every seed, every chain that uses any of its keys, every number of initial keys, window and wording of explorer answers.", "why_tests_cant": "The used keys, the chain and the answers are unbounded; it joins key derivation, the scan, the collected balance and the funding.", "anchors": ["tfchain/TFChainWallet.py: __init__, balance, _key_scan, _key_pair_new, _key_pair_add, tfchain/TFChainClient.py: unlockhash_get"]}
{"id": "C92", "title": "Multi-signature wallets in a balance are those of the chain", "statement": "If explorers show a consistent chain, and for each address the multi-signature wallets its owner belongs to, then a wallet's balance has, each once, exactly the multi-signature wallets that one of its addresses co-owns, with their owners and number of signatures, and for each exactly the unspent outputs that pay to it; and there is always such a balance. Payments from multi-signature wallets, from the wallet's own addresses or from both never spend anything twice; what a payment leaves over stays with them, others get exactly what is paid to them, and through every history of wallets paying in this way no coins come into being or get lost.", "quantifier": "Every chain, every order and wording of answers, every wallet, set of multi-signature wallets, source addresses and history of any length.", "why_tests_cant": "Chains, wallets, sources and histories are unbounded; the claim is about the joint effect of several wallets over time.", "anchors": ["tfchain/TFChainWallet.py: balance, coins_send, WalletsBalance, MultiSigWalletBalance, tfchain/TFChainClient.py: ExplorerUnlockhashResult.balance"]}
{"id": "C93", "title": "Comparing hashes, addresses and other data", "statement": "== between two pieces of binary data of the same size and encoding tells whether their bytes are the same, and fails with a TypeError for data of another size or encoding and for anything that is neither data nor text nor bytes (None included); a text is read as data of that size and encoding first, and refused if it is none; bytes are refused if they have another length. Addresses are equal exactly if their types and hashes are, and may be compared with texts of addresses. != is the opposite of == and fails when it fails; == is an equivalence; equal objects have the same hash value, and objects that print the same are equal.", "quantifier": "Every piece of data, every text, every address.", "why_tests_cant": "The values and texts are unbounded; an equivalence is a statement about all pairs and triples.", "anchors": ["tfchain/types/PrimitiveTypes.py: BinaryData.__eq__, __ne__, __hash__, _op_other_as_binary_data, tfchain/types/ConditionTypes.py: UnlockHash.__eq__, __ne__, __hash__"]}
{"id": "C94", "title": "Atomic swaps, over their whole life", "statement": "With explorers that show the ledger: a contract that is there is found, and found unspent exactly while no transaction of the ledger spends it. Whatever wallets of the library do (pay, make contracts, redeem, refund, with transactions lost, taken or reordered by blocks), a contract is still there or exactly one transaction claimed it, and that one carries the secret and pays the amount less the fee to the receiver, or was made when the refund time had come and pays it to the sender; no coins are made or lost but the fees. While the contract is there, who has the receiver's key and the secret can redeem it and, from the refund time on, who has the sender's key can refund it; once it is claimed nobody can, and when the claim is in a later block than the contract, everyone is told that it is spent and finds the secret in the transaction that spent it. So of two contracts with one secret hash: when the second was taken before its refund time, its sender can find the secret and redeem the first.", "quantifier": "Every ledger, every history of wallets of the library on it, every contract, every answer of explorers that show the ledger.", "why_tests_cant": "Histories and ledgers are unbounded; that a contract is never taken by anybody else is a statement about all of them.", "anchors": ["tfchain/TFChainWallet.py: TFChainAtomicSwap.verify, redeem, refund, initiate, participate, _claim_contract, tfchain/TFChainClient.py: TFChainClient.coin_output_get"]}
{"id": "C95", "title": "A shared wallet pays, end to end", "statement": "Wallets of the owners of a multi-signature wallet, each opened on the ledger with explorers that show it: one of them can send an amount from the shared wallet exactly if at most 99 outputs of it that are free to be spent are worth the amount and the fee, and is told of insufficient funds otherwise. What it makes draws on such outputs only, pays the recipient the amount, and the change to the shared wallet (or where the caller says); it is submitted at once exactly if the caller has the keys of enough owners. Otherwise the owners sign in turn, each what the one before passed on, loaded from JSON or not: the inputs, outputs, fee and data stay what was proposed, nobody is refused, it is complete exactly if the keys that took part belong to as many owners as the wallet asks for, and the owner who makes it complete submits it. Once recorded, the shared wallet has lost exactly the amount and the fee, the recipient has the amount, and all others what they had.", "quantifier": "Every consistent ledger without definitions, every honest answer of the explorers, all owners, thresholds, amounts, data and refund conditions, every number and order of signers, each with a view of the ledger of its own in which the outputs drawn on are still unspent.", "why_tests_cant": "The owners sign in any order, any number of times, on views of the chain that differ, between any other transactions.", "anchors": ["tfchain/TFChainWallet.py: TFChainWallet.coins_send, transaction_sign, _fund, fund, _balance; MultiSigWalletBalance, tfchain/TFChainClient.py: TFChainClient.unlockhash_get"]}
{"id": "C96", "title": "Minters sign in turn", "statement": "When the mint condition in force asks for signatures of several minters (maybe only after some time), minting coins or setting a new condition makes the transaction that was asked for, signed by the wallet that made it as the first minter, and submitted exactly if that is enough. Otherwise the minters sign in turn, each what the one before passed on, loaded from JSON or not: nobody is refused; what is minted, the fee, the data and the nonce stay as proposed; it holds exactly one signature of each minter whose key took part, over the transaction as proposed; it is complete exactly if as many have signed as the condition in force asks for, in whatever order and however often; and a wallet asked to submit does so exactly if it is complete then and some present minter had not signed before.", "quantifier": "Every minting transaction, every list of minters and threshold, every number and order of signers, with conditions in force that may change between one signature and the next.", "why_tests_cant": "The minters sign in any order, any number of times, and the condition may be another one each time it is looked up.", "anchors": ["tfchain/TFChainWallet.py: TFChainWallet.transaction_sign 430-513, minter definition_set, coins_new; tfchain/types/: TransactionV128/V129 and fulfilments"]}
{"id": "C97", "title": "Requests go to the documented URL", "statement": "Looking something up or posting it sends, to one explorer after the other in some shuffled order and each at most once, an HTTP GET for (or a POST with the JSON as data and application/json as its type to) the address of that explorer followed by the documented endpoint, to the letter; only explorers that do not answer are passed over, and the result is what the last one asked says (for a submitted transaction, the identifier it tells). So, if at least one explorer answers and those which do tell the truth about the documented URL, then transactions, outputs, blocks, the state of the chain, mint conditions, 3Bot records, ERC20 addresses, and the balance and transactions of a wallet are what that truth says, whatever the order in which explorers are asked and whichever do not answer.", "quantifier": "Every explorer address with a kind, host, port and path, every endpoint the client makes, every shuffling, every network and every answer; every history of which explorers answer.", "why_tests_cant": "Any explorer may fail at any request, orders are random, and URLs pass through parsing and printing, so tests see a few of them only.", "anchors": ["tfchain/internal/HttpClient.py: get, post, _updateUrlParams, _http_request; tfchain/TFChainExplorerClient.py: get, post; tfchain/TFChainClient.py: lookups; tfchain/TFChainWallet.py: balance, transactions"]}
