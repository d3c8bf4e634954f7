# Design: a Rocq model of GlenDC/tfchain-py

Source: `/repo` (pinned commit, read as text only).  Development: `/verif/rocq/theories` (logical name `Verif`), Coq 8.16.1.

## Files

* Model files (no prefix): definitions only, each with a comment citing the file and lines of `/repo` it models, and
  what is simplified. `Base` (Python values, exceptions), `Encoders`, `Merkle`, `Currency`, `Primitive`, `Types`, `Conditions`, `Fulfillments`, `ThreeBotTypes`,
  `Txn`, `TxnJson`, `TxnSign`, `Wallet`, `AtomicSwap`, `Ops`, `Submit`, `Explorer`, `Lookups`, `Erc20Wallet`, `KeyScan`, `WalletLoad`, `Dates` and those named in the table.
* `Spec_*.v`: small specifications, in terms of the data of the API and independent of the model's algorithms: readers
  for the encodings, what a history says about an output, what an answer tells, which conditions a JSON value denotes, …
* `*Facts*.v`: lemmas.
* `Prop_*.v`: the property theorems (`Cnn_…`), each with `Print Assumptions`, and examples: concrete cases that meet the hypotheses, evaluated by the kernel.
* `seeded/LOG.jsonl`: wrong programs (edits of the model) and the theorems that noticed.

## Modelling conventions

* Python `bytes`/`bytearray` and `str` are both `list N` (bytes below 256, resp. Unicode code points).
  `wf_bytes b` says every element is below 256.
* A method which mutates an object is a function returning the new object.  Where a failing method leaves an object changed the
  function returns both (`C09`, `C19`, `C38`, `C53`).  A Python exception is a value: `res A := Ok a | Err exn`.  The exception kind is part of the
  model, since several properties are about which error is raised.  `Exception` itself is `RuntimeError`; `UnboundLocalError` is `NameError`.
* Sets whose order Python does not fix (addresses while funding, shuffled explorers) are a parameter: theorems are for every order.
* Loops whose end is not structural carry fuel, and a theorem says which fuel is enough (`drain`, `key_scan`), or the model is partial
  (`option`) and the theorem is about every result.
* "Distinct ids" and "commits to" are stated about hash *inputs*; collision resistance is not assumed, and where a hash has to be injective
  (different keys have different addresses) this is a visible hypothesis of the theorem.
* Claims that the code does not keep are refuted in the model (`_refuted`), with the part that is kept as `_partial`.

## Per property

| Id | Property | Modelled in | Specification | How it is proved | Status |
|----|----|----|----|----|----|
| C01 | Sia binary encoding loses no information | Encoders | Spec_Encoders | A reader is written as specification; induction over the encoded value shows that it returns the value and the untouched rest, whatever follows. | proved |
| C02 | Rivine slice length prefix is a minimal prefix code | Encoders | Spec_Encoders | Case split on the four ranges of the length prefix, with bit lemmas; the reader gives uniqueness, the ranges give minimality. | proved |
| C03 | Rivine fixed-width integers never wrap | Encoders | Spec_Encoders | Little-endian digits: round trip, bounds, refusal outside of the range, for every width. | proved |
| C04 | A string slice declares the number of bytes it contains | Encoders, Base (UTF-8) | Spec_Encoders | Length of the UTF-8 text against the number of characters: equal exactly for ASCII; a witness refutes the rest. | partial |
| C05 | Merkle root is the canonical tree hash | Merkle | Spec_Merkle | Invariant of the stack of subtrees: strictly decreasing heights, each the canonical root of its block of leaves; induction over pushed leaves. | proved |
| C06 | Multi-signature address does not depend on owner order | Conditions, Merkle | Spec_Types | The leaves are a sorted permutation of the owners; uniqueness of sorted permutations of a total order. | partial |
| C07 | Currency arithmetic is exact | Currency (decimal arithmetic: sign, coefficient, exponent, context of 28 digits) | Spec_Currency, Spec_Round | Exactness below the precision of the context; witness above; every result is the exact one rounded (Spec_Round). | partial |
| C08 | Currency text forms round-trip | Currency | Spec_Currency, Spec_Round | Lemmas about digit strings; what is read back is the rounded amount. | partial |
| C09 | A currency amount is never negative and never finer than one unit | Currency | Spec_Currency | Invariant over all sequences of operations on a set of Currency objects, failed operations included. | partial |
| C10 | Subtracting a currency from a number means what it says | Currency | Spec_Currency | Refuted for every pair of different operands; what is computed instead is proved. | partial |
| C11 | Currency binary encoding is canonical and injective | Currency, Encoders | Spec_Currency | Minimal big-endian numbers are unique; reader as specification. | proved |
| C12 | Address strings round-trip | Types | Spec_Types | Hexadecimal lemmas, slices of the text; exceptions enumerated by witnesses. | partial |
| C13 | Mistyped addresses are rejected | Types | Spec_Types | Inversion of the parser; the checksum is the hash of type and hash. | partial |
| C14 | Public key strings round-trip and determine the address | Types | Spec_Types | Split at the first colon; injectivity of the hashed encoding. | partial |
| C15 | Time locks open exactly when their height or time is reached, and stay open | Conditions | Spec_Types | Case split on the 500 000 000 boundary; monotonicity in height and time; nesting by induction on the condition. | proved |
| C16 | Condition JSON round-trips | Conditions | Spec_Types | Induction on the condition. | partial |
| C17 | Condition binary encoding is unambiguous | Conditions, Encoders | Spec_Types | The encoders are prefix codes: a reader per part, composed. | partial |
| C18 | Recipients resolve to the intended condition | Conditions | Spec_Types | Inversion of the dispatch on the kind of recipient, for all Python values the model distinguishes. | proved |
| C19 | A signature request can be fulfilled once and only by its owner | Fulfillments | Spec_Fulfil | Induction over any sequence of attempts on a request. | partial |
| C20 | Multi-signature inputs count distinct signers | Fulfillments | Spec_Fulfil | Invariant of the list of pairs over any history of requests and answers; counting argument for completeness. | partial |
| C21 | Fulfilment JSON round-trips, including unsigned ones | Fulfillments | Spec_Fulfil | Induction on the fulfilment; unsigned ones refuted. | partial |
| C22 | A standard transaction signature commits to the whole payment | Txn | Spec_Txn | Unique parsing of the hashed bytes: each part is written by a prefix code; the kinds of signers are told apart by case analysis on what they add. | partial |
| C23 | Signing does not disturb other signatures | Txn, TxnSign | Spec_Txn, Spec_Sign | The hashed bytes mention no fulfilment: equality for transactions equal up to fulfilments; lifted to every history of answers. | partial |
| C24 | Minting transaction signatures commit to their content | Txn | Spec_Txn | As C22. | proved |
| C25 | ERC20 transaction signatures commit to their content | Txn | Spec_Txn | As C22; the mixed case refuted by a pair of transactions with the same bytes. | partial |
| C26 | 3Bot transaction signatures commit to their content | Txn | Spec_Txn | As C22; plain against keyed signers by a length argument on the slice prefixes. | partial |
| C27 | Output identifiers are distinct | Txn | Spec_Txn | The hashed bytes of an id begin with a specifier of fixed length and end with the index; unique parsing between. | partial |
| C28 | Transaction JSON round-trips keep the transaction identity | TxnJson | Spec_Json | Round trip per version, compositional over the parts (JsonFacts); states that do not come back are refuted by witnesses. | partial |
| C29 | A transaction can be handed to an explorer | TxnJson, Explorer | Spec_Json | Structural: every leaf but the version is a JSON value. | partial |
| C30 | Wallet balance classifies outputs by their whole history | Wallet | Spec_Wallet | Induction over the list of observations; the classification is stated over the whole history. | proved |
| C31 | Available and locked partition the confirmed balance | Wallet | Spec_Wallet | Partition of a list by a predicate. | proved |
| C32 | No coin output is counted twice | Wallet | Spec_Wallet | Invariant over histories; witness for the refuted case. | partial |
| C33 | Merging balances adds them up | Wallet, Merging (balance_add of the three classes) | Spec_Wallet, Spec_Merge | Lemmas about merging dictionaries; witnesses; every sum characterised by what it lists. | partial |
| C34 | Funding selects only spendable outputs, once each, and pays exactly | Wallet | Spec_Wallet | Invariant of the selection loops, for every order of the set of addresses. | proved |
| C35 | Funding succeeds whenever the funds allow | Wallet | Spec_Wallet | The loops end early only with enough; otherwise everything was collected (sum of all outputs). | proved |
| C36 | Wallet operations conserve value | Ops, Wallet, TxnSign | Spec_Ops | Inversion of each operation: inputs = outputs + fees from C34; content from the builders; submission from the loop over signature requests. | proved |
| C37 | Draining moves everything | Wallet | Spec_Wallet | Induction over the chunks of 99 inputs. | proved |
| C38 | Wallet recovery finds all used addresses | KeyScan | Spec_Keys | Exact description of one scan by induction on the fuel, with a measure showing that enough fuel exists; repeated scans by induction. | partial |
| C39 | Atomic swap verification accepts only matching contracts | AtomicSwap | Spec_Swap | Decision logic, inversion in both directions. | proved |
| C40 | Atomic swap redeem and refund respect the contract | AtomicSwap, TxnSign | Spec_Swap | Inversion of redeem and refund down to the fulfilment and its signature; existence for success. | partial |
| C41 | 3Bot fees follow the price list | Ops | Spec_Ops | Arithmetic over all months and counts. | proved |
| C42 | 3Bot records stay within protocol limits and encode unambiguously | Ops, Txn, TxnJson | Spec_ThreeBot | Invariant over all sequences of assignments; packed bytes read back by a reader. | partial |
| C43 | Network address encoding is decodable | ThreeBotTypes | Spec_ThreeBot | Reader as specification; the contract of Python's ipaddress is a hypothesis (ip_library), shown satisfiable. | proved |
| C44 | ERC20 address validity agrees with acceptance | ThreeBotTypes | Spec_ERC20 | Python's int(text, 16) modelled; agreement on hexadecimal digits, witnesses elsewhere. | partial |
| C45 | Explorer requests use a working explorer whatever the order | Explorer | Spec_Explorer | Induction over the shuffled list of explorers, for every permutation and every outcome. | partial |
| C46 | Explorer transactions get their ids and parents attached in order | Explorer, TxnJson | Spec_Explorer, Spec_Lookup | Inversion of the reader; and acceptance of every answer that tells a transaction. | partial |
| C47 | Output lookup returns the creation and the spend | Explorer | Spec_Explorer | Inversion; the two transactions of an answer compared by height. | partial |
| C48 | Address history is newest first | Explorer | Spec_Explorer | Stable sort: permutation and order, with the key of the code. | proved |
| C49 | Address balance reflects the address history | Explorer, Wallet | Spec_Explorer | Observations of a history fed to C30. | partial |
| C50 | Duration strings round-trip | Dates | Spec_Dates | Mixed radix arithmetic and digit lemmas; Python's timedelta is a parameter with the contract td_library. | proved |
| C51 | A transaction builder sends at most once | Wallet | Spec_Wallet | State machine of the builder, induction over calls. | proved |
| C52 | Transaction version dispatch | TxnJson | Spec_Json | Case split on the version. | proved |
| C53 | A wallet signs exactly what it owns | TxnSign | Spec_Sign | Invariant of the loop over signature requests; existence for success. | partial |
| C54 | Arbitrary data limit | Txn, TxnJson | Spec_Txn | Length check of the setter; parsing refuted. | partial |
| C55 | Binary data sizes are enforced | Primitive | Spec_Types | Case split of the constructor. | partial |
| C56 | 3Bot names follow the name grammar | ThreeBotTypes | Spec_ThreeBot | The regular expression as a recursive matcher, proved equal to the grammar of the specification. | partial |
| C57 | Minting operations create exactly what was asked | Ops | Spec_Ops | Inversion. | proved |
| C58 | Transaction equality | Primitive, TxnJson | Spec_Json | Case analysis on the ids; Python's str hash is a parameter. | partial |
| C59 | Every wallet key is its own | KeyScan, Encoders | Spec_Keys | Injectivity of the hashed bytes. | proved |
| C60 | A new address is new | KeyScan | Spec_Keys | Invariant over all reachable wallets: pairs, unused keys and count are consistent. | proved |
| C61 | Lock texts mean what they say | Dates, Strptime | Spec_Dates | Digits, splitting; strptime as an ordered list of regular expression matches, whose first whole match is shown to be the fields; mktime and localtime are parameters. | partial |
| C62 | A wallet's balance is that of its addresses | WalletLoad, Explorer, Wallet | Spec_Load | Inversion of the two rounds of lookups; merging of balances; C49 for each. | partial |
| C63 | A wallet's transactions are those of its addresses | WalletLoad | Spec_Load | Set of transactions by id, sorted; inversion. | partial |
| C64 | A block lookup returns the block asked for | Lookups | Spec_Lookup | Inversion and acceptance of every honest answer. | partial |
| C65 | The blockchain info is that of the last block | Lookups | Spec_Lookup | As C64. | partial |
| C66 | Bad explorer answers are explorer errors | Lookups, Explorer | Spec_Lookup | Each lookup's exceptions by inversion of the failing step; witnesses for the leaks. | partial |
| C67 | A 3Bot record lookup finds the 3Bot asked for | Lookups | Spec_Lookup | As C64. | partial |
| C68 | A mint condition lookup returns the condition told | Lookups | Spec_Lookup | As C64. | proved |
| C69 | An ERC20 address lookup returns the registration of the address | Lookups | Spec_Lookup | As C64. | partial |
| C70 | A transaction lookup returns the transaction asked for | Lookups, Explorer | Spec_Lookup | As C64. | proved |
| C71 | A condition read from JSON is the one the JSON says | Conditions | Spec_Parse | Both directions by induction on the JSON value (nested conditions). | proved |
| C72 | A fulfilment read from JSON is the one the JSON says | Fulfillments | Spec_Parse | As C71. | proved |
| C73 | A wallet's ERC20 lookups are of its own addresses | Erc20Wallet, Lookups, TxnSign | Spec_Lookup | Inversion of the lookup of the key; induction over the addresses. | partial |
| C74 | Wallet operations submit at most one, complete transaction and return that one | Submit, Ops, AtomicSwap, TxnSign | Spec_Submit | Inversion of each operation's last part; ids and tracking by induction over the outputs; witnesses for the failures after the submission. | partial |
| C75 | coins_send sends what its arguments say | Front, Ops | Spec_Front | Inversion of the argument handling down to the operation of Ops.v, whose theorem (C36) says what is funded; recipients and ERC20 texts through the exact characterisations C18 and C44. | partial |
| C76 | What a wallet spends is free according to the chain | Session, Submit, WalletLoad | Spec_Session | The balance of the look-ups holds only outputs of the told histories in the states they tell (an invariant of adding observations and merging balances); an operation selects from its pool (C36) which is part of the balance. | partial |
| C77 | A payment the wallet can afford goes through | Ops, Wallet, TxnSign, Session | Spec_Afford, Spec_Afford2, Spec_Fits | Totality: each step of funding (C34), pricing (C42), encoding (SigTotal: the signature data of every transaction that fits exists) and signing succeeds; the only failure left is that of the selection, which is exact. The spendable outputs of a loaded wallet are the free ones of the histories (C62, C76). | proved |
| C78 | An atomic swap between two wallets | AtomicSwap, Ops | Spec_Swap, Spec_Fits | Composition of C36_contract (what is made), C39 (verification is exact), C40 (claims and refusals) and the totality of the encoding. | proved |
| C79 | Co-owners of multi-signature wallets sign in any order | TxnSign, Fulfillments | Spec_Together | An invariant of the inputs over the sequence of wallets: the signatures of an input are those of the owners held so far; one step asks exactly for the others (address texts are injective) and signs those of them the wallet holds (C53). Completeness counts the signatures; totality from C53_works and the injectivity of key texts. | proved |
| C80 | A transaction read from JSON is the one the JSON says | TxnJson, Conditions, Fulfillments | Spec_ParseTxn, Spec_Parse | Each reader is equivalent to what its value says (lemmas composed over the fields of the eight classes and the old format); conditions and fulfilments by C71 and C72, names and network addresses by C56 and C43. | proved |
| C81 | The encoders write the published form of every value | Encoders | Spec_Forms | An equivalence between success with some bytes and an inductively defined form, by induction on the nesting of the value; UTF-8 and the length formats are specified by what a reader computes from them. | proved |
| C82 | An amount written as text is the amount it says | Currency, Base (Python's int and Decimal of a text) | Spec_Amounts, Spec_Round | An equivalence between success with an amount and a relation of texts to numbers built of concatenations; the model's scanner is inverted step by step, upper-casing commutes with every part of the relation. | proved |
| C83 | The texts of hashes, signatures, keys, addresses and data are exactly the documented ones | Base (Python's fromhex, int and b64decode), Primitive, Types, Fulfillments | Spec_Texts, Spec_Amounts, Spec_ERC20 | Equivalences between success with a value and a relation of texts to values; the base64 decoder is inverted by an invariant over the part of the text read so far (complete quads, the rest of a quad, whether an = came since). | proved |
| C84 | The bytes of a transaction are those of its layout | Txn, Conditions, Fulfillments, Types, ThreeBotTypes, Merkle | Spec_Wire, Spec_Forms, Spec_Merkle, Spec_Texts | A layout is a list of predicates on bytes; each encoder is shown equivalent to its predicate and sequences compose (induction on conditions and lists). The stable sort of the owners is equivalent to repeatedly taking the first owner with the least text. | proved |
| C85 | Building a transaction by hand | TxnBuild, Txn, Types, Conditions, Fulfillments, Currency, ThreeBotTypes | Spec_Build, Spec_Amounts, Spec_Texts, Spec_ERC20, Spec_ThreeBot | One step is shown equivalent to its specification part by part; a refused list assignment equals the accepted one of a shorter list, so an invariant over accepted steps (the limits) holds over all histories; conversely a history is constructed for every transaction within the limits. | partial |
| C86 | A client works on the network it was asked for | Network, Explorer | Spec_Network | Case analysis over the arguments; the comparison of names in upper case is characterised letter by letter; which explorers are contacted follows from the explorer client's loop (C45). | partial |
| C87 | An atomic swap contract says what its output says | Show, AtomicSwap, Dates, Currency | Spec_Contract, Spec_Show, Spec_Wire | Equivalences of each printed part with its specification; injectivity of amounts, durations, addresses and identifiers, and splitting of the text at its line breaks. | proved |
| C88 | What a balance prints is what it holds | Show, Wallet, Currency, Dates | Spec_Balance, Spec_Show, Spec_Wire, Spec_Wallet | The filters of locked and open outputs give the only division of the outputs; texts are split at characters that cannot occur in the parts before them and at empty lines; the address by an invariant over additions and merges. | partial |
| C89 | The JSON document of a transaction is the documented one | TxnJson, Conditions, Fulfillments, Primitive, Types, ThreeBotTypes | Spec_Print, Spec_Show, Spec_Texts, Spec_Wire | Each writer is shown to compute the only document of its form; forms compose through lists and objects (a writer equals one that computes its fields in order, up to which error is raised). | proved |
| C90 | What is sent arrives, and balances follow the ledger | Explorer, WalletLoad, Wallet, Session, Front, Ops | Spec_Ledger, Spec_Lookup, Spec_Load, Spec_Ops, Spec_Front | Each answer that shows the ledger is read into the entries concerning the address (C49, C63); the merged balance is then a permutation of the unspent outputs of the ledger; a recorded transaction extends a consistent ledger; induction over histories. | proved |
| C91 | A wallet recovered from its seed has its coins | Recover, KeyScan, WalletLoad, Session, Wallet | Spec_Recover, Spec_Keys, Spec_Ledger | Explorers that show the ledger answer the scan as a chain does (C38); without gaps every used key is loaded; keys that nothing concerns make no difference to the unspent outputs of the ledger, so C90_balance and C90_pays apply to the loaded keys. | partial |
| C92 | Multi-signature wallets in a balance are those of the chain | Explorer, WalletLoad, Wallet, Session, Front | Spec_Shared, Spec_Ledger, Spec_Load, Spec_Wallet | As C90 for the lookups of multi-signature addresses; outputs of different multi-signature wallets and of the wallet's own addresses have different texts of addresses, so what may be spent is a part of what the ledger has unspent; induction over histories. The refutation: a payment without owners in the history makes the reading fail. | partial |
| C93 | Comparing hashes, addresses and other data | Equal, Primitive, Types | Spec_Texts | Case analysis on what is compared; the reading of texts is C83_binary and C83_address; injectivity of the printed forms from hex_inj and uh_str_inj. | partial |
| C94 | Atomic swaps, over their whole life | SwapLookup, AtomicSwap, Lookups, Explorer, Ops, WalletLoad, Session | Spec_Trade, Spec_Ledger, Spec_Swap | Invariants of the inductive relation trade: the ledger stays consistent and worth + fees stays the same (C94_run); a contract is not for any wallet's addresses, so payments leave it alone (swap_apart); a claim spends exactly it (claim_step). The lookup is C47's on honest answers. | proved |
| C95 | A shared wallet pays, end to end | Wallet, Ops, TxnSign, Submit, Session, WalletLoad, Explorer | Spec_Jointly, Spec_Ledger, Spec_Shared, Spec_Together | What a wallet opened on the ledger can draw from the shared wallet is what the ledger says (pool_draws, from C92's lemmas); the draft it makes is a shared transaction in the sense of C79, so that signing in turn is C79; recording it is extend_ok and extend_fortune of C90. Funding from one multi-signature source is complete (fund_shared, C35_shared_complete). | proved |
| C96 | Minters sign in turn | TxnSign, Ops | Spec_Minters, Spec_Together, Spec_Shared | An invariant of signing in turn (mstate in MintersFacts): the fulfilment lists exactly one signature per minter who has signed, each over the input of the transaction as proposed (which depends neither on the fulfilment nor on the condition looked up). From C53's account of what one call of transaction_sign does to a slot. | proved |
| C97 | Requests go to the documented URL | Http, Explorer, Lookups, Wallet | Spec_Http, Spec_Explorer | Parsing and printing a URL made of a plain address and a plain endpoint gives it back (url_kept), so that what is sent is the documented request; every endpoint the client makes is plain (hex digits, decimal digits, fixed text). With C45's account of trying explorers in turn, two networks which tell the same at plain endpoints are the same to each lookup, by unfolding the lookups, and by induction for wallets, whose multisig addresses come from earlier answers. | proved |

### What is missing from, or false of, the partial ones

The claims in properties.jsonl are what a user relies on. Where the code does not keep one, the theorem ending in `_refuted` says so, and the
ones ending in `_partial` say what is kept; both are about the same model.

* **C04** False of the code: len(value) counts characters while the content is UTF-8. Holds exactly for ASCII.
* **C06** Holds for owners with 32 byte hashes; refuted when an empty-hash owner (None / UnlockHash()) meets the zero-hash one.
* **C07** Exact below the decimal context precision (28 digits), refuted above it. Without any bound: sums, differences and products are the exact ones rounded to 28 significant digits, half to even (C07_add_rounds, C07_sub_rounds, C07_mul_rounds, C07_mul_int_rounds), so a sum is exact precisely if it has at most 28 significant digits (C07_exact_iff). C07_operators: the six comparisons are those of the amounts, with any operand.
* **C08** JSON round trip holds below 10^28 units, refuted above. Without any bound: the amount read from the JSON is the printed one rounded to 28 significant digits, the same precisely if it has at most 28 (C08_json_rounds). C08_printed: the text printed, with and without unit, is exactly the one specified.
* **C09** The amount invariant is proved in full; the documented error kinds are refuted.
* **C10** False of the code: n - c computes c - n.
* **C12** Round trip for every address of types 0..3 in normal form; UnlockHash() (empty hash) is refuted.
* **C13** Proved for all non-nil types; the checksum of nil addresses is never checked (refuted).
* **C14** Everything but the round trip of the empty key, which is refuted.
* **C16** Proved for network_cond; refuted for swaps without secret and locked swaps.
* **C17** Proved for conditions whose addresses have 32 byte hashes; refuted with empty hashes.
* **C19** All parts proved except that a malformed signature leaves the signer's key behind, after which no request is issued any more (refuted).
* **C20** Proved for owners of non-nil type over all request histories; nil owners and JSON duplicates refuted.
* **C21** Signed fulfilments round-trip; unsigned single-signature inputs are refuted.
* **C22** Proved for signers of the same kind and for plain against keyed ones; refuted between a refunding and a redeeming signer and for legacy transactions.
* **C23** Proved for all versions but legacy, for every history of answers to requests; refuted for legacy transactions.
* **C25** Proved for signers of the same kind; refuted between plain and keyed signers.
* **C26** Proved for signers of the same kind, for own signatures against inputs and for plain against keyed signers. Between a refunding and a redeeming signer of a swap the claim is false (C26_secret_refuted: two updates within the protocol's limits share their signature data), as it is for standard transactions (C22_secret_refuted).
* **C27** Distinctness proved for all versions; that absent outputs are refused is proved for coin outputs and refuted for block stake outputs.
* **C28** For every version: content and signature data are kept in every signing state; encoding and identifier are kept for completely signed transactions of versions 1, 128, 129, 144, 208, 209. Refuted for signed 145, 146, 210 (always), for unsigned inputs and own signatures (absent signatures come back as present), legacy transactions, and registrations not yet signed (no JSON at all). Amounts below 10^28 units, sizes normal (printable).
* **C29** False as stated: the JSON of no transaction is serialisable, because the version is an enum object; everything else in it is. So no transaction object is ever posted (C29_never_posted).
* **C32** Refuted: an output seen created in a confirmed and later again in an unconfirmed transaction counts in both. Proved for histories without such a pair.
* **C33** Refuted: a spent output of one balance is available in the merge if the other has it; balances knowing the same multi-signature wallet cannot be merged at all. Proved for balances without a common output. Exactly: when two balances can be added and what the sum has (C33_merge_iff, C33_merge_exact, C33_keeps); the order matters to whether there is a sum (C33_order_refuted), not to what it has (C33_order_partial). For the three classes of balances: nothing can ever be added to the balance of a multi-signature wallet (C33_multisig_never_refuted); all other sums have the parts of both (C33_any_partial).
* **C38** Proved for every usage pattern of an unchanging chain: what a scan adds is exactly the used keys it counts past (scan_exact), all used keys of the first window are found (window, open), keys used without gaps are all found (no_gaps), scans end (ends), and with a window of one or two keys repeated scans find everything with gaps within the window (small_window). The full claim is false of the code and refuted: with the default window of 3 a used key is missed for ever although all gaps are within the window (missed_refuted), and unused keys in gaps are neither loaded nor handed out again (gap_refuted). Hypothesis: different keys have different addresses. Key indices beyond 2^64 are not modelled. C38_scan_count: the window of a new wallet.
* **C40** Redeem proved; refund proved for wallets that do not own the receiver's key, refuted for a wallet that owns both keys (it signs the refund with the receiver's key). C40_redeem_works and C40_refund_works have no hypothesis about encodings.
* **C42** Proved for every sequence of assignments and additions; a name transfer is read back once both parties signed. The names setter of a name transfer appends (refuted as a setter). Parsed JSON is not checked against the limits.
* **C44** Agreement proved for bytes and for texts of hexadecimal digits; refuted in general in both directions (signs, underscores; blanks, empty text). C44_valid_texts, C44_valid_accepted and C44_accepted_texts say exactly which texts are valid and which are accepted.
* **C45** Every part but 'uses a working explorer': an explorer that fails with an error status, or an unusable address, hides working ones (refuted); proved when the others are silent.
* **C46** Proved for all versions but 209, whose output never gets its id (refuted). C46_accepts: every answer that tells a printable transaction, of any version and in any signing state, is read, and as told.
* **C47** What is returned is right for honest answers; that it is found in every order holds for different heights and is refuted for equal heights, unconfirmed spends and conversions from ERC20. C47_which says which of two transactions is taken for the creation, for all heights an explorer may tell (numbers, booleans, texts).
* **C49** Proved for histories listed newest first in which ids tell outputs apart; refuted for conversions from ERC20 (no ids) and for multi-signature addresses with mint definitions.
* **C53** Proved for transactions that are not legacy: what is signed, what is reported, and that signing succeeds when the wallet's keys asked of one input differ. Refuted: name transfer between bots of one key, a multi-signature input with the nil address as owner, both sides of an atomic swap. C53_works_partial: the data to sign can be computed for every transaction that fits into its encoding.
* **C54** Holds for assignment; parsed transactions have no limit (refuted).
* **C55** Size is the declared one or zero; that zero is possible is refuting the full claim.
* **C56** Exact but for a trailing line feed, which is accepted (refuted).
* **C58** Equality is that of identifiers where both are set (assuming Python's str hash does not collide); refuted for built transactions (NameError) and for transactions parsed without id (all equal).
* **C61** Proved for every documented form: '+duration', '-4h', dates year first (four or two digits), day first or without year, with fields of one or two digits, with no time of day or h:m, h:m:s, by 24 hours or am/pm; days and times that do not exist are refused; and for printing and reading back. strptime is modelled (Strptime.v); mktime, localtime and int(float*k) are parameters. Partial because the claim is false of the code in two cases: a time of day alone, given as an example in the documentation, is refused; dates before 5 November 1985 become block heights.
* **C62** Own part and amounts proved for every history with real heights; multi-signature part without mint definitions in these histories. Availability is refuted for wallets owning two keys of one multi-signature wallet (AttributeError) and for a chain that has the genesis block only (ValueError), proved otherwise.
* **C63** Proved when all addresses were used; refuted otherwise: an unused address makes the call fail with ExplorerNoContent.
* **C64** By id proved in full; by height everything but the height itself, which the client does not compare: refuted.
* **C65** Proved but for answers without blockid, for which a KeyError escapes (refuted for all of them).
* **C66** Proved: no KeyError from any lookup but the blockchain info, ExplorerInvalidResponse when the thing asked for is missing, errors of the explorers passed on. The full claim is refuted: null instead of an empty list of transactions (what a Go explorer sends) raises TypeError.
* **C67** Proved but for: the exception for some texts with a colon is InvalidPublicKeySpecifier, the empty text is asked for as a key, and the record is not compared with the identifier (refuted). ipaddress is a parameter with the contract ip_library.
* **C69** Proved but for the comparison of the address told with the one asked for, which the client does not make: refuted.
* **C73** For every wallet and explorer. The claim that nothing else is accepted is false: any text beginning with 00 is taken for the primary address (C73_nil_refuted, true for every wallet); everything else is refused (C73_refused).
* **C74** All operations and all behaviours of the explorers. That an operation which raises submitted nothing is false: the look-ups after the submission may fail (C74_raise_means_nothing_refuted), and coins sent to the owner's own multi-signature wallet by its address text always raise TypeError after the submission (C74_own_multisig_refuted). C74_returns_partial: when all involved outputs can be tracked and the look-ups work, it returns. C29 applies: at this commit the submission itself raises for every transaction; these theorems are about the code around it. C74_submits: a prepared transaction is submitted exactly when that is wanted, it is complete, and (signing a given one) there was something left to sign.
* **C75** For every argument value of the kinds the documentation names. The documented unit of an int amount (smallest unit, 1 == 0.000000001 TFT) is false: it is in TFT, a billion times more, whenever anything is sent (C75_int_amount_refuted).
* **C76** For every wallet, history and paying operation. Two operations in a row may spend the same output: the balance is looked up anew by each and the submitted transaction is not kept (C76_in_a_row_refuted); once the explorers tell of the first the second keeps away from what it spent (C76_not_again). The histories of multi-signature addresses are assumed to have no definition of the mint condition (its wallet reads then fail or differ: C47, C62).
* **C85** Success, effect and the reachable transactions are equivalences for every version, operation and value. False in the code, and so stated as refutations with what holds instead: a refused assignment of a list keeps the elements before the refused one (C85_stopped); the names of a name transfer are added to those there are; no input can be added to a new address registration or name transfer before its inputs were assigned; assigning inputs with an unknown parent output makes them inputs of an output of nothing, which changes whether the transaction counts as signed, though not its bytes, identifier or signed data (C85_copy). Assigning a property another version has does nothing (ignored). Sharing of objects between transactions is not modelled.
* **C86** All but the last sentence is proved for every name, answer and network behaviour. The refusal of unknown names and types is false in the code: an unknown name is taken as none, so the client works on the standard network (C86_unknown, C86_unknown_refuted); a network explorers tell that is unknown leaves the client without one (C86_told_unknown); an unknown type talks to the explorer of devnet with the fees of the standard network (C86_type_refuted). C86_type: what happens with every type that is none of the three.
* **C88** Equivalences with Spec_Balance for every balance, the amounts of each balance at its own height and time. That the amounts of a multi-signature wallet are those at the height and time in the first line is false in the code: one first seen in a transaction of the wallet itself has no height and time, so that its locked outputs are shown as available (C88_context_refuted). C88_addressed is for balances grown by adding outputs and merging.
* **C91** Proved when the keys after the first key_count ones are used without gaps, or when all used keys are in the first window; otherwise the claim is false (C91_gap_refuted, and C38_missed_refuted): with gaps shorter than the window coins can be missed. Assumes that no two addresses of the seed are the same, and explorers that show the chain. Chains without conversions from ERC20.
* **C92** Proved for chains without new definitions of who may create coins (C49_definition_refuted) and without conversions from ERC20. There is not always a balance: C92_poisoned_refuted (anyone who pays to the address of a multi-signature wallet, given as text, makes the balance of all its co-owners fail) and C62_both_owners_refuted (a wallet with two of the owners' addresses); in all other cases there is (C92_succeeds_partial).
* **C93** Objects that print the same are equal: proved of whole hashes and addresses; false of the empty hash and the default address, which print like 32 zeros and are not equal to them (refuted).

## Trusted base

* Coq's kernel (8.16.1, `vm_compute` used in examples and some finite sweeps; no `native_compute`).
* Axioms: `Print Assumptions` of every theorem in `MANIFEST.json` prints *Closed under the global context*: no axiom at all.  (A scan of all
  loaded libraries lists the seven `Coq.ssr.ssrunder.Under_rel.*` constants of the standard library's ssreflect; no theorem uses them.)  There are no axioms,
  `Admitted`, functors, module types or plugins in the development; section variables are all generalised and visible in the statements.
* That the model says what the code does: by reading, definition by definition, against the cited lines.
* Parameters, i.e. arguments that theorems quantify over, with the hypotheses that some theorems put on them:
  * `H`: BLAKE2b-256 (`hash_ok`: 32 bytes); `S256`: SHA-256; `sign`: ed25519 signing (nothing, or 64 bytes).
  * `ip_parse`, `ip_str`: Python's `ipaddress` (`ip_library`, C43, shown satisfiable).
  * `td`, `scaled`, `strptime`, `mktime`, `localtime`: Python's `timedelta`, products of decimal texts, and calendar functions
    (`td_library`, `calendar`; shown satisfiable).
  * `net`, `put`, `probe`, `own`, `rebal`, `get`, `rec`: what the explorers answer.  Arbitrary functions; in `WalletLoad` the answers may change from request to request.
  * `now`: the current time.
  * the order of sets; `dumps`/`shash`: Python's `json.dumps` on non-JSON objects and `hash(str)`.

## What is modelled

`tfchain/encoders`, `tfchain/crypto/merkletree.py`, `tfchain/types` (all files, all transaction versions 0, 1, 128, 129, 144, 145, 146, 208, 209, 210),
`tfchain/TFChainExplorerClient.py`, `tfchain/TFChainClient.py` (every lookup, and the posting of a transaction), `tfchain/TFChainWallet.py` (keys and scanning, balance,
transactions, funding, every operation up to and after submission, signing, atomic swaps, 3Bots, ERC20, minting, balances of multi-signature wallets, drain, builder),
`tfchain/internal/HttpClient.py:75-118, 162-213` (which requests are made, which outcomes count as what), `tfchain/internal/jsutils.py` (durations and dates used by locks, TIMES).

## What is not modelled

* JSON text and HTTP: an explorer's answer is a JSON value (no floats), a request an outcome. The stubs and tests.
* ed25519, the hashes, mnemonic words and seed generation, random secrets and nonces: parameters. (Recover.v starts at the seed's bytes.)
* Texts for people, except those of balances and contracts (C87, C88). Getters that return a field.
* Non-ASCII digits and blanks where Python accepts them in numbers (`int`, `float`, `Decimal` of a text); `float` amounts.
* Sharing: two references to one mutable object (a `bytearray` inside `BinaryData`, a condition used in two outputs).
* Key indices of 2^64 and more; memory exhaustion, recursion limits, `KeyboardInterrupt`, threads.
* The unused parts of `jsutils.py` (time formatting helpers) and `HttpClient.py` (download, ping, auth), `setup.py`.
