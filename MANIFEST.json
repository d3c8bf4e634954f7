{
 "claims": [
  {
   "property": "C01",
   "status": "proved",
   "theorems": [
    "C01_sia_int_exact",
    "C01_sia_int_reject",
    "C01_sia_slice_exact",
    "C01_sia_decodable",
    "C01_sia_injective",
    "C01_sia_slice_list",
    "C01_sia_array_list",
    "C01_array_bytes"
   ],
   "note": "Reader written as specification; arbitrary suffix."
  },
  {
   "property": "C02",
   "status": "proved",
   "theorems": [
    "C02_riv_prefix_exact",
    "C02_riv_prefix_minimal",
    "C02_riv_prefix_reject",
    "C02_riv_decodable",
    "C02_riv_slice_list",
    "C02_riv_slice_bytes",
    "C02_riv_slice_bytes_reject",
    "C02_riv_array_list"
   ],
   "note": ""
  },
  {
   "property": "C03",
   "status": "proved",
   "theorems": [
    "C03_riv_int_exact",
    "C03_riv_int_reject",
    "C03_add_byte_exact",
    "C03_add_byte_reject",
    "C03_add_byte_bytes"
   ],
   "note": "For every width, the code uses 1,2,3,4,8."
  },
  {
   "property": "C04",
   "status": "partial",
   "theorems": [
    "C04_string_slice_refuted",
    "C04_sia_string_slice_partial",
    "C04_riv_string_slice_partial"
   ],
   "note": "False of the code: len(value) counts characters while the content is UTF-8. Holds exactly for ASCII."
  },
  {
   "property": "C05",
   "status": "proved",
   "theorems": [
    "C05_merkle_root",
    "C05_merkle_total",
    "C05_merkle_spec_deterministic",
    "C05_empty_root_raises"
   ],
   "note": "For an arbitrary hash function."
  },
  {
   "property": "C06",
   "status": "partial",
   "theorems": [
    "C06_owner_order_partial",
    "C06_address_exists",
    "C06_owner_order_refuted"
   ],
   "note": "Holds for owners with 32 byte hashes; refuted when an empty-hash owner (None / UnlockHash()) meets the zero-hash one."
  },
  {
   "property": "C07",
   "status": "partial",
   "theorems": [
    "C07_add_exact_partial",
    "C07_sub_exact_partial",
    "C07_sub_negative_refused",
    "C07_mul_exact_partial",
    "C07_mul_int_exact_partial",
    "C07_compare_exact",
    "C07_add_exact_refuted",
    "C07_mul_total_refuted",
    "C07_add_rounds",
    "C07_sub_rounds",
    "C07_mul_rounds",
    "C07_mul_int_rounds",
    "C07_exact_iff",
    "C07_operators",
    "C07_no_operand"
   ],
   "note": "Exact below the decimal context precision (28 digits), refuted above it. Without any bound: sums, differences and products are the exact ones rounded to 28 significant digits, half to even (C07_add_rounds, C07_sub_rounds, C07_mul_rounds, C07_mul_int_rounds), so a sum is exact precisely if it has at most 28 significant digits (C07_exact_iff). C07_operators: the six comparisons are those of the amounts, with any operand."
  },
  {
   "property": "C08",
   "status": "partial",
   "theorems": [
    "C08_str_round_trip",
    "C08_json_round_trip_partial",
    "C08_json_is_units",
    "C08_json_round_trip_refuted",
    "C08_json_rounds",
    "C08_printed"
   ],
   "note": "JSON round trip holds below 10^28 units, refuted above. Without any bound: the amount read from the JSON is the printed one rounded to 28 significant digits, the same precisely if it has at most 28 (C08_json_rounds). C08_printed: the text printed, with and without unit, is exactly the one specified."
  },
  {
   "property": "C09",
   "status": "partial",
   "theorems": [
    "C09_amount_invariant",
    "C09_failure_keeps_amounts",
    "C09_accepts_exactly",
    "C09_error_kind_refuted",
    "C09_documented_errors_never_raised",
    "C09_int_is_tft"
   ],
   "note": "The amount invariant is proved in full; the documented error kinds are refuted."
  },
  {
   "property": "C10",
   "status": "partial",
   "theorems": [
    "C10_rsub_refuted",
    "C10_rsub_is_swapped"
   ],
   "note": "False of the code: n - c computes c - n."
  },
  {
   "property": "C11",
   "status": "proved",
   "theorems": [
    "C11_sia_encoding_exact",
    "C11_riv_encoding_exact",
    "C11_encoding_injective",
    "C11_encoding_canonical",
    "C11_encoding_total"
   ],
   "note": ""
  },
  {
   "property": "C12",
   "status": "partial",
   "theorems": [
    "C12_address_round_trip_partial",
    "C12_nil_round_trip_refuted",
    "C12_nil_hash_refuted",
    "C12_type_ten_refuted",
    "C12_printed_distinct",
    "C12_canonical_refuted"
   ],
   "note": "Round trip for every address of types 0..3 in normal form; UnlockHash() (empty hash) is refuted."
  },
  {
   "property": "C13",
   "status": "partial",
   "theorems": [
    "C13_accepts_only_partial",
    "C13_wrong_checksum_refused",
    "C13_nil_checksum_refuted"
   ],
   "note": "Proved for all non-nil types; the checksum of nil addresses is never checked (refuted)."
  },
  {
   "property": "C14",
   "status": "partial",
   "theorems": [
    "C14_key_round_trip_partial",
    "C14_empty_key_refuted",
    "C14_accepted_shapes",
    "C14_address_determined",
    "C14_address_total",
    "C14_hash_input_injective"
   ],
   "note": "Everything but the round trip of the empty key, which is refuted."
  },
  {
   "property": "C15",
   "status": "proved",
   "theorems": [
    "C15_locked_exactly",
    "C15_stays_open",
    "C15_lock_of_int"
   ],
   "note": "Date and duration texts enter as the number their parser returns."
  },
  {
   "property": "C16",
   "status": "partial",
   "theorems": [
    "C16_json_round_trip_partial",
    "C16_swap_without_secret_refuted",
    "C16_locked_swap_refuted"
   ],
   "note": "Proved for network_cond; refuted for swaps without secret and locked swaps."
  },
  {
   "property": "C17",
   "status": "partial",
   "theorems": [
    "C17_sia_unambiguous_partial",
    "C17_rivine_unambiguous_partial",
    "C17_swap_address_input_partial",
    "C17_empty_hash_refuted"
   ],
   "note": "Proved for conditions whose addresses have 32 byte hashes; refuted with empty hashes."
  },
  {
   "property": "C18",
   "status": "proved",
   "theorems": [
    "C18_recipient",
    "C18_locked_recipient",
    "C18_recipient_texts"
   ],
   "note": " C18_recipient_texts: the same with address texts described by Spec_Texts instead of the reader."
  },
  {
   "property": "C19",
   "status": "partial",
   "theorems": [
    "C19_accepts_once",
    "C19_used_is_refused",
    "C19_accepted_from_owner",
    "C19_not_owner_refused",
    "C19_failed_attempt",
    "C19_owner_accepted",
    "C19_bad_signature_refuted"
   ],
   "note": "All parts proved except that a malformed signature leaves the signer's key behind, after which no request is issued any more (refuted)."
  },
  {
   "property": "C20",
   "status": "partial",
   "theorems": [
    "C20_distinct_owners_partial",
    "C20_all_sign",
    "C20_nil_owner_refuted",
    "C20_json_duplicates_refuted"
   ],
   "note": "Proved for owners of non-nil type over all request histories; nil owners and JSON duplicates refuted."
  },
  {
   "property": "C21",
   "status": "partial",
   "theorems": [
    "C21_json_round_trip_partial",
    "C21_unsigned_refuted"
   ],
   "note": "Signed fulfilments round-trip; unsigned single-signature inputs are refuted."
  },
  {
   "property": "C22",
   "status": "partial",
   "theorems": [
    "C22_commits_partial",
    "C22_plain_vs_key",
    "C22_secret_refuted",
    "C22_legacy_refuted",
    "C22_legacy_partial"
   ],
   "note": "Proved for signers of the same kind and for plain against keyed ones; refuted between a refunding and a redeeming signer and for legacy transactions."
  },
  {
   "property": "C23",
   "status": "partial",
   "theorems": [
    "C23_independent_partial",
    "C23_any_history",
    "C23_legacy_refuted"
   ],
   "note": "Proved for all versions but legacy, for every history of answers to requests; refuted for legacy transactions."
  },
  {
   "property": "C24",
   "status": "proved",
   "theorems": [
    "C24_commits",
    "C24_plain_vs_key",
    "C24_kinds_apart"
   ],
   "note": ""
  },
  {
   "property": "C25",
   "status": "partial",
   "theorems": [
    "C25_commits_partial",
    "C25_mixed_refuted"
   ],
   "note": "Proved for signers of the same kind; refuted between plain and keyed signers."
  },
  {
   "property": "C26",
   "status": "partial",
   "theorems": [
    "C26_commits_partial",
    "C26_signers_apart",
    "C26_plain_vs_key",
    "C26_secret_refuted"
   ],
   "note": "Proved for signers of the same kind, for own signatures against inputs and for plain against keyed signers. Between a refunding and a redeeming signer of a swap the claim is false (C26_secret_refuted: two updates within the protocol's limits share their signature data), as it is for standard transactions (C22_secret_refuted)."
  },
  {
   "property": "C27",
   "status": "partial",
   "theorems": [
    "C27_transaction_id",
    "C27_legacy_transaction_id",
    "C27_output_id",
    "C27_output_id_data",
    "C27_legacy_apart",
    "C27_absent_coin_refused",
    "C27_stake_bound_refuted"
   ],
   "note": "Distinctness proved for all versions; that absent outputs are refused is proved for coin outputs and refuted for block stake outputs."
  },
  {
   "property": "C28",
   "status": "partial",
   "theorems": [
    "C28_read_back",
    "C28_content",
    "C28_signature_data",
    "C28_identity_partial",
    "C28_own_signature_refuted",
    "C28_unsigned_refuted",
    "C28_submitted_unsigned_refuted",
    "C28_registration_refuted",
    "C28_legacy_refuted"
   ],
   "note": "For every version: content and signature data are kept in every signing state; encoding and identifier are kept for completely signed transactions of versions 1, 128, 129, 144, 208, 209. Refuted for signed 145, 146, 210 (always), for unsigned inputs and own signatures (absent signatures come back as present), legacy transactions, and registrations not yet signed (no JSON at all). Amounts below 10^28 units, sizes normal (printable)."
  },
  {
   "property": "C29",
   "status": "partial",
   "theorems": [
    "C29_data",
    "C29_refuted",
    "C29_version_is_all",
    "C97_put_object_refuted",
    "C29_never_posted"
   ],
   "note": "False as stated: the JSON of no transaction is serialisable, because the version is an enum object; everything else in it is. So no transaction object is ever posted (C29_never_posted)."
  },
  {
   "property": "C30",
   "status": "proved",
   "theorems": [
    "C30_classification",
    "C30_contents",
    "C30_spent_for_good"
   ],
   "note": ""
  },
  {
   "property": "C31",
   "status": "proved",
   "theorems": [
    "C31_partition",
    "C31_available_iff_open",
    "C31_amounts",
    "C31_unknown_chain"
   ],
   "note": ""
  },
  {
   "property": "C32",
   "status": "partial",
   "theorems": [
    "C32_counted_once_refuted",
    "C32_counted_once_partial"
   ],
   "note": "Refuted: an output seen created in a confirmed and later again in an unconfirmed transaction counts in both. Proved for histories without such a pair."
  },
  {
   "property": "C33",
   "status": "partial",
   "theorems": [
    "C33_merge_refuted",
    "C33_multisig_refuted",
    "C33_merge_partial",
    "C33_merge_possible_partial",
    "C33_merge_iff",
    "C33_merge_exact",
    "C33_keeps",
    "C33_order_partial",
    "C33_order_refuted",
    "C33_multisig_never_refuted",
    "C33_any_partial"
   ],
   "note": "Refuted: a spent output of one balance is available in the merge if the other has it; balances knowing the same multi-signature wallet cannot be merged at all. Proved for balances without a common output. Exactly: when two balances can be added and what the sum has (C33_merge_iff, C33_merge_exact, C33_keeps); the order matters to whether there is a sum (C33_order_refuted), not to what it has (C33_order_partial). For the three classes of balances: nothing can ever be added to the balance of a multi-signature wallet (C33_multisig_never_refuted); all other sums have the parts of both (C33_any_partial)."
  },
  {
   "property": "C34",
   "status": "proved",
   "theorems": [
    "C34_fund_exact",
    "C34_fund_distinct",
    "C34_fund_twice"
   ],
   "note": "C34_fund_twice shows why the balance has to list each output once."
  },
  {
   "property": "C35",
   "status": "proved",
   "theorems": [
    "C35_fund_complete",
    "C35_multisig_refuted",
    "C35_shared_complete"
   ],
   "note": "Stated for personal addresses; C35_multisig_refuted shows it is false for several multi-signature sources. C35_shared_complete has it for one multi-signature source."
  },
  {
   "property": "C36",
   "status": "proved",
   "theorems": [
    "C36_send_many",
    "C36_send",
    "C36_contract",
    "C36_claim",
    "C36_record_new",
    "C36_record_update",
    "C36_name_transfer",
    "C36_erc20_send",
    "C36_erc20_register",
    "C36_drain"
   ],
   "note": "For every operation that builds a transaction; also: submitted exactly when completely signed, and what the transaction carries is what was asked."
  },
  {
   "property": "C37",
   "status": "proved",
   "theorems": [
    "C37_drain",
    "C37_drain_total",
    "C37_drain_small"
   ],
   "note": "C37_drain_small: one chunk worth less than the fee makes the whole drain fail."
  },
  {
   "property": "C38",
   "status": "partial",
   "theorems": [
    "C38_scan_exact",
    "C38_window",
    "C38_no_gaps",
    "C38_ends",
    "C38_small_window_partial",
    "C38_open",
    "C38_start_index_ignored",
    "C38_missed_refuted",
    "C38_gap_refuted",
    "C38_scan_count"
   ],
   "note": "Proved for every usage pattern of an unchanging chain: what a scan adds is exactly the used keys it counts past (scan_exact), all used keys of the first window are found (window, open), keys used without gaps are all found (no_gaps), scans end (ends), and with a window of one or two keys repeated scans find everything with gaps within the window (small_window). The full claim is false of the code and refuted: with the default window of 3 a used key is missed for ever although all gaps are within the window (missed_refuted), and unused keys in gaps are neither loaded nor handed out again (gap_refuted). Hypothesis: different keys have different addresses. Key indices beyond 2^64 are not modelled. C38_scan_count: the window of a new wallet."
  },
  {
   "property": "C39",
   "status": "proved",
   "theorems": [
    "C39_verify",
    "C39_verify_not_found",
    "C39_verify_spent",
    "C39_verify_given"
   ],
   "note": "C39_verify_given: a contract passed by the caller is checked without a look at the chain, also not for being spent."
  },
  {
   "property": "C40",
   "status": "partial",
   "theorems": [
    "C40_redeem",
    "C40_refund_partial",
    "C40_refund_refuted",
    "C40_redeem_succeeds",
    "C40_refund_succeeds",
    "C40_refused",
    "C40_redeem_works",
    "C40_refund_works"
   ],
   "note": "Redeem proved; refund proved for wallets that do not own the receiver's key, refuted for a wallet that owns both keys (it signs the refund with the receiver's key). C40_redeem_works and C40_refund_works have no hypothesis about encodings."
  },
  {
   "property": "C41",
   "status": "proved",
   "theorems": [
    "C41_price",
    "C41_months",
    "C41_monotone_names",
    "C41_monotone_update",
    "C41_monotone_months",
    "C41_discount_cheaper"
   ],
   "note": "C41_discount_cheaper: 12 months cost less than 11, 24 less than 23."
  },
  {
   "property": "C42",
   "status": "partial",
   "theorems": [
    "C42_limits",
    "C42_full_refused",
    "C42_added",
    "C42_months_refused",
    "C42_registration_read",
    "C42_update_read",
    "C42_transfer_read",
    "C42_transfer_setter_refuted",
    "C42_parsing_refuted"
   ],
   "note": "Proved for every sequence of assignments and additions; a name transfer is read back once both parties signed. The names setter of a name transfer appends (refuted as a setter). Parsed JSON is not checked against the limits."
  },
  {
   "property": "C43",
   "status": "proved",
   "theorems": [
    "C43_accepts",
    "C43_decodable",
    "C43_distinct",
    "C43_text",
    "C43_mapped",
    "C43_copy_refuted",
    "C43_number"
   ],
   "note": "The standard library's ipaddress enters as a parameter with the contract ip_library (shown satisfiable). C43_copy_refuted: a NetworkAddress holding an IP address is not accepted as value. C43_number: which numbers are addresses, and of which kind and bytes."
  },
  {
   "property": "C44",
   "status": "partial",
   "theorems": [
    "C44_digits_partial",
    "C44_bytes",
    "C44_accepted_valid_partial",
    "C44_sign_refuted",
    "C44_empty_refuted",
    "C44_blank_refuted",
    "C44_derived",
    "C44_valid_texts",
    "C44_valid_accepted",
    "C44_accepted_texts"
   ],
   "note": "Agreement proved for bytes and for texts of hexadecimal digits; refuted in general in both directions (signs, underscores; blanks, empty text). C44_valid_texts, C44_valid_accepted and C44_accepted_texts say exactly which texts are valid and which are accepted."
  },
  {
   "property": "C45",
   "status": "partial",
   "theorems": [
    "C45_get",
    "C45_post",
    "C45_answer",
    "C45_unavailable",
    "C45_working_partial",
    "C45_working_refuted",
    "C45_address_refuted",
    "C45_constructor"
   ],
   "note": "Every part but 'uses a working explorer': an explorer that fails with an error status, or an unusable address, hides working ones (refuted); proved when the others are silent."
  },
  {
   "property": "C46",
   "status": "partial",
   "theorems": [
    "C46_attached",
    "C46_unchanged",
    "C46_mismatch",
    "C46_conversion_refuted",
    "C46_accepts"
   ],
   "note": "Proved for all versions but 209, whose output never gets its id (refuted). C46_accepts: every answer that tells a printable transaction, of any version and in any signing state, is read, and as told."
  },
  {
   "property": "C47",
   "status": "partial",
   "theorems": [
    "C47_found",
    "C47_roles",
    "C47_finds",
    "C47_order_partial",
    "C47_same_block_refuted",
    "C47_unconfirmed_spend_refuted",
    "C47_spend_unchecked_refuted",
    "C47_conversion_refuted",
    "C47_which"
   ],
   "note": "What is returned is right for honest answers; that it is found in every order holds for different heights and is refuted for equal heights, unconfirmed spends and conversions from ERC20. C47_which says which of two transactions is taken for the creation, for all heights an explorer may tell (numbers, booleans, texts)."
  },
  {
   "property": "C48",
   "status": "proved",
   "theorems": [
    "C48_newest_first",
    "C48_read",
    "C48_outside_domain"
   ],
   "note": "For every answer whose heights are below sys.maxsize (2^63 - 1), as those of the chain are, with stability; beyond it the order is wrong (C48_outside_domain). C48_read: every answer that tells a history is read, as told."
  },
  {
   "property": "C49",
   "status": "partial",
   "theorems": [
    "C49_balance_partial",
    "C49_outputs_partial",
    "C49_counted_once_partial",
    "C49_context",
    "C49_conversion_refuted",
    "C49_definition_refuted"
   ],
   "note": "Proved for histories listed newest first in which ids tell outputs apart; refuted for conversions from ERC20 (no ids) and for multi-signature addresses with mint definitions."
  },
  {
   "property": "C50",
   "status": "proved",
   "theorems": [
    "C50_roundtrip",
    "C50_meaning",
    "C50_seconds",
    "C50_refused",
    "C50_bad_number",
    "C50_distinct",
    "C50_outside_domain",
    "C50_negative_outside_domain"
   ],
   "note": "For every number of seconds below 86400*10^9, which is all Python's timedelta holds; every larger number prints but the text raises OverflowError (C50_outside_domain), and negative numbers print a time of day (C50_negative_outside_domain). Also proved: the meaning of every text of whole numbers, which texts are refused, and that different numbers print differently. float and timedelta are a parameter with the contract td_library (an instance is shown to meet it); fractional numbers are left to it."
  },
  {
   "property": "C51",
   "status": "proved",
   "theorems": [
    "C51_builder_once",
    "C51_builder_outputs"
   ],
   "note": ""
  },
  {
   "property": "C52",
   "status": "proved",
   "theorems": [
    "C52_dispatch",
    "C52_unknown",
    "C52_all_known",
    "C52_not_a_dictionary"
   ],
   "note": "JSON floats are not modelled; the JSON value true counts as version 1, as in Python."
  },
  {
   "property": "C53",
   "status": "partial",
   "theorems": [
    "C53_signs_what_it_owns_partial",
    "C53_foreign_untouched",
    "C53_single",
    "C53_multi",
    "C53_reported",
    "C53_does_not_fail_partial",
    "C53_same_key_refuted",
    "C53_nil_owner_refuted",
    "C53_swap_refuted",
    "C53_works_partial"
   ],
   "note": "Proved for transactions that are not legacy: what is signed, what is reported, and that signing succeeds when the wallet's keys asked of one input differ. Refuted: name transfer between bots of one key, a multi-signature input with the nil address as owner, both sides of an atomic swap. C53_works_partial: the data to sign can be computed for every transaction that fits into its encoding."
  },
  {
   "property": "C54",
   "status": "partial",
   "theorems": [
    "C54_setter",
    "C54_setter_accepts",
    "C54_setter_refuses",
    "C54_parsing_refuted"
   ],
   "note": "Holds for assignment; parsed transactions have no limit (refuted)."
  },
  {
   "property": "C55",
   "status": "partial",
   "theorems": [
    "C55_fixed_size_partial",
    "C55_wrong_size_refused",
    "C55_size_from_value",
    "C55_empty_hash_refuted",
    "C55_zero_hash_text",
    "C55_json_round_trip",
    "C55_hash_object"
   ],
   "note": "Size is the declared one or zero; that zero is possible is refuting the full claim."
  },
  {
   "property": "C56",
   "status": "partial",
   "theorems": [
    "C56_accepts",
    "C56_newline_refuted",
    "C56_decodable",
    "C56_json"
   ],
   "note": "Exact but for a trailing line feed, which is accepted (refuted)."
  },
  {
   "property": "C57",
   "status": "proved",
   "theorems": [
    "C57_coins_new",
    "C57_definition_set",
    "C57_mints",
    "C57_defines",
    "C57_none"
   ],
   "note": " C57_mints and C57_defines: whoever asks gets a transaction, and it is sent exactly if the wallet has the keys the condition in force demands."
  },
  {
   "property": "C58",
   "status": "partial",
   "theorems": [
    "C58_ids",
    "C58_no_id_refuted",
    "C58_parsed_refuted"
   ],
   "note": "Equality is that of identifiers where both are set (assuming Python's str hash does not collide); refuted for built transactions (NameError) and for transactions parsed without id (all equal)."
  },
  {
   "property": "C59",
   "status": "proved",
   "theorems": [
    "C59_derivation",
    "C59_total",
    "C59_keys"
   ],
   "note": "The bytes hashed for a private key determine seed and index, for all seeds (of any length) and indices; the hash is a parameter; C59_keys: two keys are the same only for the same seed and index, or if the hash collides on two texts that are shown."
  },
  {
   "property": "C60",
   "status": "proved",
   "theorems": [
    "C60_new_address",
    "C60_distinct",
    "C60_never_lost",
    "C60_primary",
    "C60_scan_errors",
    "C60_unseen",
    "C60_addresses",
    "C60_collision"
   ],
   "note": "For every reachable wallet: opened with any arguments against any explorer answers, then any sequence of new addresses and scans. Hypothesis: different keys have different addresses (no hash collision). C60_addresses: what listing the addresses gives; C60_collision: without the assumption that addresses do not collide."
  },
  {
   "property": "C61",
   "status": "partial",
   "theorems": [
    "C61_says",
    "C61_relative",
    "C61_calendar",
    "C61_impossible_day",
    "C61_impossible_time",
    "C61_dashes",
    "C61_duration",
    "C61_duration_printed",
    "C61_date_time",
    "C61_date_minutes",
    "C61_date_only",
    "C61_this_year",
    "C61_shown",
    "C61_time_only_refuted",
    "C61_early_refuted"
   ],
   "note": "Proved for every documented form: '+duration', '-4h', dates year first (four or two digits), day first or without year, with fields of one or two digits, with no time of day or h:m, h:m:s, by 24 hours or am/pm; days and times that do not exist are refused; and for printing and reading back. strptime is modelled (Strptime.v); mktime, localtime and int(float*k) are parameters. Partial because the claim is false of the code in two cases: a time of day alone, given as an example in the documentation, is refused; dates before 5 November 1985 become block heights."
  },
  {
   "property": "C62",
   "status": "partial",
   "theorems": [
    "C62_lookups",
    "C62_own",
    "C62_multisig_partial",
    "C62_amounts",
    "C62_succeeds_partial",
    "C62_both_owners_refuted",
    "C62_genesis_refuted"
   ],
   "note": "Own part and amounts proved for every history with real heights; multi-signature part without mint definitions in these histories. Availability is refuted for wallets owning two keys of one multi-signature wallet (AttributeError) and for a chain that has the genesis block only (ValueError), proved otherwise."
  },
  {
   "property": "C63",
   "status": "partial",
   "theorems": [
    "C63_transactions_partial",
    "C63_exact_partial",
    "C63_unused_refuted",
    "C63_new_wallet_refuted"
   ],
   "note": "Proved when all addresses were used; refuted otherwise: an unused address makes the call fail with ExplorerNoContent."
  },
  {
   "property": "C64",
   "status": "partial",
   "theorems": [
    "C64_asked",
    "C64_read",
    "C64_content",
    "C64_height_refuted"
   ],
   "note": "By id proved in full; by height everything but the height itself, which the client does not compare: refuted."
  },
  {
   "property": "C65",
   "status": "partial",
   "theorems": [
    "C65_last",
    "C65_read",
    "C65_printed",
    "C65_tells",
    "C65_no_block_refuted"
   ],
   "note": "Proved but for answers without blockid, for which a KeyError escapes (refuted for all of them)."
  },
  {
   "property": "C66",
   "status": "partial",
   "theorems": [
    "C66_no_key_error",
    "C66_absent",
    "C66_passed_on",
    "C66_null_refuted",
    "C66_null_block_refuted",
    "C65_no_block_refuted"
   ],
   "note": "Proved: no KeyError from any lookup but the blockchain info, ExplorerInvalidResponse when the thing asked for is missing, errors of the explorers passed on. The full claim is refuted: null instead of an empty list of transactions (what a Go explorer sends) raises TypeError."
  },
  {
   "property": "C67",
   "status": "partial",
   "theorems": [
    "C67_asks",
    "C67_refused",
    "C67_one_place",
    "C67_read",
    "C67_content",
    "C67_specifier_refuted",
    "C67_empty_refuted",
    "C67_other_refuted"
   ],
   "note": "Proved but for: the exception for some texts with a colon is InvalidPublicKeySpecifier, the empty text is asked for as a key, and the record is not compared with the identifier (refuted). ipaddress is a parameter with the contract ip_library."
  },
  {
   "property": "C68",
   "status": "proved",
   "theorems": [
    "C68_asks",
    "C68_refused",
    "C68_read",
    "C68_content"
   ],
   "note": "For every network condition (Spec_Types.v)."
  },
  {
   "property": "C69",
   "status": "partial",
   "theorems": [
    "C69_only_keys",
    "C69_text",
    "C69_read",
    "C69_unregistered",
    "C69_agrees",
    "C69_other_refuted"
   ],
   "note": "Proved but for the comparison of the address told with the one asked for, which the client does not make: refuted."
  },
  {
   "property": "C70",
   "status": "proved",
   "theorems": [
    "C70_asked",
    "C70_read",
    "C70_other",
    "C70_put"
   ],
   "note": "For every id and answer."
  },
  {
   "property": "C71",
   "status": "proved",
   "theorems": [
    "C71_reads",
    "C71_one",
    "C71_any_count"
   ],
   "note": "Exact characterisation for all JSON values (floats are not modelled). C71_any_count notes what is not checked: the number of signatures against the number of owners."
  },
  {
   "property": "C72",
   "status": "proved",
   "theorems": [
    "C72_reads",
    "C72_one"
   ],
   "note": "Exact characterisation for all JSON values (floats are not modelled)."
  },
  {
   "property": "C73",
   "status": "partial",
   "theorems": [
    "C73_own",
    "C73_refused",
    "C73_all",
    "C73_all_fails",
    "C73_registered_key",
    "C73_nil_refuted"
   ],
   "note": "For every wallet and explorer. The claim that nothing else is accepted is false: any text beginning with 00 is taken for the primary address (C73_nil_refuted, true for every wallet); everything else is refused (C73_refused)."
  },
  {
   "property": "C74",
   "status": "partial",
   "theorems": [
    "C74_at_most_one",
    "C74_result",
    "C74_not_submitted",
    "C74_returns_partial",
    "C74_raise_means_nothing_refuted",
    "C74_own_multisig_refuted",
    "C74_submits"
   ],
   "note": "All operations and all behaviours of the explorers. That an operation which raises submitted nothing is false: the look-ups after the submission may fail (C74_raise_means_nothing_refuted), and coins sent to the owner's own multi-signature wallet by its address text always raise TypeError after the submission (C74_own_multisig_refuted). C74_returns_partial: when all involved outputs can be tracked and the look-ups work, it returns. C29 applies: at this commit the submission itself raises for every transaction; these theorems are about the code around it. C74_submits: a prepared transaction is submitted exactly when that is wanted, it is complete, and (signing a given one) there was something left to sign."
  },
  {
   "property": "C75",
   "status": "partial",
   "theorems": [
    "C75_sends",
    "C75_apart",
    "C75_text",
    "C75_erc20_forms",
    "C75_int_amount_refuted"
   ],
   "note": "For every argument value of the kinds the documentation names. The documented unit of an int amount (smallest unit, 1 == 0.000000001 TFT) is false: it is in TFT, a billion times more, whenever anything is sent (C75_int_amount_refuted)."
  },
  {
   "property": "C76",
   "status": "partial",
   "theorems": [
    "C76_spends_free",
    "C76_once",
    "C76_not_again",
    "C76_in_a_row_refuted"
   ],
   "note": "For every wallet, history and paying operation. Two operations in a row may spend the same output: the balance is looked up anew by each and the submitted transaction is not kept (C76_in_a_row_refuted); once the explorers tell of the first the second keeps away from what it spent (C76_not_again). The histories of multi-signature addresses are assumed to have no definition of the mint condition (its wallet reads then fail or differ: C47, C62)."
  },
  {
   "property": "C77",
   "status": "proved",
   "theorems": [
    "C77_send",
    "C77_send_many",
    "C77_contract",
    "C77_erc20_send",
    "C77_erc20_register",
    "C77_record_new",
    "C77_record_update",
    "C77_name_transfer",
    "C77_loaded",
    "C77_from_the_chain"
   ],
   "note": "Amounts within 1000 decimal digits, lists within a million, keys and hashes of 32 bytes. C77_loaded and C77_from_the_chain carry it over to the histories the explorers tell (outputs with conditions of the network, multi-signature histories without mint definitions)."
  },
  {
   "property": "C78",
   "status": "proved",
   "theorems": [
    "C78_contract",
    "C78_swap",
    "C78_once"
   ],
   "note": "The explorers' answer about the contract's output is a parameter (what output_get makes of answers is C47). The first wallet is assumed not to hold the receiver's key: for a wallet with both keys see C40_refund_refuted."
  },
  {
   "property": "C79",
   "status": "proved",
   "theorems": [
    "C79_signed",
    "C79_works",
    "C79_complete",
    "C79_order",
    "C79_submitted"
   ],
   "note": "Owners of one output different and none the nil address (otherwise C53_nil_owner_refuted), keys of 32 bytes. A wallet may lack knowledge of outputs it is no owner of. C79_submitted says precisely when the last wallet submits; a transaction all owners have signed before is not submitted any more by signing it."
  },
  {
   "property": "C80",
   "status": "proved",
   "theorems": [
    "C80_reads",
    "C80_one",
    "C80_unknown_field",
    "C80_unknown_data"
   ],
   "note": "An equivalence for every JSON value and every class of transaction. Amounts are read as of C08 (C08_json_rounds), addresses, keys and hexadecimal digits by the functions of C10, C12 and C14."
  },
  {
   "property": "C81",
   "status": "proved",
   "theorems": [
    "C81_add",
    "C81_add_all",
    "C81_add_array",
    "C81_add_slice",
    "C81_add_int",
    "C81_add_byte",
    "C81_int_refused",
    "C81_refused",
    "C81_leftover",
    "C81_one"
   ],
   "note": "Equivalences for every value. The length before a text counts its characters, as the code does (that a reader needs the number of bytes is C04). C81_leftover: a refused text leaves its length in the encoder, which no documentation excludes."
  },
  {
   "property": "C82",
   "status": "proved",
   "theorems": [
    "C82_text",
    "C82_one_amount",
    "C82_float",
    "C82_json",
    "C82_whole",
    "C82_stakes"
   ],
   "note": "Equivalences for every text. Blanks, digits and letters other than ASCII ones, which Python also knows, and the overflow of exponents beyond 10^18 are not modelled."
  },
  {
   "property": "C83",
   "status": "proved",
   "theorems": [
    "C83_hash",
    "C83_signature",
    "C83_secret",
    "C83_key",
    "C83_address",
    "C83_one_address",
    "C83_address_json",
    "C83_number",
    "C83_binary",
    "C83_elements",
    "C83_amount_json",
    "C83_packed"
   ],
   "note": "Equivalences for every text and JSON value. The checksum of the address of nobody is not looked at, as the statement says (C13_nil_checksum_refuted). Digits other than ASCII ones in the type of an address, which Python's int also reads, are not modelled."
  },
  {
   "property": "C84",
   "status": "proved",
   "theorems": [
    "C84_key",
    "C84_address_bytes",
    "C84_condition",
    "C84_fulfilment",
    "C84_key_address",
    "C84_condition_address",
    "C84_printed",
    "C84_encoding",
    "C84_signed",
    "C84_id",
    "C84_output_id",
    "C84_one"
   ],
   "note": "Equivalences for every value and every hash function (C84_printed: for hashes that are bytes). The order of the owners is by what str prints, given exactly by C84_printed. Two peculiarities of the code are part of the layout and described there: a count of addresses or names over 15 overlaps the other count in its byte, and an identifier of a block stake output is refused by the number of coin outputs (C27)."
  },
  {
   "property": "C85",
   "status": "partial",
   "theorems": [
    "C85_done",
    "C85_unchanged",
    "C85_stopped",
    "C85_unchanged_refuted",
    "C85_reachable",
    "C85_limits",
    "C85_names_refuted",
    "C85_input_refuted",
    "C85_copy",
    "C85_copy_refuted",
    "C85_new"
   ],
   "note": "Success, effect and the reachable transactions are equivalences for every version, operation and value. False in the code, and so stated as refutations with what holds instead: a refused assignment of a list keeps the elements before the refused one (C85_stopped); the names of a name transfer are added to those there are; no input can be added to a new address registration or name transfer before its inputs were assigned; assigning inputs with an unknown parent output makes them inputs of an output of nothing, which changes whether the transaction counts as signed, though not its bytes, identifier or signed data (C85_copy). Assigning a property another version has does nothing (ignored). Sharing of objects between transactions is not modelled."
  },
  {
   "property": "C86",
   "status": "partial",
   "theorems": [
    "C86_one",
    "C86_other",
    "C86_named",
    "C86_typed",
    "C86_default",
    "C86_told",
    "C86_raised",
    "C86_kinds",
    "C86_explorers",
    "C86_contacts",
    "C86_unknown",
    "C86_unknown_refuted",
    "C86_told_unknown",
    "C86_type_refuted",
    "C86_type"
   ],
   "note": "All but the last sentence is proved for every name, answer and network behaviour. The refusal of unknown names and types is false in the code: an unknown name is taken as none, so the client works on the standard network (C86_unknown, C86_unknown_refuted); a network explorers tell that is unknown leaves the client without one (C86_told_unknown); an unknown type talks to the explorer of devnet with the fees of the standard network (C86_type_refuted). C86_type: what happens with every type that is none of the three."
  },
  {
   "property": "C87",
   "status": "proved",
   "theorems": [
    "C87_made",
    "C87_output",
    "C87_other",
    "C87_equal",
    "C87_equal_texts",
    "C87_secret",
    "C87_text",
    "C87_tells",
    "C87_shown",
    "C87_same_text"
   ],
   "note": "C87_text is an equivalence with Spec_Contract. C87_equal: for complete addresses and hashes; C87_equal_texts: for any. The text is specified where the local time of the refund has a year that is not negative (showable); the conversion to local time is a parameter."
  },
  {
   "property": "C88",
   "status": "partial",
   "theorems": [
    "C88_balance",
    "C88_wallets",
    "C88_tells",
    "C88_wallet_tells",
    "C88_all_tell",
    "C88_addressed",
    "C88_addressed_add",
    "C88_addressed_merge",
    "C88_address_shown",
    "C88_context_refuted"
   ],
   "note": "Equivalences with Spec_Balance for every balance, the amounts of each balance at its own height and time. That the amounts of a multi-signature wallet are those at the height and time in the first line is false in the code: one first seen in a transaction of the wallet itself has no height and time, so that its locked outputs are shown as available (C88_context_refuted). C88_addressed is for balances grown by adding outputs and merging."
  },
  {
   "property": "C89",
   "status": "proved",
   "theorems": [
    "C89_condition",
    "C89_fulfilment",
    "C89_input",
    "C89_output",
    "C89_transaction",
    "C89_one"
   ],
   "note": "Equivalences with Spec_Print (documents as lists of named fields with predicates on their values) for all objects whose byte strings consist of bytes. The text of an IP address is Python's ipaddress (a parameter). The version is the TransactionVersion object itself, see C29."
  },
  {
   "property": "C90",
   "status": "proved",
   "theorems": [
    "C90_balance",
    "C90_succeeds",
    "C90_moves",
    "C90_send",
    "C90_operates",
    "C90_run",
    "C90_pays"
   ],
   "note": "About chains without conversions from ERC20 (their outputs never get identifiers in the library, refuted in C46/C49), and operations paid by the wallet's own addresses. Outputs that no transaction made (genesis, block rewards) may be spent in the chain, but are not counted by the library. The chain is assumed to give fresh identifiers to new outputs."
  },
  {
   "property": "C91",
   "status": "partial",
   "theorems": [
    "C91_opens",
    "C91_recovers",
    "C91_same",
    "C91_spends",
    "C91_gap_refuted"
   ],
   "note": "Proved when the keys after the first key_count ones are used without gaps, or when all used keys are in the first window; otherwise the claim is false (C91_gap_refuted, and C38_missed_refuted): with gaps shorter than the window coins can be missed. Assumes that no two addresses of the seed are the same, and explorers that show the chain. Chains without conversions from ERC20."
  },
  {
   "property": "C92",
   "status": "partial",
   "theorems": [
    "C92_addresses",
    "C92_balance",
    "C92_succeeds_partial",
    "C92_moves",
    "C92_run",
    "C92_operates",
    "C92_poisoned_refuted"
   ],
   "note": "Proved for chains without new definitions of who may create coins (C49_definition_refuted) and without conversions from ERC20. There is not always a balance: C92_poisoned_refuted (anyone who pays to the address of a multi-signature wallet, given as text, makes the balance of all its co-owners fail) and C62_both_owners_refuted (a wallet with two of the owners' addresses); in all other cases there is (C92_succeeds_partial)."
  },
  {
   "property": "C93",
   "status": "partial",
   "theorems": [
    "C93_data",
    "C93_data_text",
    "C93_data_bytes",
    "C93_data_other",
    "C93_data_differs",
    "C93_data_equivalence",
    "C93_data_hashes",
    "C93_hash_texts_partial",
    "C93_hash_texts_refuted",
    "C93_address",
    "C93_address_text",
    "C93_address_other",
    "C93_address_differs",
    "C93_address_hashes",
    "C93_address_texts_partial",
    "C93_address_texts_refuted"
   ],
   "note": "Objects that print the same are equal: proved of whole hashes and addresses; false of the empty hash and the default address, which print like 32 zeros and are not equal to them (refuted)."
  },
  {
   "property": "C94",
   "status": "proved",
   "theorems": [
    "C94_lookup",
    "C94_spend",
    "C94_secret",
    "C94_claims",
    "C94_made",
    "C94_run",
    "C94_fate",
    "C94_safe",
    "C94_works",
    "C94_gone",
    "C94_exchange"
   ],
   "note": "The histories are those of wallets of the library (trade in Spec_Trade.v); consensus, which has to reject transactions that double spend or lack signatures, is not modelled, a transaction is only recorded when its outputs' ids are new. A spend that waits, or is in the same block as the contract, may make the lookup fail (C47); that is why C94_secret and the second half of C94_gone ask for a later block."
  },
  {
   "property": "C95",
   "status": "proved",
   "theorems": [
    "C95_proposal",
    "C95_signed",
    "C95_submitted",
    "C95_settles",
    "C95_affords",
    "C95_works"
   ],
   "note": "Consensus is not modelled: a transaction is recorded as C90 has it, here on a ledger on which its outputs are still unspent. wallet_of asks that whatever pays to the text of the shared wallet's address is a multi-signature condition of its owners (C92_poisoned_refuted shows why)."
  },
  {
   "property": "C96",
   "status": "proved",
   "theorems": [
    "C96_signed",
    "C96_works",
    "C96_complete",
    "C96_quorum",
    "C96_order",
    "C96_submitted",
    "C96_proposal"
   ],
   "note": "Completeness is the code's own test: it counts signatures of whoever was a minter when signing, so that after a change of the mint condition those of former minters count on (C96_former is an example)."
  },
  {
   "property": "C97",
   "status": "proved",
   "theorems": [
    "C97_get",
    "C97_post",
    "C97_put",
    "C97_lookups",
    "C97_wallet",
    "C97_explorers"
   ],
   "note": "Endpoints are paths of visible characters without ? # ;. All endpoints of the client are, except those of 3Bots looked up by odd text (hypothesis tidy_bot; exht_untidy shows why). Python's urlparse and urlunparse are modelled; urlencode of a query is a parameter, not reached for plain endpoints."
  }
 ]
}