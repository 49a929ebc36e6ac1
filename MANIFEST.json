{"claims": [
{"property": "C01", "status": "proved", "theorems": ["C01_bits_from_iterable", "C01_bits_from_buffer", "C01_bits_from_buffer_default_length", "C01_bits_is_a_sequence"], "note": "All iterables, buffers, integer lengths and indices."},
{"property": "C02", "status": "proved", "theorems": ["C02_bits_slice_is_list_slice", "C02_slice_errors"], "note": "All start/stop/step including negative and None."},
{"property": "C03", "status": "proved", "theorems": ["C03_bits_eq_iff_same_bits"], "note": ""},
{"property": "C04", "status": "proved", "theorems": ["C04_bits_add_is_append", "C04_bits_invert_is_negation"], "note": ""},
{"property": "C05", "status": "proved", "theorems": ["C05_bits_startswith_iff_prefix", "C05_bits_common_prefix_longest"], "note": ""},
{"property": "C06", "status": "proved", "theorems": ["C06_bits_encoding_canonical_prefix_free"], "note": ""},
{"property": "C07", "status": "partial", "theorems": ["C07_bits_roundtrip_refuted", "C07_bits_roundtrip_empty_refuted", "C07_bits_roundtrip_partial"], "note": "The full claim is false of the code (witnesses: eight 1 bits, empty Bits). Proved: exactly which sequences survive, and the error otherwise."},
{"property": "C08", "status": "partial", "theorems": ["C08_bits_operators_partial", "C08_bits_unordered_partial", "C08_bits_operators_same_length_partial", "C08_bits_order_total_refuted", "C08_bits_order_lexicographic_refuted", "C08_bits_order_partial", "C08_bits_order_strict_partial"], "note": "The full claim is false of the code: Bits of different lengths can be neither equal nor ordered. Proved: total lexicographic order on equal lengths for all four operators; irreflexive and transitive on all values; all four operators on all values; two values are unordered exactly when they differ only in zeros at the end that do not fill a byte."},
{"property": "C09", "status": "proved", "theorems": ["C09_varuint_roundtrip", "C09_varuint_shortest", "C09_varuint_reader_meaning"], "note": ""},
{"property": "C10", "status": "partial", "theorems": ["C10_varuint_unique_refuted", "C10_varuint_unique_partial"], "note": "The full claim is false of the code: a zero final digit is accepted. Proved: unpadded encodings are unique."},
{"property": "C11", "status": "proved", "theorems": ["C11_primitive_roundtrip", "C11_primitive_deserialized_is_valid", "C11_declared_lengths", "C11_declared_length", "C11_declared_widths"], "note": ""},
{"property": "C12", "status": "proved", "theorems": ["C12_truncated_proof", "C12_primitive_truncated", "C12_bits_truncated"], "note": "Primitive serializers, Bits, transactions and all proof classes (proofs whose Bits survive serialization)."},
{"property": "C13", "status": "partial", "theorems": ["C13_exact_encodings_refuted", "C13_no_trailing_but_not_exact_refuted", "C13_exact_encodings_partial"], "note": "The full claim is false of the code: deserialize drops trailing bytes, and bool and padded varuints have several encodings. Proved: what is read starts with an encoding of the value that is at least as long as its serialization, and equal to it if it has that length. The exact grammar of what is read is in C79."},
{"property": "C14", "status": "proved", "theorems": ["C14_tagged_hash_binds", "C14_derived_tags_differ"], "note": "Equal or explicit SHA-256 collision."},
{"property": "C15", "status": "partial", "theorems": ["C15_roundtrip_refuted", "C15_roundtrip_partial", "C15_roundtrip_no_bits_partial"], "note": "The full claim is false of the code: a proof holding Bits that do not survive (C07), e.g. eight 1 bits, cannot be read back. Proved: exactly the proofs whose Bits survive round trip, and the error otherwise; in full for declarations without Bits."},
{"property": "C16", "status": "proved", "theorems": ["C16_hash_binds"], "note": "Equal, or an explicit SHA-256 collision between two byte strings hashed in the two computations; for any class declarations with distinct tags."},
{"property": "C17", "status": "proved", "theorems": ["C17_pruning_keeps_hash"], "note": "After any sequence of reads and serializations."},
{"property": "C18", "status": "proved", "theorems": ["C18_views_read_the_same"], "note": "Any path after any sequence of reads and serializations, including the hash of the proof read."},
{"property": "C19", "status": "partial", "theorems": ["C19_replay_refuted", "C19_replay_partial", "C19_replay_plain_partial"], "note": "The full claim is false of the code when a hidden sub-proof is a TxProof (no tag: its hash raises TypeError) or has variants (C21). Proved for all adaptive computations if what stays hidden is tagged and of the declared class, hence for all tagged classes without variants."},
{"property": "C20", "status": "proved", "theorems": ["C20_reveals_only_what_was_read", "C20_serializing_reveals_nothing"], "note": ""},
{"property": "C21", "status": "partial", "theorems": ["C21_variant_transport_refuted", "C21_variant_transport_partial", "C21_hidden_root_changes_hash_partial"], "note": "The full claim is false of the code: a hidden sub-proof with variants arrives as the base class and is refused. Proved: the exact outcome in every case."},
{"property": "C22", "status": "partial", "theorems": ["C22_is_pruned_refuted", "C22_is_pruned_partial", "C22_pruned_is_never_wrong_partial"], "note": "The full claim is false of the code for union-typed attributes. Proved: exact without unions; True is never wrong."},
{"property": "C23", "status": "partial", "theorems": ["C23_wrong_class_refuted", "C23_other_exceptions_refuted", "C23_history_refuted", "C23_constructor_partial", "C23_accepted_succeeds_partial", "C23_history_partial"], "note": "The full claim is false of the code (wrong proof class accepted, NameError/AttributeError, dependence on an instantiated superclass). Proved: exact for primitive, variant and union attributes; accepted values always succeed; independent of histories without such a superclass."},
{"property": "C24", "status": "proved", "theorems": ["C24_structure_is_canonical", "C24_documented_tree_is_unique"], "note": "Lists shorter than 2^63 (the longest Python list), items the value serializer accepts."},
{"property": "C25", "status": "proved", "theorems": ["C25_behaves_as_the_list", "C25_extending_keeps_items"], "note": "Same bounds as C24."},
{"property": "C26", "status": "partial", "theorems": ["C26_slice_refuted", "C26_slice_partial", "C26_slice_backwards_partial"], "note": "The full claim is false of the code when start is after stop (12 items, m[9:7] gives 2 items). Proved whenever the clamped start is not after the clamped stop; for the other case it is proved that the slice never raises, gives a documented MMR of consecutive items from the start on, and is empty when the stop is 0."},
{"property": "C27", "status": "proved", "theorems": ["C27_hash_binds_the_list"], "note": "Items that are themselves proofs are equal up to pruning; equal when complete."},
{"property": "C28", "status": "proved", "theorems": ["C28_no_contradictory_proofs"], "note": "Arbitrary objects: any length fields, any sub-trees pruned to any data hash. Also agreement of iteration."},
{"property": "C29", "status": "proved", "theorems": ["C29_is_perfect_tree"], "note": ""},
{"property": "C30", "status": "proved", "theorems": ["C30_behaves_as_the_map"], "note": "For every history of building from a dict, putting absent keys and removing: lookups, KeyError exactly when absent, length, items in prefix order; every step succeeds. Keys: any set with equal-length, injective prefixes whose == is Leibniz equality."},
{"property": "C31", "status": "proved", "theorems": ["C31_structure_is_documented", "C31_history_independent"], "note": "The tree is the documented construction (radix_tree: longest common prefixes) and two histories with the same entries give the identical tree object."},
{"property": "C32", "status": "partial", "theorems": ["C32_put_replaces_refuted", "C32_put_present_partial"], "note": "False of the code: put of a present key raises AssertionError (refuted with a witness). Proved instead: it always raises AssertionError; remove followed by put gives the documented result."},
{"property": "C33", "status": "proved", "theorems": ["C33_hash_binds_the_map"], "note": "Equal hashes imply equal maps (keys equal; values agree, equal when complete), or an explicit SHA-256 collision among the strings hashed."},
{"property": "C34", "status": "proved", "theorems": ["C34_no_contradictory_lookups"], "note": "For arbitrary objects holding values of the declared types, malformed or pruned anywhere: two answers agree; a value and KeyError cannot both occur; or an explicit collision."},
{"property": "C35", "status": "proved", "theorems": ["C35_issubset"], "note": "issubset terminates with a boolean that is true exactly for map inclusion, for all trees reachable by histories, or an explicit collision (equality of nodes is by hash)."},
{"property": "C36", "status": "proved", "theorems": ["C36_txhash_is_the_txid", "C36_proof_hash_determines_txid"], "note": "txhash is sha256(sha256(serialized tx)) on the proof and on every pruned view whatever was read through it; equal proof hashes give equal txids, and equal transactions or an explicit double SHA-256 collision."},
{"property": "C37", "status": "proved", "theorems": ["C37_txin_verify_means_index_in_range", "C37_txout_verify_means_index_in_range", "C37_same_on_views"], "note": "For every object of the class (also pruned ones): verify succeeds iff the transaction is there and the index in range, and then txin/txout is that element; all methods give the same outcome on views."},
{"property": "C38", "status": "proved", "theorems": ["C38_witness_verify_meaning", "C38_same_txid_is_same_transaction"], "note": "Exact meaning of verify for all objects of the class incl. pruned ones, which exceptions are raised otherwise, and equal txid means same transaction or explicit collision."},
{"property": "C39", "status": "proved", "theorems": ["C39_verify_hash_meaning", "C39_one_output_one_digest"], "note": "Exact meaning of verify_hash (three scripts byte for byte); two accepted digests are equal or collide under Hash160."},
{"property": "C40", "status": "partial", "theorems": ["C40_seal_closes_over_two_digests_refuted", "C40_one_digest_per_closing_partial", "C40_exactly_the_committed_partial", "C40_at_most_the_outputs_partial"], "note": "False: a transaction with two committing outputs gives valid witnesses for two digests (refuted). Proved: the digests a seal can be closed over with one transaction are exactly those its outputs commit to, so at most as many as outputs; one for witnesses of the same output or single-output transactions."},
{"property": "C41", "status": "proved", "theorems": ["C41_fake_witness_accepts_its_digest", "C41_from_hash", "C41_seal_hash_binds_digest"], "note": "Acceptance iff the seal commits to the digest; from_hash; seal hash binds the digest or explicit collision."},
{"property": "C42", "status": "proved", "theorems": ["C42_template_closes_every_seal", "C42_commands_close_every_seal", "C42_duplicate_seal_refused", "C42_unspent_seal_refused", "C42_verifywitness_meaning"], "note": "For the library (any dust) and for the commands mkclosetx/mkwitness/verifywitness on files; also duplicates refused, unspent seals refused, exact meaning of verifywitness. NoDup seals for the command, alternatively an explicit SHA-256 collision of two seals."},
{"property": "C43", "status": "partial", "theorems": ["C43_mkseal_refuted", "C43_seal_with_nonce_partial"], "note": "False of the code: mkseal raises KeyError for every outpoint because no nonce is given (refuted). Proved for seals made with a 16 byte nonce: file is accepted by sealinfo and mkclosetx."},
{"property": "C44", "status": "proved", "theorems": ["C44_verify_meaning", "C44_leaf_from_unused_verifies", "C44_inner_from_unused_verifies", "C44_from_children_verifies"], "note": "Exact meaning of verify for the three node kinds, also on pruned views; the three constructors produce verifying nodes for every honest witness maker. Witness class and its verify_hash are parameters."},
{"property": "C45", "status": "proved", "theorems": ["C45_contents_bound_by_fake_seal", "C45_contents_bound_by_output"], "note": "For fake seals of equal hash, and for nodes closed by the same transaction output; same contents or an explicit collision."},
{"property": "C46", "status": "partial", "theorems": ["C46_ledger_agreement_partial", "C46_maps_disagree_refuted", "C46_verified_everywhere_refuted", "C46_agreement_partial", "C46_fake_agreement_partial"], "note": "False: verify checks only the root, and even with every node verified keys are not tied to their place (both refuted). Proved for maps verified everywhere with keys in place, when no seal is closed twice; for fake seals closing twice is reduced to a collision, for Bitcoin seals to a double spend, a second commitment in the transaction, or a collision."},
{"property": "C47", "status": "proved", "theorems": ["C47_outpoint_roundtrip", "C47_txin_roundtrip", "C47_txout_roundtrip", "C47_tx_roundtrip", "C47_deserialized_is_wellformed"], "note": ""},
{"property": "C48", "status": "proved", "theorems": ["C48_serialization_injective", "C48_txid_binds"], "note": "Equal or explicit double-SHA-256 collision."},
{"property": "C49", "status": "proved", "theorems": ["C49_compactsize_roundtrip", "C49_compactsize_out_of_range"], "note": ""},
{"property": "C50", "status": "partial", "theorems": ["C50_script_parse_refuted", "C50_script_parse_partial", "C50_script_parse_exact", "C50_script_number_roundtrip", "C50_script_number_meaning", "C50_script_parse_errors"], "note": "The full claim is false of the code: the integer 0 comes back as empty data. Proved: what every item comes back as, and which come back unchanged."},
{"property": "C51", "status": "partial", "theorems": ["C51_append_to_pruned_refuted", "C51_extend_pruned_partial"], "note": "The full claim is false of the code: an MMR received with a pruned root is of the base class and append returns a one-element MMR. Proved: with any sub-trees pruned inside (root of its own class), extending raises PrunedError or gives a pruned form of the extended MMR with its hash."},
{"property": "C52", "status": "partial", "theorems": ["C52_txhash_of_received_pruned_proof_refuted", "C52_txhash_of_pruned_proof_partial"], "note": "False: after transport txhash raises TypeError (refuted, for every data hash). Proved for locally pruned proofs."},
{"property": "C53", "status": "partial", "theorems": ["C53_shown_outpoint_reads_back_partial", "C53_witnessinfo_outpoint_refuted"], "note": "False for witnessinfo: the hash is printed in the other byte order (refuted, characterised exactly). Proved for sealinfo."},
{"property": "C54", "status": "proved", "theorems": ["C54_hex_reads_back", "C54_digest_argument_has_32_bytes"], "note": "All byte strings; ParseDigestArg accepts exactly hex of 32 bytes."},
{"property": "C55", "status": "proved", "theorems": ["C55_deserialized_proofs_are_well_typed", "C55_classes_with_variants"], "note": "For every class and every byte string; for a class with variants the only other result is a pruned proof of that class."},
{"property": "C56", "status": "partial", "theorems": ["C56_pruned_witness_verifies_again_refuted", "C56_pruned_witness_with_digest_partial"], "note": "False: after prune, verify, transport, verify raises TypeError (refuted). Proved when verify_hash was run too: the receiver gets the complete witness and both verifications succeed."},
{"property": "C57", "status": "partial", "theorems": ["C57_unclosed_seal_accepted_refuted", "C57_closed_seal_partial"], "note": "False: verify of a node never calls verify of its witness (refuted). Proved when the witness is verified separately."},
{"property": "C58", "status": "proved", "theorems": ["C58_child_replaced"], "note": ""},
{"property": "C59", "status": "proved", "theorems": ["C59_header_roundtrip", "C59_block_roundtrip", "C59_deserialized_is_wellformed"], "note": "Header and block codec; wf_block is shown to hold of everything deserialization produces."},
{"property": "C60", "status": "proved", "theorems": ["C60_block_hash_binds"], "note": "No well-formedness hypothesis: passing CheckBlock implies it. Collisions are exhibited among the strings actually hashed for the two blocks."},
{"property": "C61", "status": "partial", "theorems": ["C61_merkle_root_binds_refuted", "C61_merkle_root_same_length_partial", "C61_merkle_root_distinct_partial", "C61_merkle_root_correct"], "note": "Full claim refuted ([a;b;c] and [a;b;c;c], with the absence of a collision proved). Proved: the tree ends in the merkle root; same length; lists without repetition up to the first id being an inner node of the other."},
{"property": "C62", "status": "proved", "theorems": ["C62_check_transaction", "C62_rejection"], "note": "Exact equivalence with a declarative record; rejection error for every serializable transaction."},
{"property": "C63", "status": "partial", "theorems": ["C63_every_transaction_checked_refuted", "C63_check_block_partial"], "note": "Full claim refuted: the first transaction is neither passed to CheckTransaction nor counted in the signature operations (block mined for regtest parameters as witness). The partial theorem is an equivalence saying exactly what acceptance means."},
{"property": "C64", "status": "partial", "theorems": ["C64_proof_of_work_refuted", "C64_proof_of_work_partial", "C64_short_target_raises"], "note": "Full claim refuted in both directions (sign bit ignored; fewer than three bytes gives ValueError). Proved for size >= 3 without sign bit, and ValueError for every shorter size."},
{"property": "C65", "status": "partial", "theorems": ["C65_only_validation_errors_refuted", "C65_only_validation_errors_partial"], "note": "Full claim refuted by a block with an output script ending inside a push (CScriptTruncatedPushDataError). Proved when the scripts outside the first transaction parse and nBits has size >= 3."},
{"property": "C66", "status": "partial", "theorems": ["C66_legacy_count", "C66_accurate_count_refuted", "C66_accurate_count_partial"], "note": "Legacy count proved. Accurate count refuted: AttributeError; proved exactly when it raises and that it is right otherwise."},
{"property": "C67", "status": "proved", "theorems": ["C67_base58_encode", "C67_base58_decode"], "note": "Bijection between byte strings and base58 texts, with the meaning of the text given by an independent positional notation."},
{"property": "C68", "status": "partial", "theorems": ["C68_checked_data_roundtrip", "C68_checked_data_canonical_refuted", "C68_checked_data_canonical_partial", "C68_checked_data_accepted", "C68_checked_data_refused"], "note": "Printing and parsing round trip proved for all data. Refuted: a text of four bytes can be accepted with the version byte also serving as checksum (text 3y6uvf), and does not print back to itself. Partial theorem covers all other texts, two more theorems give the exact set of accepted texts and the reason of each refusal."},
{"property": "C69", "status": "proved", "theorems": ["C69_address_text_roundtrip", "C69_address_text_accepted", "C69_address_networks", "C69_address_errors"], "note": "All three networks, arbitrary payloads and texts."},
{"property": "C70", "status": "partial", "theorems": ["C70_address_script_refuted", "C70_address_script_partial", "C70_script_address_script", "C70_redeem_script", "C70_other_network"], "note": "Refuted for payloads that are not 20 bytes long, which are accepted as text. Proved for 20 byte payloads, for all scripts, for redeem scripts and across networks."},
{"property": "C71", "status": "partial", "theorems": ["C71_payee_refuted", "C71_payee_partial", "C71_payee_only_partial", "C71_payee_errors", "C71_payee_strict"], "note": "Refuted for keys of 65 bytes: the address is the hash of the first 64 bytes. Proved in both directions for everything else, with the exact value for 65 byte keys."},
{"property": "C72", "status": "partial", "theorems": ["C72_secret_text_roundtrip", "C72_secret_text_accepted", "C72_secret_errors", "C72_secret_length_refuted"], "note": "Round trip and errors proved. Refuted: a text with a payload of another length is accepted as a secret key. Deriving the public key is OpenSSL and not modelled."},
{"property": "C73", "status": "proved", "theorems": ["C73_deletes_exactly", "C73_operations_unique", "C73_unsplittable"], "note": ""},
{"property": "C74", "status": "proved", "theorems": ["C74_hash_of_message", "C74_message_exists", "C74_message_unique", "C74_raw_bad_index", "C74_raw_single_bug"], "note": ""},
{"property": "C75", "status": "proved", "theorems": ["C75_commits", "C75_rest_is_free"], "note": ""},
{"property": "C76", "status": "partial", "theorems": ["C76_freeze_refuted", "C76_mutable_part_refuted", "C76_freeze_partial", "C76_thaw"], "note": "False for mutable inputs: CTxIn.from_txin calls COutPoint.from_txout, which does not exist, so CTransaction.from_tx fails on every mutable transaction with inputs (C76_freeze_refuted); and a mutable outpoint inside an immutable input is kept (C76_mutable_part_refuted). Holds for immutable inputs (C76_freeze_partial); mutable copies always work (C76_thaw). Object identity and aliasing are not modelled."},
{"property": "C77", "status": "partial", "theorems": ["C77_text_reads_back_partial", "C77_text_unique", "C77_one_meaning", "C77_negative_refuted"], "note": "False for negative amounts that are not whole coins (C77_negative_refuted: -1 satoshi is written -1.99999999). Holds for every amount that is not negative, without bound."},
{"property": "C78", "status": "proved", "theorems": ["C78_transactions", "C78_deserialize", "C78_outpoints"], "note": "Reader and grammar of texts agree on all byte strings, in both directions, for transactions and outpoints."},
{"property": "C79", "status": "proved", "theorems": ["C79_streams", "C79_deserialize", "C79_unambiguous"], "note": "Reader and grammar agree for every well-formed table of classes; the table's leaf types are those of serialize.py, Bits, transactions and outpoints."},
{"property": "C80", "status": "proved", "theorems": ["C80_evaluation"], "note": "ECDSA verification is an arbitrary function; stack entries shorter than 2^32 bytes and fewer than 2^31 of them. Cross-checked by hand against the comments in the source; numbers out of the 4 byte range, CODESEPARATOR and leaving out signatures included."},
{"property": "C81", "status": "proved", "theorems": ["C81_multisig", "C81_multisig_any", "C81_multisig_p2sh"], "note": "Bare and behind a script hash, with the exact set of keys the signatures cover (pushes equal to a signature are left out)."},
{"property": "C82", "status": "proved", "theorems": ["C82_EvalScript", "C82_VerifyScript", "C82_VerifySignature"], "note": "Input index any natural number; for VerifySignature any integer. Exceptions of OpenSSL are not modelled."},
{"property": "C83", "status": "partial", "theorems": ["C83_stack_refuted", "C83_stack_partial"], "note": "False: executed pushes skip the check (witness 1001 pushes). Proved for scripts ending in an operation other than a push."},
{"property": "C84", "status": "proved", "theorems": ["C84_limits"], "note": ""},
{"property": "C85", "status": "proved", "theorems": ["C85_unspendable"], "note": ""},
{"property": "C86", "status": "partial", "theorems": ["C86_VerifyScript", "C86_other_flag_refuted"], "note": "Exact for the flag of scripteval; refuted for the flag of the same name in bitcoin.core.script, which is ignored."},
{"property": "C87", "status": "proved", "theorems": ["C87_p2pkh", "C87_p2pkh_any"], "note": ""},
{"property": "C88", "status": "partial", "theorems": ["C88_VerifySignature_partial", "C88_p2sh_refuted"], "note": "Exact meaning proved without script hashes; refuted with them (no flags are passed on, anyone who knows the script can spend)."},
{"property": "C89", "status": "proved", "theorems": ["C89_conditional"], "note": "Branches with closed conditionals; one ELSE (several ELSE are covered by C80)."},
{"property": "C90", "status": "proved", "theorems": ["C90_p2sh"], "note": ""},
{"property": "C91", "status": "partial", "theorems": ["C91_missing_input_refuted", "C91_index_partial"], "note": "False for VerifyScript: a signature of the number one is good for every missing input of every transaction. VerifySignature checks the index."},
{"property": "C92", "status": "proved", "theorems": ["C92_no_false_negatives", "C92_insert", "C92_contains", "C92_unusable"], "note": "For every usable filter; the unusable ones (no bytes but hash functions) raise ZeroDivisionError, also proved."},
{"property": "C93", "status": "proved", "theorems": ["C93_order"], "note": "Equality of the whole filter, for any two insert sequences with the same byte strings."},
{"property": "C94", "status": "proved", "theorems": ["C94_murmur"], "note": "Against the published algorithm in arithmetic modulo 2^32 on a structural recursion over the data."},
{"property": "C95", "status": "partial", "theorems": ["C95_read_back_refuted", "C95_text_partial", "C95_nothing_is_read"], "note": "False of every filter: stream_deserialize uses an unassigned name, so it always raises (refuted for all filters and all byte strings). Partial: the text has the documented form and determines the filter."},
{"property": "C96", "status": "proved", "theorems": ["C96_limits", "C96_insert_keeps"], "note": "The floating-point expressions are arbitrary values (finite, infinite or nan) or exceptions; bits, size, tweak and flags of the result."},
{"property": "C97", "status": "proved", "theorems": ["C97_frame", "C97_body", "C97_sendable"], "note": "Frames and shortest bodies for all messages; the C library's reading of unusual IP texts is a parameter."},
{"property": "C98", "status": "proved", "theorems": ["C98_round_trip", "C98_from_bytes", "C98_streams", "C98_too_long"], "note": "Equivalence with the class of messages whose unsent attributes have their defaults; also for streams of messages."},
{"property": "C99", "status": "proved", "theorems": ["C99_accepted", "C99_unknown", "C99_from_bytes", "C99_unique"], "note": "Exact grammar of accepted streams, for messages and for None."},
{"property": "C100", "status": "partial", "theorems": ["C100_one_form_refuted", "C100_one_form_partial"], "note": "Refuted: bytes after the body, after the zero of the name and after the message are ignored. Proved: sending again is never longer and means the same."},
{"property": "C101", "status": "partial", "theorems": ["C101_takes_refuted", "C101_takes_partial"], "note": "Refuted: a negative length swallows the rest of the stream. Proved for lengths that are not negative."},
{"property": "C102", "status": "partial", "theorems": ["C102_resend_refuted", "C102_resend_partial", "C102_old"], "note": "Refuted: version messages below 209 cannot be sent on. Proved: only those, with the exception raised."},
{"property": "C103", "status": "proved", "theorems": ["C103_other_network", "C103_main_only"], "note": "All pairs of networks."},
{"property": "C104", "status": "proved", "theorems": ["C104_checksum"], "note": "For every frame with a wrong checksum; collisions of the 4-byte checksum are not excluded."},
{"property": "C105", "status": "proved", "theorems": ["C105_errors", "C105_from_bytes"], "note": "Four kinds of errors, each shown to occur."},
{"property": "C106", "status": "partial", "theorems": ["C106_alerts_refuted", "C106_numbers_refuted", "C106_envelope_partial"], "note": "Refuted for every alert and list of numbers. Proved for the alert message around it."},
{"property": "C107", "status": "proved", "theorems": ["C107_address", "C107_address_text", "C107_inv", "C107_locator", "C107_hashes", "C107_hashes_back"], "note": "Each part with the exact condition."},
{"property": "C108", "status": "proved", "theorems": ["C108_equal", "C108_kinds", "C108_hash"], "note": "For messages whose unsent attributes have their defaults."},
{"property": "C109", "status": "proved", "theorems": ["C109_objects_are_values"], "note": "Objects with references (Heap_Model) against values, for every program."},
{"property": "C110", "status": "proved", "theorems": ["C110_looks_again"], "note": "Same outcome and same reference after any program."},
{"property": "C111", "status": "proved", "theorems": ["C111_copy_in_place"], "note": "For every program, with the copy in place of the original."},
{"property": "C112", "status": "proved", "theorems": ["C112_only_reads"], "note": "For every program without attribute reads and every object."},
{"property": "C113", "status": "proved", "theorems": ["C113_isolated"], "note": "For every interleaving of the owner of a copy and the others."},
{"property": "C114", "status": "partial", "theorems": ["C114_unpruned_refuted", "C114_unpruned_partial"], "note": "False for attributes declared with a union (witness); proved for tables without unions."},
{"property": "C115", "status": "partial", "theorems": ["C115_original_refuted", "C115_original_partial"], "note": "False for views of views (witness); proved for proofs that were deserialized or constructed without prune() having a part in it."},
{"property": "C116", "status": "proved", "theorems": ["C116_receiver_can_do_the_same"], "note": "For declarations without variants and TxProof, as the statement says; C19 refutes the others."},
{"property": "C117", "status": "partial", "theorems": ["C117_pruned_error_refuted", "C117_pruned_error_partial"], "note": "False (TypeError) before an instance of the class was made (witness); proved once there is a proof of the class that is not fully pruned."},
{"property": "C118", "status": "proved", "theorems": ["C118_one_request", "C118_numbers"], "note": "The node is an arbitrary function of all requests sent so far."},
{"property": "C119", "status": "proved", "theorems": ["C119_value_is_answered", "C119_error_is_raised"], "note": "Errors without message or number, which nodes do not send, raise KeyError or TypeError instead and are never returned as values."},
{"property": "C120", "status": "proved", "theorems": ["C120_arguments", "C120_readable"], "note": "For every method of Proxy and for methods called by name."},
{"property": "C121", "status": "proved", "theorems": ["C121_transaction", "C121_block", "C121_verbose", "C121_sign", "C121_unambiguous"], "note": "Both directions for the plain forms."},
{"property": "C122", "status": "proved", "theorems": ["C122_balance", "C122_received", "C122_info", "C122_info_without_wallet", "C122_info_without_fee"], "note": "Decimal arithmetic with 28 digits is modelled."},
{"property": "C123", "status": "proved", "theorems": ["C123_amount_arrives"], "note": "IEEE rounding of int to float and of the quotient is modelled; the text json.dumps prints is any number that reads as that float."},
{"property": "C124", "status": "partial", "theorems": ["C124_transaction_id_refuted", "C124_block_hash_refuted", "C124_honest_node_partial"], "note": "Refuted: the proxy does not look at the hash of what the node sends. Partial: nodes that send what was asked for."},
{"property": "C125", "status": "proved", "theorems": ["C125_lookup", "C125_unspent"], "note": "Exact characterisation; what http.client raises on a broken connection is arbitrary."},
{"property": "C126", "status": "proved", "theorems": ["C126_listunspent", "C126_gettxout"], "note": "Entries with distinct names, amounts below 10^28 units."},
{"property": "C127", "status": "proved", "theorems": ["C127_block_hash", "C127_mempool", "C127_sent_hash", "C127_address", "C127_validateaddress", "C127_as_it_came"], "note": ""},
{"property": "C128", "status": "partial", "theorems": ["C128_conf_proxy_refuted", "C128_conf_proxy_partial", "C128_settings_determined", "C128_no_connection"], "note": "False as stated: rpcuser and rpcpassword are put into a URL unquoted, so rpcuser=bob, rpcpassword=80/x connects to port 80 of host \"bob\" with credentials None:None. Proved for user and password without / ? # [ ] and tabs; the refusals are proved for all files."},
{"property": "C129", "status": "partial", "theorems": ["C129_url_proxy_refuted", "C129_url_proxy_partial", "C129_url_without_credentials"], "note": "False as stated: https without a port connects to port 80. Proved for all other URLs with a host name; URLs without credentials send None:None."},
{"property": "C130", "status": "proved", "theorems": ["C130_header_tells_credentials"], "note": "For all pairs of URLs with a host name."},
{"property": "C131", "status": "proved", "theorems": ["C131_files_are_kept", "C131_new_files"], "note": ""},
{"property": "C132", "status": "partial", "theorems": ["C132_failure_changes_nothing_refuted", "C132_mkseal_leaves_empty_file", "C132_failure_changes_nothing_partial", "C132_mkwitness_leaves_valid_witnesses"], "note": "False: mkseal always fails and leaves an empty file, mkwitness leaves the witnesses written before the failure. Proved for all other cases, and what mkwitness leaves are valid witnesses for the first seal files."},
{"property": "C133", "status": "proved", "theorems": ["C133_close_witness_verify"], "note": ""},
{"property": "C134", "status": "partial", "theorems": ["C134_txid_refuted", "C134_txid_partial"], "note": "False: the transaction the node sends is not compared with the id. Proved for a node that sends a transaction with that id."},
{"property": "C135", "status": "partial", "theorems": ["C135_seal_options_refuted", "C135_verifywitness_partial"], "note": "False: --seal-file and --seal-id are read and not used. Proved: exactly when verifywitness succeeds."},
{"property": "C136", "status": "proved", "theorems": ["C136_requests", "C136_dryrun"], "note": ""},
{"property": "C137", "status": "partial", "theorems": ["C137_no_conf_needed_refuted", "C137_no_command_without_conf", "C137_only_the_files_partial"], "note": "False: without bitcoin.conf no command works. Proved for runs with any usable bitcoin.conf."},
{"property": "C138", "status": "partial", "theorems": ["C138_key_from_secret_refuted", "C138_short_secret_text_refuted", "C138_key_from_secret_partial"], "note": "Refuted, also for texts: OpenSSL is told to read 32 bytes, so a shorter secret is followed by a zero byte and by what is in memory. Proved for 31 bytes and more, whatever OpenSSL does; bytes beyond 32 are ignored."},
{"property": "C139", "status": "proved", "theorems": ["C139_signs_and_verifies", "C139_refused", "C139_from_text"], "note": "For every library that meets the description of OpenSSL in Key_Spec.v (point of a secret, reading and writing points, valid signatures); the toy library of Key_Examples.v shows that the description can be met."},
{"property": "C140", "status": "partial", "theorems": ["C140_junk_refuted", "C140_junk_script_refuted", "C140_keys_partial"], "note": "Refuted in a library that, as OpenSSL does, leaves a point behind when reading fails: key.py and scripteval.py do not look at the result before verifying. Proved for bytes that are keys; is_fullyvalid tells which are, and addresses are made of keys only."},
{"property": "C141", "status": "proved", "theorems": ["C141_address_spends"], "note": "Except if the signature with its type byte is the hash of the key itself, which is cut out of the script before hashing."},
{"property": "C142", "status": "proved", "theorems": ["C142_script_spends"], "note": "Except if the signature with its type byte is the public key itself."},
{"property": "C143", "status": "proved", "theorems": ["C143_any_order", "C143_filling_in", "C143_signing"], "note": "For every signature check."},
{"property": "C144", "status": "proved", "theorems": ["C144_spend_p2pkh", "C144_spend_p2sh"], "note": "Under the exceptions of C141 and C142; the float amounts of the programs are given as the integers they become."},
{"property": "C145", "status": "partial", "theorems": ["C145_bootstrap_refuted", "C145_bootstrap_partial", "C145_short_chain", "C145_always_a_file", "C145_file_determines_blocks"], "note": "Refuted by a clock that shows the time of the start when a block has come: the program prints a speed and divides by zero. The rest is proved: what is written and asked, shorter chains, any node, the blocks are determined by the file."},
{"property": "C146", "status": "partial", "theorems": ["C146_timestamps_refuted", "C146_timestamps_partial", "C146_always_fails"], "note": "Refuted: at its line 58 the program uses a name it does not import, so it fails with NameError for the first digest and never publishes anything. Proved for all runs: nothing is published or printed, at most three requests that change no money are sent."},
{"property": "C147", "status": "partial", "theorems": ["C147_tx_text_refuted", "C147_tx_text_partial", "C147_tx_text_error_partial", "C147_tx_text_same_partial"], "note": "the full claim is refuted: an output of 3 satoshis comes back with 2. Proved: a transaction whose scripts parse comes back the same but for the spelling of pushes and what floating point does to amounts; it is the same exactly if all scripts are spelled the shortest way and no amount changes; if some script cannot be parsed the text is no expression"},
{"property": "C148", "status": "partial", "theorems": ["C148_amount_refuted", "C148_amount_partial", "C148_whole_coins_partial", "C148_amount_pasted"], "note": "the full claim is refuted (3 satoshis give 2). Proved for all amounts up to the supply: the same or one satoshi less, whole coins exact"},
{"property": "C149", "status": "proved", "theorems": ["C149_script_text", "C149_canonical_pushes", "C149_canonical_text"], "note": "for all scripts that can be parsed, by induction on parsing and evaluation in a model of Python expressions"},
{"property": "C150", "status": "proved", "theorems": ["C150_bits_text", "C150_tag_text", "C150_base58_text", "C150_address_text", "C150_secret_text", "C150_pubkey_text"], "note": "for all objects; the reading of texts and evaluation are a separate specification of a part of Python's grammar"},
{"property": "C151", "status": "partial", "theorems": ["C151_header_text_refuted", "C151_header_text_partial", "C151_block_text_refuted", "C151_block_text_partial"], "note": "the full claim is refuted for every header: the hashes are printed without quotes, and the text never has a value; blocks with the same header print the same. Proved: the text determines the header"},
{"property": "C152", "status": "proved", "theorems": ["C152_difficulty", "C152_order", "C152_valid", "C152_sizes"], "note": "doubles as integers times powers of two, rounding half to even; scaling by powers of two is exact, so the loops give the nearest double; rounding keeps order"},
{"property": "C153", "status": "partial", "theorems": ["C153_printing_refuted", "C153_printing_partial", "C153_printing_error_partial", "C153_inventory_text", "C153_ping_text"], "note": "the full claim is refuted: an inventory with an entry of type 4 raises KeyError. Proved: exactly which received messages print (all but inventories with other types, version messages below 209 and times that ctime refuses) and what the others raise; texts of inventories and pings are injective"},
{"property": "C154", "status": "proved", "theorems": ["C154_script_reading_unique", "C154_raw_iter", "C154_script_iter", "C154_is_valid", "C154_is_push_only", "C154_is_p2sh", "C154_is_unspendable"], "note": "raw_iter and __iter__ yield exactly the maximal sequence of operations at the front of the string with their places; the two errors are characterised; the four predicates are characterised."},
{"property": "C155", "status": "proved", "theorems": ["C155_block_tree", "C155_block_tree_exists", "C155_tree_shape", "C155_tree_root", "C155_branch_complete", "C155_branch_sound"], "note": "vMerkleTree is the concatenation of the levels; it exists for every block made or read; branches taken from it are complete, and sound up to an explicit collision."},
{"property": "C156", "status": "partial", "theorems": ["C156_immutable_refuted", "C156_immutable_partial", "C156_mutable_partial", "C156_equal_partial", "C156_refused", "C156_made_partial"], "note": "Heap model of the transaction classes: C156_immutable_partial (objects immutable throughout: constant for every program, hashes are those of the serialization), C156_mutable_partial, C156_equal_partial, C156_refused, C156_made_partial (what reading and constructing gives). False for immutable objects with mutable parts: C156_immutable_refuted."},
{"property": "C157", "status": "partial", "theorems": ["C157_mutable_parts_refuted", "C157_copy_partial", "C157_copy_exists_partial", "C157_original_partial", "C157_untouched_partial"], "note": "C157_copy_partial, C157_copy_exists_partial, C157_original_partial, C157_untouched_partial prove all of the claim about from_tx; that every part of a mutable transaction can be changed is false of deserialized ones: C157_mutable_parts_refuted."},
{"property": "C158", "status": "proved", "theorems": ["C158_signature_hash"], "note": "Refinement of the computation on shared objects by the one on values, with a frame condition."},
{"property": "C159", "status": "proved", "theorems": ["C159_calls_and_batches", "C159_numbers"], "note": "Any sequence of calls and batches, any node. Arguments that json cannot encode are not modelled."},
{"property": "C160", "status": "proved", "theorems": ["C160_pasted_back", "C160_text_tells_the_items", "C160_pruned"], "note": "For items that can be written as literals. Items that are MMRs themselves are not covered; a class name is a Python identifier."},
{"property": "C161", "status": "proved", "theorems": ["C161_same_text", "C161_text_binds", "C161_pruned"], "note": "For classes that print with Proof.__repr__ (all but MMRs)."},
{"property": "C162", "status": "partial", "theorems": ["C162_names", "C162_values", "C162_other_kind", "C162_same_kind", "C162_rules_refuted", "C162_rules_partial", "C162_genesis_partial", "C162_without_work", "C162_messages_refuted"], "note": "False in two places. The class for mainnet derives from the class without values, so after SelectParams('mainnet') there is no limit and no genesis block, and every proof-of-work check raises (TypeError). Messages are written and read with mainnet's start bytes whatever is selected, as the default was made when the class was defined. The rest is proved for all sequences of calls."},
{"property": "C163", "status": "partial", "theorems": ["C163_funding_refuted", "C163_first_output_decides_partial", "C163_first_output_kept_partial", "C163_library_witness"], "note": "False as stated (C163_funding_refuted): mkwitness always points at the first output, so a change output put first gives witnesses that verify but are not accepted with the digest. Proved: mkwitness succeeds on every such transaction, its witnesses verify, and they are accepted with the digest exactly when the first output commits to it (C163_first_output_decides_partial); so everything but the first output may change (C163_first_output_kept_partial); the library can make accepted witnesses in every case (C163_library_witness)."},
{"property": "C164", "status": "partial", "theorems": ["C164_dictionary_refuted", "C164_immutable_class_refuted", "C164_dictionary_partial"], "note": "False as stated: a key that is changed after it was stored, directly (C164_dictionary_refuted) or through a mutable part of an immutable object (C164_immutable_class_refuted), loses its entry. Proved: if what is stored is immutable throughout (lookups and deletions also with objects of mutable classes), every program sees a map from kinds and contents to values, for every Python hash function (C164_dictionary_partial)."},
{"property": "C165", "status": "proved", "theorems": ["C165_proofs_as_keys"], "note": "The dictionary is the interpreter's, written from its documented behaviour (hash, then identity, then ==); Python's hash of byte strings is an arbitrary function. By C16 equal hashes mean equal contents, or there is a collision."},
{"property": "C166", "status": "proved", "theorems": ["C166_item_proof_is_short", "C166_no_item_proof_is_short", "C166_length_proof_is_short"], "note": "about what is sent: a reader refuses proofs with hidden nodes of a union class, see C21"},
{"property": "C167", "status": "proved", "theorems": ["C167_append_is_cheap"], "note": "counts calls of append, _merge_trees, is_perfect_tree and constructors"},
{"property": "C168", "status": "proved", "theorems": ["C168_outpoint_argument", "C168_one_outpoint", "C168_refused"], "note": ""},
{"property": "C169", "status": "proved", "theorems": ["C169_lookup_proof_is_short"], "note": "about what is sent, like C166"},
{"property": "C170", "status": "proved", "theorems": ["C170_parties_agree", "C170_no_pubkey", "C170_incomplete", "C170_restored"], "note": "For every OpenSSL that computes Diffie-Hellman as described in KeyEx_Spec.v. Parties agree for any secrets, forms, kdf and states of the objects the public keys are read into; when the exchange fails (iff); a CPubKey is refused; a restored private key does the same."},
{"property": "C171", "status": "proved", "theorems": ["C171_operations_are_cheap", "C171_bits_are_a_bound"], "note": "Counts of the calls of descend, put, remove, lookup and node constructors, for every history; the results are those of the uncounted methods."},
{"property": "C172", "status": "partial", "theorems": ["C172_closing_valid_refuted", "C172_closing_valid_partial"], "note": "Refuted for two seals on one output; what is proved is the exact condition for the printed transaction to pass CheckTransaction."},
{"property": "C173", "status": "proved", "theorems": ["C173_owners_close", "C173_only_owners"], "note": "Signatures are modelled by any library that signs and verifies correctly (Key_Spec.library). The signature with its type byte must not equal the hash of the key."},
{"property": "C174", "status": "partial", "theorems": ["C174_refused_as_malformed_refuted", "C174_refusals_partial", "C174_simple_classes_partial", "C174_seals_partial", "C174_old_seals"], "note": "Refuted for classes with attributes of other kinds; what is proved is which exceptions the declarations allow, and the claim itself for classes of numbers, byte strings, truth values and such classes."},
{"property": "C175", "status": "proved", "theorems": ["C175_reading_is_linear"], "note": "Counts the calls of ctx_deserialize of proof classes; time inside primitive readers is not counted."},
{"property": "C176", "status": "proved", "theorems": ["C176_no_contradictory_changes", "C176_changes_are_those_of_the_map"], "note": "Any two objects with equal hash, also malformed or pruned ones; values are hashable and of the declared kinds; key2prefix gives equal keys equal prefixes. The sending of pruned trees is the subject of C21."},
{"property": "C177", "status": "proved", "theorems": ["C177_no_contradictory_changes", "C177_changes_are_those_of_the_list"], "note": "for objects of any shape whose root is of one of the variant classes; equal hashes or an explicit collision"},
{"property": "C178", "status": "proved", "theorems": ["C178_no_contradictory_subsets", "C178_subsets_are_those_of_the_maps"], "note": "for objects of any shape, including those pruned as a whole; equal answers or an explicit collision"},
{"property": "C179", "status": "proved", "theorems": ["C179_answers_about_the_list", "C179_answers_about_the_map"], "note": "Every answer of any object with the hash of a list or map is true of it, or the object raises PrunedError (NotImplementedError for a pruned base class instance), up to an explicit SHA-256 collision."},
{"property": "C180", "status": "partial", "theorems": ["C180_lists_what_it_gives_refuted", "C180_lists_what_it_finds_refuted", "C180_given_is_listed_partial", "C180_checked_lengths_partial", "C180_checked_prefixes_partial"], "note": "The full claim is false and refuted for both kinds of objects. Proved: what is given is listed, len of a tree is the number listed, and with checked length fields and prefixes the full claim."},
{"property": "C181", "status": "partial", "theorems": ["C181_new_messages", "C181_version_partial", "C181_any_version_refuted", "C181_program"], "note": "The full claim is refuted for msg_version made for protocol version 10300. Proved: for the default version all classes, for msg_version the exact set of versions, and what the example program prints."},
{"property": "C182", "status": "proved", "theorems": ["C182_sealinfo", "C182_witnessinfo", "C182_seals_agree", "C182_witnesses_agree"], "note": "Lines printed before a failure are part of the result here; a witness whose transaction proof is pruned inside a complete input proof cannot be hashed (TypeError), and nothing is printed."},
{"property": "C183", "status": "proved", "theorems": ["C183_hash_by_hand", "C183_one_hash"], "note": "Objects as they are read or constructed; pruned views have the same hash by C17. The HASHTAGs are those of the class declarations."},
{"property": "C184", "status": "proved", "theorems": ["C184_tables", "C184_runs", "C184_kept", "C184_mmr", "C184_mbt", "C184_gumap", "C184_no_tag", "C184_marks", "C184_nested"], "note": "The hypotheses of the other theorems on the class table hold in every program of sensible declarations, by an invariant over declarations; C184_marks discharges the condition that derived tags differ up to an explicit collision; C184_nested shows the exception."},
{"property": "C185", "status": "proved", "theorems": ["C185_mmr_hash_by_hand", "C185_mbt_hash_by_hand"], "note": "For complete trees; hashes of pruned copies are the same by C17 and C51. Lists are shorter than 2^63."},
{"property": "C186", "status": "proved", "theorems": ["C186_map_by_hand"], "note": "gumap.py with the classes of proofchains; the tags of the contents of leaves and inner nodes are assumed to differ (they are derived by hashing)."},
{"property": "C187", "status": "partial", "theorems": ["C187_names_refuted", "C187_name_of_hash_partial", "C187_same_name_partial", "C187_digits", "C187_worked", "C187_other_numbers"], "note": "The claim as stated is false (C187_names_refuted); the exact condition is C187_same_name_partial, the text is C187_name_of_hash_partial and C187_digits."},
{"property": "C188", "status": "partial", "theorems": ["C188_text_refuted", "C188_text_partial"], "note": "The claim as stated is false (C188_text_refuted); C188_text_partial is exact."},
{"property": "C189", "status": "proved", "theorems": ["C189_mpi_read", "C189_mpi_write", "C189_mpi_roundtrip", "C189_script_numbers"], "note": "Numbers of at most 2^32 bits for writing; reading for all strings."},
{"property": "C190", "status": "proved", "theorems": ["C190_final_written", "C190_final_read", "C190_close_final"], "note": "For inputs with a sequence number in range, as the constructor checks."}
]}
