{"claims": [
 {"property": "C01", "status": "proved", "theorems": ["C01_b58_round_trip", "C01_b58_hex_round_trip"], "note": "refinement to the block-wise definition and round trip, every non-empty byte string"},
 {"property": "C02", "status": "partial", "theorems": ["C02_decode_canonical_refuted", "C02_decode_canonical_partial", "C02_decode_injective_partial"], "note": "full statement false: a block spelling 2^64 is accepted; exact exception characterised"},
 {"property": "C03", "status": "proved", "theorems": ["C03_check_coder_round_trip", "C03_address_round_trip", "C03_accept_only_checksummed"], "note": "any checksum function with 32-byte output; decode accepts exactly the encodings (up to the 2^64 block spelling of C02)"},
 {"property": "C04", "status": "proved", "theorems": ["C04_prefix_table", "C04_prefix_unique", "C04_refusals", "C04_known_prefixes_only"], "note": "finite tables, all networks and kinds; refusals for inconsistent flags"},
 {"property": "C05", "status": "proved", "theorems": ["C05_base58_round_trip", "C05_base58_canonical", "C05_base58check_round_trip", "C05_base58check_rejects"], "note": "round trip, canonical, check coder for any double hash"},
 {"property": "C06", "status": "proved", "theorems": ["C06_varint_write", "C06_varint_round_trip", "C06_varint_length", "C06_varint_bytes", "C06_varint_truncated"], "note": "every non-negative integer, any following bytes, any nesting of size limits"},
 {"property": "C07", "status": "proved", "theorems": ["C07_zigzag_decode_encode", "C07_zigzag_encode_decode", "C07_zigzag_value"], "note": "all integers"},
 {"property": "C08", "status": "proved", "theorems": ["C08_message_round_trip", "C08_message_wire_format", "C08_stream", "C08_reader_total"], "note": "all schemas with distinct tags, nested and repeated; unknown fields; reader total on arbitrary bytes. str values are their UTF-8 bytes, the set of valid UTF-8 strings is a parameter"},
 {"property": "C09", "status": "proved", "theorems": ["C09_mnemonic_round_trip", "C09_mnemonic_round_trip_checksum", "C09_words_distinct"], "note": "real 1626-word dictionary; every seed of whole 4-byte groups, with and without checksum word"},
 {"property": "C10", "status": "partial", "theorems": ["C10_crc", "C10_checksum_word", "C10_checksum_ignored_refuted", "C10_checksum_enforced_refuted", "C10_checksum_created_partial"], "note": "false: mn_decode tests the dictionary size instead of the number of words, the checksum word is never compared; proved that any last word is ignored; the encoder's checksum word itself is right (C10_crc, C10_checksum_word: the standard CRC-32 of the first three letters of the words picks it)"},
 {"property": "C11", "status": "proved", "theorems": ["C11_check_permutation", "C11_apply_permutation"], "note": "every list; cycle-following swaps proved by loop invariant over processed positions"},
 {"property": "C12", "status": "proved", "theorems": ["C12_offsets"], "note": "all integer lists"},
 {"property": "C13", "status": "proved", "theorems": ["C13_batches_partition", "C13_batches_refused", "C13_auto_type"], "note": "all types and output counts; automatic choice never fails"},
 {"property": "C14", "status": "proved", "theorems": ["C14_device_batches", "C14_proof_positions", "C14_closed_at_end"], "note": "device side: batch index and last-in-batch of every output for every positive grouping; sessions: proofs returned exactly at the running sums"},
 {"property": "C15", "status": "partial", "theorems": ["C15_order", "C15_complete", "C15_offloaded_refuted"], "note": "every history; accepted messages form an initial part of the protocol. Refuted for the offloaded-proof message, which is acknowledged out of order"},
 {"property": "C16", "status": "proved", "theorems": ["C16_error_ends_session"], "note": "every history, every error position"},
 {"property": "C17", "status": "proved", "theorems": ["C17_confirmed"], "note": "every history"},
 {"property": "C18", "status": "proved", "theorems": ["C18_balance", "C18_before_signing"], "note": "every session, all amounts"},
 {"property": "C19", "status": "proved", "theorems": ["C19_outputs_are_confirmed"], "note": "every session; alternative: HMAC forgery or hash collision exhibited from the session"},
 {"property": "C20", "status": "partial", "theorems": ["C20_inputs_once_partial", "C20_double_signing_refuted"], "note": "holds when the announced order is a permutation; the device never checks that, a session that signs one input twice is exhibited"},
 {"property": "C21", "status": "partial", "theorems": ["C21_commitments_partial", "C21_equation_partial"], "note": "masks and points, both mask modes; needs the announced order to be a permutation (see C20); alternative: forgery exhibited"},
 {"property": "C22", "status": "proved", "theorems": ["C22_change_is_own"], "note": "every session; outputs matching the announced change entry with nonzero amount"},
 {"property": "C23", "status": "partial", "theorems": ["C23_range_proved_partial", "C23_skipped_proof_refuted"], "note": "holds if the grouping covers the outputs and the required offloaded proof was sent last; the device checks neither, a session that signs without any range proof is exhibited"},
 {"property": "C24", "status": "proved", "theorems": ["C24_attributes", "C24_histories"], "note": "attribute-dictionary model of state_save/state_load for every builder object, and refinement: a device that stores and reloads after every message answers every history like one that keeps the object"},
 {"property": "C25", "status": "partial", "theorems": ["C25_honest_agent_completes", "C25_old_client_refuted", "C25_request_accepted", "C25_on_ed25519"], "note": "Every well-formed transaction of any size up to 2^32 inputs and outputs, from any state of the device; well_formed includes the combinations of client version, fork and number of outputs that work (supported). Refuted outside them: client version 0 fails with the newer proof type and more than two outputs, and with more than one batch of outputs. C25_request_accepted, C25_on_ed25519: with the modelled primitives, a request in terms of addresses and keys is completed and a node accepts it, unless the prover gives up on a batch of this request (no_give_up) or a mask is zero."},
 {"property": "C26", "status": "proved", "theorems": ["C26_key_input", "C26_separated", "C26_defined", "C26_keys", "C26_no_index", "C26_device_inputs", "C26_device_signatures", "C26_device_destinations", "C26_device_outputs"], "note": "All purposes, indices and secrets; on the device (C26_device_*): every tag and sealed value of a session uses the key of its purpose and index."},
 {"property": "C27", "status": "proved", "theorems": ["C27_piecewise_equals_oneshot", "C27_only_in_order"], "note": "all histories of the piecewise hasher on the real Keccak model, all signature types, interleavings and batchings; the library's base serialisation (monero_serialize) is modelled as type, fee, pseudo outputs, ECDH entries, masks"},
 {"property": "C28", "status": "proved", "theorems": ["C28_keccak_histories", "C28_chunking", "C28_permutation"], "note": "the real permutation: every history of update/digest/reset equals the bit-level Keccak definition (FIPS 202 step maps, LFSR round constants, pad10*1) of the bytes fed; four presets"},
 {"property": "C29", "status": "partial", "theorems": ["C29_release", "C29_announced", "C29_lengths_refuted"], "note": "every message history; key released only after exactly the announced outputs (32-byte keys; otherwise boundaries are not committed to: refuted), or a hash collision among the hashed strings"},
 {"property": "C30", "status": "proved", "theorems": ["C30_stops", "C30_bound"], "note": "every message history; rejected inits, errors and stray messages included"},
 {"property": "C31", "status": "proved", "theorems": ["C31_on_ed25519_complete", "C31_complete", "C31_accepts", "C31_binding"], "note": "all messages, secrets, nonces; exact boundary (zero challenge or response is refused), meaning of acceptance, binding to the message up to a hash coincidence (stated for any group with the laws of Ec_spec, hash any function; the laws are proved for the library's own Ed25519 routines with Keccak-256, C64_interface, and the _on_ed25519_ theorems state the results without them)"},
 {"property": "C32", "status": "proved", "theorems": ["C32_on_ed25519_complete", "C32_on_ed25519_test_mode", "C32_complete", "C32_accepts", "C32_test_mode"], "note": "all rings, positions and randomness, test mode on or off; meaning of acceptance; test mode refuses wrong keys and images (stated for any group with the laws of Ec_spec, hash any function; the laws are proved for the library's own Ed25519 routines with Keccak-256, C64_interface, and the _on_ed25519_ theorems state the results without them)"},
 {"property": "C33", "status": "proved", "theorems": ["C33_complete", "C33_simple", "C33_full", "C33_on_ed25519_complete", "C33_on_ed25519_simple", "C33_on_ed25519_full"], "note": "all matrix sizes, columns, key image rows, randomness and multisig inputs; both RingCT wrappers with balanced commitments; ring members other than the signer's are arbitrary points (stated for any group with the laws of Ec_spec, hash any function; the laws are proved for the library's own Ed25519 routines with Keccak-256, C64_interface, and the _on_ed25519_ theorems state the results without them)"},
 {"property": "C34", "status": "proved", "theorems": ["C34_complete", "C34_on_ed25519_complete"], "note": "all ring sizes including one, indices and randomness; the produced buffer is read back and verified (stated for any group with the laws of Ec_spec, hash any function; the laws are proved for the library's own Ed25519 routines with Keccak-256, C64_interface, and the _on_ed25519_ theorems state the results without them)"},
 {"property": "C35", "status": "proved", "theorems": ["C35_complete", "C35_memory_variant", "C35_chunked_variant", "C35_amount_range", "C35_on_ed25519_complete", "C35_on_ed25519_chunked_variant"], "note": "all amounts, masks and randomness; plain, memory optimised and chunked provers agree; out-of-range amounts raise (the chunked prover uses the low 64 bits); other commitments are refused (stated for any group with the laws of Ec_spec, hash any function; the laws are proved for the library's own Ed25519 routines with Keccak-256, C64_interface, and the _on_ed25519_ theorems state the results without them)"},
 {"property": "C36", "status": "proved", "theorems": ["C36_complete", "C36_too_big", "C36_equations", "C36_on_ed25519_complete"], "note": "Batches of 1 to 32 amounts, any masks and randomness, any generators of order l; the failing runs exhibit an input hashing to the zero scalar. The published commitments are shown to open to the amounts. The prover modelled is the one used by the device and the agent (prove_batch with the computed generators); the variant prove_batch_ and the precomputed generator tables are not modelled. Amounts of 2^64 and more raise. (stated for any group with the laws of Ec_spec, hash any function; the laws are proved for the library's own Ed25519 routines with Keccak-256, C64_interface, and the _on_ed25519_ theorems state the results without them)"},
 {"property": "C37", "status": "proved", "theorems": ["C37_paths_agree", "C37_batch_honest", "C37_one_bad", "C37_order", "C37_weights", "C37_on_ed25519_paths_agree"], "note": "Any proofs at all, honest or not, for the agreement of the two paths; batches accepted iff their members are when all others are accepted; order irrelevant; a failing equation survives at most one value of its weight modulo l. (stated for any group with the laws of Ec_spec, hash any function; the laws are proved for the library's own Ed25519 routines with Keccak-256, C64_interface, and the _on_ed25519_ theorems state the results without them)"},
 {"property": "C38", "status": "proved", "theorems": ["C38_on_ed25519_device_to_wallet", "C38_on_ed25519_decoded_amounts_open", "C38_first_encoding", "C38_second_encoding", "C38_on_the_wire", "C38_device_to_wallet", "C38_decoded_amounts_open", "C38_receiver_key_refuted"], "note": "Both encodings, for every secret, and the device's serialised form through the agent's parser to the wallet's decoder, which also checks the commitment. The variant taking the receiver's secret key in place of the shared secret always raises (C38_receiver_key_refuted, a finding; nothing in the repository calls it). (stated for any group with the laws of Ec_spec, hash any function; the laws are proved for the library's own Ed25519 routines with Keccak-256, C64_interface, and the _on_ed25519_ theorems state the results without them)"},
 {"property": "C39", "status": "proved", "theorems": ["C39_on_ed25519_payment_received", "C39_on_ed25519_recognised_is_spendable", "C39_on_ed25519_helper_checked", "C39_payment_received", "C39_recognised_is_spendable", "C39_helper_checked"], "note": "End to end from the device's output construction to the wallet scan; with additional keys the alternative is an explicit coincidence between two derivations. (stated for any group with the laws of Ec_spec, hash any function; the laws are proved for the library's own Ed25519 routines with Keccak-256, C64_interface, and the _on_ed25519_ theorems state the results without them)"},
 {"property": "C40", "status": "proved", "theorems": ["C40_on_ed25519_table", "C40_on_ed25519_keys_match", "C40_table", "C40_keys_match"], "note": "Entries, lookups and addresses against an independent definition of sub-address keys; two index pairs may share a key only if their spend keys are equal points. (stated for any group with the laws of Ec_spec, hash any function; the laws are proved for the library's own Ed25519 routines with Keccak-256, C64_interface, and the _on_ed25519_ theorems state the results without them)"},
 {"property": "C41", "status": "partial", "theorems": ["C41_roundtrip", "C41_involution", "C41_short_refused", "C41_long_refuted", "C41_device_lengths", "C41_device_two_recipients", "C41_end_to_end", "C41_on_ed25519_roundtrip", "C41_on_ed25519_involution", "C41_on_ed25519_short_refused", "C41_on_ed25519_end_to_end"], "note": "Every payment id of eight bytes, both directions and end to end between device and wallet; shorter ids are refused, longer ones keep their tail in clear (C41_long_refuted); the device only takes ids of eight bytes for this form. (stated for any group with the laws of Ec_spec, hash any function; the laws are proved for the library's own Ed25519 routines with Keccak-256, C64_interface, and the _on_ed25519_ theorems state the results without them)"},
 {"property": "C42", "status": "partial", "theorems": ["C42_roundtrip", "C42_writers", "C42_long_nonce_refuted", "C42_payment_id_nonces", "C42_payment_id_read", "C42_tx_pub_key"], "note": "All field lists: what the writers produce is what the parser returns. Refuted for nonces of 128 bytes and more: the length is written as one raw byte and read as a varint (no caller in the signing path writes such a nonce). (stated for any group with the laws of Ec_spec, hash any function; the laws are proved for the library's own Ed25519 routines with Keccak-256, C64_interface, and the _on_ed25519_ theorems state the results without them)"},
 {"property": "C43", "status": "proved", "theorems": ["C43_field_limbs", "C43_field_limbs_canonical", "C43_scalar_limbs", "C43_scalar_limbs_canonical", "C43_signed_limbs", "C43_constants"], "note": "all integers; both directions, signed limbs and Monero constants included"},
 {"property": "C44", "status": "proved", "theorems": ["C44_bezout", "C44_inverse", "C44_no_inverse"], "note": "all integers, termination included"},
 {"property": "C45", "status": "proved", "theorems": ["C45_law_total", "C45_group", "C45_add", "C45_sub", "C45_membership", "C45_equality", "C45_closed", "C45_scalarmult", "C45_base", "C45_scalarmult_base", "C45_roundtrip", "C45_encoding_injective", "C45_decode_sound", "C45_decoder_lenient"], "note": "Three backends (extended coordinates, RFC 8032 reference code, affine) against an integer-level specification of the curve (Ed25519_spec): law total and associative, doubling and subtraction, membership, comparison, scalar multiplication for every non-negative scalar and base point table for every integer, encodings. The ctypes backend is not modelled. Finding, C45_decoder_lenient: non-canonical y and a signed zero x are accepted on decoding."},
 {"property": "C46", "status": "proved", "theorems": ["C46_round_trip", "C46_decode", "C46_short", "C46_injective", "C46_check"], "note": "all scalars, all byte strings, any offset"},
 {"property": "C47", "status": "proved", "theorems": ["C47_stream", "C47_split", "C47_reset", "C47_unaligned_discards"], "note": "all seeds, all request histories; the rest of a partly used block is discarded, so unaligned requests do not concatenate (shown), and 'rewind' moves forward"},
 {"property": "C48", "status": "proved", "theorems": ["C48_seed_words", "C48_round_trip", "C48_unpack"], "note": "all secrets of 4j bytes, j=1..8, give exactly the BIP39 indices; general packing for widths 8..15 and all lengths (the last byte is lost when it straddles the last word)"},
 {"property": "C49", "status": "proved", "theorems": ["C49_height"], "note": "every chain, every date; termination included; datetime conversion not modelled"},
 {"property": "C50", "status": "partial", "theorems": ["C50_unblind_blind", "C50_commitments_partial", "C50_unopened_refuted", "C50_unconfirmed_refuted"], "note": "Every instruction of the lite device modelled on the bytes of the commands, failed commands keeping their partial effects; AES, SHA-256 and the varint reader arbitrary. The claim holds for command sequences of the intended shape (C50_commitments_partial, from any state). Refuted for arbitrary sequences: a key sent before the outputs is hashed although never opened, and a prehash made in fake mode can be signed in real mode without the user having been asked. (stated for any group with the laws of Ec_spec, hash any function; the laws are proved for the library's own Ed25519 routines with Keccak-256, C64_interface, and the _on_ed25519_ theorems state the results without them)"},
 {"property": "C51", "status": "proved", "theorems": ["C51_on_ed25519_bytes_verify", "C51_flatten_inflate", "C51_bytes_verify", "C51_bulletproof_dump", "C51_bulletproof_shapes"], "note": "all signatures and any number of rounds, buffer-level model of the dump; shapes with unequal L and R covered"},
 {"property": "C52", "status": "partial", "theorems": ["C52_pack_roundtrip", "C52_pack_changed", "C52_pack_associated_data_refuted", "C52_xmr_roundtrip", "C52_xmr_accepted", "C52_signature_malleable_refuted", "C52_on_ed25519_xmr_roundtrip"], "note": "Round trips for all keys and plaintexts; any other accepted container exhibits a forgery of the cipher, a signature on another hash, or a hash collision. Refuted: associated data is ignored when a pack is opened, and the signature scalars are reduced when read, so adding the group order gives another accepted container. (stated for any group with the laws of Ec_spec, hash any function; the laws are proved for the library's own Ed25519 routines with Keccak-256, C64_interface, and the _on_ed25519_ theorems state the results without them)"},
 {"property": "C53", "status": "proved", "theorems": ["C53_recovered", "C53_released", "C53_agent", "C53_device_final"], "note": "Any keys, any number of additional keys; the recovery procedure of the owner and of the agent; cipher and HMAC abstract with the decryption laws as hypotheses. On the device (C53_device_final): what the last answer seals are exactly the private keys of the public keys in the returned extra field."},
 {"property": "C54", "status": "partial", "theorems": ["C54_sub_flag_refuted", "C54_sub_flag_partial", "C54_sub_prefix_partial"], "note": "the flag stays stale when the index is reset to (0,0): refuted; holds for fresh records"},
 {"property": "C55", "status": "proved", "theorems": ["C55_classification", "C55_distinct_dests_meaning", "C55_txkey_choice"], "note": "all destination lists, exact counts of distinct destinations"},
 {"property": "C56", "status": "partial", "theorems": ["C56_decode_addr_exact_refuted", "C56_decode_addr_exact_partial"], "note": "refuted: payload bytes after the two keys are dropped; holds for payloads of the exact length"},
 {"property": "C57", "status": "proved", "theorems": ["C57_change_index"], "note": "all output lists"},
 {"property": "C58", "status": "partial", "theorems": ["C58_truncated_number_partial", "C58_truncation_refused_refuted"], "note": "refuted for byte-string fields (silently zero-padded); holds for numeric fields"},
 {"property": "C59", "status": "partial", "theorems": ["C59_mnemonic_canonical_partial", "C59_mnemonic_canonical_refuted"], "note": "false for word triples standing for 2^32 or more (silently truncated); canonical below"},
 {"property": "C60", "status": "proved", "theorems": ["C60_chunk"], "note": "all lists, all positive sizes"},
 {"property": "C61", "status": "proved", "theorems": ["C61_signed_message"], "note": "every session; extra, prefix hash, base hash, proofs; all signatures are over that message"},
 {"property": "C62", "status": "partial", "theorems": ["C62_mask_vector_partial", "C62_first_read_refuted"], "note": "refuted for a first read at an index other than 0; holds for every read order once index 0 was read"},
 {"property": "C63", "status": "partial", "theorems": ["C63_import_partial", "C63_import_refuted"], "note": "host against device for every list of outputs whose number is not a multiple of ten; refuted for multiples of ten (empty last batch is refused)"},
 {"property": "C64", "status": "proved", "theorems": ["C64_base_order", "C64_cofactor", "C64_hash_to_point", "C64_second_generator", "C64_interface", "C64_representation"], "note": "Primality of 2^255-19 and l by Pocklington certificates checked in Coq; completeness of the Edwards law; hash_to_point for all digests. Keccak is the modelled one of C28."},
 {"property": "C65", "status": "partial", "theorems": ["C65_hidden_refuted", "C65_amount_testable", "C65_masks_refuted", "C65_guess_relation"], "note": "Refuted: the generator behind every bulletproof is seeded by a constant, so the mask of every proof made for one amount follows from the proof and the number of proofs made before it. Also refuted with good randomness there: the blinding vectors have constant seeds, so a proof reveals a point that depends on the amounts alone (C65_masks_refuted); a wrong guess is confirmed only by a relation between the generators (C65_guess_relation)."},
 {"property": "C66", "status": "partial", "theorems": ["C66_secret_refuted"], "note": "Refuted: the device decrypts and uses whatever nonce ciphertext the host sends, any number of times, so two signatures with one nonce reveal the secret (any group, any cipher, any two messages with different challenges)."},
 {"property": "C67", "status": "partial", "theorems": ["C67_agent_transaction", "C67_inputs_sorted", "C67_old_client_refuted"], "note": "Every run that returns, no assumption on the transaction. The returned proofs are those the device made or checked, in order; inputs are sorted (C67_inputs_sorted). The clauses on pseudo outputs and range proofs need client version 1 or more or a fork below 10; without that the returned transaction does not balance (C67_old_client_refuted, the agent drops the pseudo output adjusted by the device)."},
 {"property": "C68", "status": "partial", "theorems": ["C68_recipient_finds_output_partial", "C68_change_address_refuted"], "note": "Every session and every destination, for primitives with the Diffie-Hellman laws (dh_laws, met by the example instance). Refuted without the condition on the change address: for a request whose change amount is 0 and which has two destinations the device does not check the change address, and an output to that address is derived with the wallet's own view key (C68_change_address_refuted)."},
 {"property": "C69", "status": "proved", "theorems": ["C69_mlsag_accepts", "C69_simple_accepts", "C69_full_accepts", "C69_clsag_accepts", "C69_range_accepts", "C69_on_ed25519_range_accepts", "C69_on_ed25519_full_accepts", "C69_mlsag_binding", "C69_clsag_binding"], "note": "Equivalences, for every input. The points of MLSAG matrices are group elements (the code decodes them before); the laws of the group are needed only where sums are reordered. Instances on Ed25519 given."},
 {"property": "C70", "status": "proved", "theorems": ["C70_nonce_reuse", "C70_schnorr_knowledge", "C70_column_knowledge", "C70_spend_knowledge", "C70_clsag_knowledge", "C70_range_knowledge", "C70_image_unique", "C70_on_ed25519_double_spend_detected", "C70_on_ed25519_range_knowledge"], "note": "Special soundness: extraction from two answers; the rewinding argument of the random oracle model that yields two answers is not formalised. On Ed25519: range proofs and the detection of double spends."},
 {"property": "C71", "status": "partial", "theorems": ["C71_master", "C71_path", "C71_parent_recorded", "C71_public_path", "C71_slip0010_partial", "C71_slip0010_master_refuted", "C71_ed25519_only_hardened", "C71_text_round_trip", "C71_other_network", "C71_deep_wallet_text_refuted", "C71_public_children_refuted", "C71_parent_from_child_partial", "C71_cache_positional", "C71_public_spelling", "C71_negative", "C71_public_child", "C71_hardened_child_refused", "C71_cache_keywords_refuted", "C71_text_equality_refuted"], "note": "Any HMAC, hash and secp256k1-like group with the laws of bops_ok (satisfied by the example instance). False of the code and so refuted: public wallets derive no children; memoize ignores the values of keyword arguments; children carry the Bitcoin network so the wallet read from its own text differs; depth 256 and more has no text; an Ed25519 master outside the secp256k1 range is refused. _partial: SLIP-0010 for masters the code accepts; recovering the parent for the network children carry."},
 {"property": "C72", "status": "partial", "theorems": ["C72_keys_of_seed", "C72_restore_partial", "C72_restore_line_refuted", "C72_checksum_not_checked_refuted", "C72_bip44", "C72_slip0010", "C72_default_paths"], "note": "All 32 byte seeds and all paths. Refuted: the words given as one string (ZeroDivisionError), and a wrong checksum word is not noticed. _partial: restoring from a list of lines, in any grouping. BIP-0039 words are C79."},
 {"property": "C73", "status": "proved", "theorems": ["C73_node_accepts", "C73_on_ed25519"], "note": "Device, agent, MLSAG and bulletproofs composed over one group (Real_model), also on Ed25519 with Keccak. Node_spec states the node's checks from the fields of the transaction. Cipher, HMAC and the serialisation of a ring signature are hypotheses (can be undone); client version 1 or more, or a fork below 10 (see C67). For more than two outputs the host makes the range proofs and the device checks them: acceptance is then shown for the weights the device drew. Double spends and fee rules of the chain are not part of the checks."},
 {"property": "C74", "status": "partial", "theorems": ["C74_array", "C74_grow", "C74_grow_refuted", "C74_below_refuted", "C74_copy", "C74_copy_refuted", "C74_saved"], "note": "Histories in which sizes stay flat or multiples of 32 keys and windows lie inside. Refuted outside: growing a flat vector loses its keys, an index below minus the length reaches outside a window, copying chunks into a flat vector copies nothing."},
 {"property": "C75", "status": "partial", "theorems": ["C75_powers", "C75_powers_scan", "C75_after_error_refuted", "C75_rewind_first_refuted", "C75_r0", "C75_r0_scan", "C75_r0_reload_refuted", "C75_power_sum", "C75_power_sum_refuted", "C75_prover_powers"], "note": "Refuted: powers after a caught error or a rewind before the first access, a reloaded r0, the sum for n = 1. C75_prover_powers links the vector with the list in the model of the prover (Bp_model)."},
 {"property": "C76", "status": "proved", "theorems": ["C76_loop", "C76_proof"], "note": "C76_loop: the loop of the inner product argument at the level of registers and in-place buffers (Regs_model) refines the loop over values of Bp_model. C76_proof: so the proof assembled by prove_batch is that of C36/C37; its first phase is still modelled over values."},
 {"property": "C77", "status": "partial", "theorems": ["C77_calls", "C77_spendable", "C77_fee", "C77_accepted_partial", "C77_other_subaddress_refuted"], "note": "C77_calls, C77_spendable and C77_fee: everything up to the request. C77_accepted_partial: the request is signed and accepted, for inputs at the sub-address whose minor number is the account (the main address for account 0). Refuted for an input at another sub-address of the account, because the request lists account numbers as sub-addresses (transaction_builder.py:401)."},
 {"property": "C78", "status": "partial", "theorems": ["C78_keys_fixed", "C78_output_keys_partial", "C78_keypair_partial", "C78_cbc", "C78_second_half_refuted", "C78_reads_back_refuted", "C78_no_secret_refuted", "C78_subaddress_refuted", "C78_verify_key", "C78_verify_own_refuted", "C78_put_key_refuted", "C78_keypair_refuted"], "note": "C78_keys_fixed and C78_verify_key hold of the code. C78_output_keys_partial and C78_keypair_partial: the chain of key commands, for any cipher that decrypts what it encrypted (C78_cbc: chaining in both directions is one). Refuted for the code: it encrypts in ECB and decrypts in CBC mode (aescbc.py:17, 29), so the second half of every secret is garbled, and the required library refuses the iv, so no secret is handed out at all; sub-address commands and STEALTH never succeed; VERIFY_KEY denies the wallet's own keys; PUT_KEY leaves the public keys."},
 {"property": "C79", "status": "partial", "theorems": ["C79_words", "C79_list", "C79_restore_partial", "C79_restore_refuted", "C79_checksum_refuted", "C79_refused", "C79_string_refuted", "C79_sentence", "C79_blanks_refuted"], "note": "All secrets of 4 j bytes, 1 <= j <= 8, all groupings into lines, any capitals, arbitrary hash, HMAC and PBKDF2. _partial: reading the words as numbers restores secrets of up to 28 bytes. Refuted: every 32-byte secret is restored as 33 bytes (its checksum byte included), the checksum is never compared, one string with all words is refused, a doubled blank stays in the sentence. Text is ASCII; bytes as input are not modelled."},
 {"property": "C80", "status": "partial", "theorems": ["C80_unsigned", "C80_outputs", "C80_loaded", "C80_mixed", "C80_keys_partial", "C80_keys_refuted", "C80_keys_twice_refuted"], "note": "All data and files, for every curve, cipher and serialisation library with the stated laws (Files_spec.lib_laws: the libraries read what they write; escaping writes a quote as backslash and quote). _partial: keys files whose binary key data has no quote followed by a comma. Refuted: for the others the loader cuts the key data there; writing a keys file deletes the key data of the object. The regular expression of the loader is modelled with its greedy and lazy groups."},
 {"property": "C81", "status": "partial", "theorems": ["C81_accepts", "C81_honest", "C81_wrong_image_partial", "C81_on_ed25519_wrong_image_partial", "C81_wrong_image_refuted", "C81_derivations", "C81_malformed"], "note": "All answers, view keys and outputs. _partial: a wrong key image of order l can be passed for at most one challenge per pair of committed points (also on the Ed25519 instance); that the hash avoids this value is not expressible for an arbitrary hash. Refuted beyond that group: the agent does not check the order of the point, so the device can add a point of order 2, 4 or 8 after about eight nonces. The device's side of both exchanges is firmware and not in the repository; bytes after the first 96 are ignored."}
]}
