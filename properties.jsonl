{"id": "C01", "title": "Monero base58 round trip", "statement": "Decoding the Monero-base58 text of any non-empty byte string gives back exactly that byte string, and the text length depends only on the byte length (11 characters per 8 bytes plus the table entry of the remainder).", "quantifier": "all non-empty byte strings, any length", "why_tests_cant": "Tests sample a few addresses; block-boundary carries and leading zero blocks must be right for every length and content.", "anchors": ["monero_glue/misc/b58_mnr.py: b58encode, b58decode, encode_block, decode_block"]}
{"id": "C02", "title": "Monero base58 decoding is canonical", "statement": "A text that decodes successfully is the encoding of the bytes it decodes to: no two different texts decode to the same bytes.", "quantifier": "all character strings accepted by the decoder", "why_tests_cant": "The set of strings is infinite; only the boundary value 2^64 of one block violates the claim.", "anchors": ["monero_glue/misc/b58_mnr.py: decode_block, b58decode"]}
{"id": "C03", "title": "Address encode/decode round trip with checksum", "statement": "Decoding an address built from a network prefix, a spend key, a view key and an optional payment id returns the same prefix byte, keys and payment id; a text is accepted only if its last four bytes are the checksum of the rest.", "quantifier": "all prefixes 0..255, all 32-byte keys, all payment ids, all texts", "why_tests_cant": "Checksums and lengths interact over every byte string.", "anchors": ["monero_glue/xmr/sub/addr.py: encode_addr, decode_addr", "monero_glue/xmr/crypto.py: xmr_base58_addr_encode_check, xmr_base58_addr_decode_check"]}
{"id": "C04", "title": "Network prefix determines network and kind", "statement": "Each (network, kind) pair - kind being standard, integrated or subaddress - gets its own prefix byte, the byte identifies the pair uniquely, and a request for an integrated subaddress or an unknown network is refused.", "quantifier": "all networks and kinds", "why_tests_cant": "Needs the whole table to be injective and every refusal branch checked.", "anchors": ["monero_glue/xmr/sub/xmr_net.py: net_version, MainNet, TestNet, StageNet", "monero_glue/xmr/sub/addr.py: public_addr_encode, get_addr_type"]}
{"id": "C05", "title": "Bitcoin base58check round trip", "statement": "b58decode_check(b58encode_check(x)) = x for every byte string, leading zero bytes included; a text whose checksum does not match is rejected.", "quantifier": "all byte strings", "why_tests_cant": "Big-integer conversion with leading zeros over all lengths.", "anchors": ["monero_glue/misc/b58.py: b58encode, b58decode, b58encode_check, b58decode_check"]}
{"id": "C06", "title": "Protobuf varint round trip", "statement": "Reading the varint written for any non-negative integer returns the integer and consumes exactly the bytes written; the written length equals the predicted length.", "quantifier": "all non-negative integers, any following bytes", "why_tests_cant": "Unbounded integers.", "anchors": ["monero_glue/protobuf.py: load_uvarint, dump_uvarint, count_uvarint/CountingWriter"]}
{"id": "C07", "title": "Protobuf signed (zigzag) mapping is a bijection", "statement": "sint_to_uint and uint_to_sint are inverse to each other on all integers / all naturals.", "quantifier": "all integers", "why_tests_cant": "Infinite domain and sign boundary.", "anchors": ["monero_glue/protobuf.py: sint_to_uint, uint_to_sint"]}
{"id": "C08", "title": "Protobuf message round trip", "statement": "Loading the bytes dumped for any message of any (possibly nested, repeated) schema returns an equal message; unknown varint and length-delimited fields are skipped without changing the known ones.", "quantifier": "all schemas without duplicate field numbers, all messages of the schema, all unknown fields", "why_tests_cant": "Schemas and messages are recursive and unbounded.", "anchors": ["monero_glue/protobuf.py: dump_message, load_message, LimitedReader, CountingWriter"]}
{"id": "C09", "title": "Mnemonic round trip", "statement": "Decoding the words produced for any seed (a whole number of 4-byte groups) returns the seed, with or without the checksum word appended.", "quantifier": "all seeds of any number of 4-byte groups", "why_tests_cant": "2^256 seeds; modular wrap-around in the word arithmetic.", "anchors": ["monero_glue/xmr/core/mnemonic.py: mn_encode, mn_decode, mn_swap_endian_4byte"]}
{"id": "C10", "title": "Mnemonic checksum word is enforced", "statement": "A word list whose checksum word does not match the words before it is rejected, so a mistyped mnemonic cannot silently open another wallet.", "quantifier": "all word lists", "why_tests_cant": "Universal claim over inputs; a test only sees the samples it tries.", "anchors": ["monero_glue/xmr/core/mnemonic.py: mn_decode, mn_checksum"]}
{"id": "C11", "title": "Permutation helpers", "statement": "check_permutation accepts a list exactly when it is a permutation of 0..n-1; apply_permutation driven with a permutation p and a swap callback on an array A leaves A'[i] = A[p[i]] for every i, and does not change p.", "quantifier": "all lists, all permutations of any length, all arrays", "why_tests_cant": "In-place cycle walking; n! permutations.", "anchors": ["monero_glue/xmr/common.py: check_permutation, apply_permutation"]}
{"id": "C12", "title": "Ring offsets survive conversion", "statement": "Converting absolute ring-member indices to relative offsets loses nothing: prefix sums of the result are the sorted absolute indices.", "quantifier": "all lists of indices", "why_tests_cant": "All lists, duplicates and any order.", "anchors": ["monero_glue/xmr/sub/tsx_helper.py: absolute_output_offsets_to_relative"]}
{"id": "C13", "title": "Range-proof batches partition the outputs", "statement": "For every number of outputs the batch sizes chosen by the agent are positive, sum to the number of outputs, never exceed 16, are powers of two in the multi-output mode, and the automatic choice of the mode never raises.", "quantifier": "all numbers of outputs, all modes", "why_tests_cant": "Loop with nested loop over unbounded counts.", "anchors": ["monero_glue/agent/agent_lite.py: get_rsig_type, generate_rsig_batch_sizes"]}
{"id": "C14", "title": "Batch bookkeeping of host and device agree", "statement": "If the announced grouping sums to the number of outputs, the device completes a batch exactly at the outputs where the running sum of batch sizes is reached, so each output belongs to exactly one completed batch and after the last output no batch is open.", "quantifier": "all groupings of positive sizes and all numbers of outputs", "why_tests_cant": "All groupings; off-by-one in counters.", "anchors": ["monero_glue/protocol/tsx_sign_builder.py: _get_rsig_batch, _is_last_in_batch, _s6_range_proof", "monero_glue/agent/agent_lite.py: _rct_offload"]}
{"id": "C15", "title": "Signing messages are accepted only in protocol order", "statement": "In every history of messages, between a successful init and a released final acknowledgement the device accepted exactly: n set-inputs, a permutation (if n>1), vini messages, all-inputs-set, one set-output per destination, all-outputs-set, one sign-input per input, final - and any message out of that order is answered by an error.", "quantifier": "all finite sequences of host messages of all types and contents", "why_tests_cant": "All interleavings of adversarial host messages.", "anchors": ["monero_glue/protocol/tsx_sign_state.py: TState", "monero_glue/protocol/tsx_sign.py: TsxSigner", "monero_glue/protocol/tsx_sign_builder.py"]}
{"id": "C16", "title": "An error ends the signing session", "statement": "After any message answered by an error in the signer, no later message other than a new init succeeds, and nothing of the failed session is released.", "quantifier": "all histories and all positions of the error", "why_tests_cant": "All crash points.", "anchors": ["monero_glue/protocol/tsx_sign.py: TsxSigner.tsx_exec/should_purge", "monero_glue/hwtoken/token.py: tsx_sign"]}
{"id": "C17", "title": "No signature without user confirmation", "statement": "A sign-input acknowledgement is only ever released in a session whose transaction summary (destinations and fee announced in the init message) was confirmed on the device.", "quantifier": "all histories", "why_tests_cant": "All histories, incl. rejected confirmations followed by other messages.", "anchors": ["monero_glue/protocol/tsx_sign_builder.py: init_transaction, sign_input", "monero_glue/hwtoken/iface.py"]}
{"id": "C18", "title": "Amounts balance before anything is signed", "statement": "Whenever the device acknowledges all-outputs-set, the sum of the amounts of the inputs it processed equals the sum of the amounts of the outputs it processed plus the fee it reported, the fee is the confirmed one, and no signature is released otherwise.", "quantifier": "all histories, all amounts", "why_tests_cant": "Accumulators over unbounded adversarial sequences.", "anchors": ["monero_glue/protocol/tsx_sign_builder.py: set_input, set_output, all_out1_set, sign_input"]}
{"id": "C19", "title": "Outputs built are the confirmed destinations", "statement": "The i-th output placed in the transaction is for the i-th destination confirmed by the user, unless an HMAC was forged.", "quantifier": "all histories of host messages", "why_tests_cant": "Host is adversarial; requires induction over all histories.", "anchors": ["monero_glue/protocol/tsx_sign_builder.py: gen_hmac_tsxdest, _s6_validate, set_output"]}
{"id": "C20", "title": "Every input is signed once", "statement": "In a finished session the inputs hashed into the prefix and the inputs signed are exactly the inputs accounted for in the money sum, each exactly once.", "quantifier": "all histories, all permutation messages", "why_tests_cant": "Host chooses the permutation.", "anchors": ["monero_glue/protocol/tsx_sign_builder.py: tsx_inputs_permutation, input_vini, sign_input"]}
{"id": "C21", "title": "Commitments balance", "statement": "The sum of the pseudo output commitments released equals the sum of the output commitments plus fee times H, in every mode (masks chosen from the sum, or deterministic masks with correction of the last pseudo output).", "quantifier": "all numbers of inputs and outputs, all amounts, all random masks", "why_tests_cant": "Algebraic identity over all sizes and randomness.", "anchors": ["monero_glue/protocol/tsx_sign_builder.py: _compute_masks, _gen_commitment, set_output, sign_input"]}
{"id": "C22", "title": "Change goes to the wallet", "statement": "If the device treats an output as change (not shown to the user), its address is the wallet's own change address for the account.", "quantifier": "all init messages", "why_tests_cant": "All combinations of destinations, amounts and change entries.", "anchors": ["monero_glue/protocol/tsx_sign_builder.py: check_change, compute_change/get_change_addr_idx", "monero_glue/xmr/sub/addr.py: get_change_addr_idx"]}
{"id": "C23", "title": "Every output has a verified range proof", "statement": "No signature is released unless every output was covered by a range proof that the device generated or verified.", "quantifier": "all histories, all groupings, offloaded or not", "why_tests_cant": "Host chooses grouping and offloading.", "anchors": ["monero_glue/protocol/tsx_sign_builder.py: _s6_range_proof, _s6_rsig_bp, _s6_rsig_process_bp, all_out1_set"]}
{"id": "C24", "title": "Saving and restoring the session is invisible", "statement": "Executing a message after storing the session state and loading it back has the same result as executing it without the detour.", "quantifier": "all session states and messages", "why_tests_cant": "All states.", "anchors": ["monero_glue/protocol/tsx_sign_builder.py: state_save, state_load", "monero_glue/protocol/tsx_sign.py: wake_up"]}
{"id": "C25", "title": "The honest agent completes", "statement": "The message sequence the agent produces for a well-formed transaction is accepted by the device message by message up to the final acknowledgement.", "quantifier": "all well-formed transactions, any number of inputs and outputs", "why_tests_cant": "Liveness over all sizes.", "anchors": ["monero_glue/agent/agent_lite.py: sign_transaction_data", "monero_glue/protocol/tsx_sign_builder.py"]}
{"id": "C26", "title": "Session keys are domain separated", "statement": "Keys derived for different purposes or different indices (input HMAC, pseudo-out HMAC, destination HMAC, output HMAC, alpha, spend key, masks) are hashes of different byte strings.", "quantifier": "all purposes, all indices that fit the buffer", "why_tests_cant": "Injectivity over all indices.", "anchors": ["monero_glue/protocol/tsx_sign_builder.py: _build_key and its callers"]}
{"id": "C27", "title": "Incremental transaction hash equals the one-shot hash", "statement": "The message hash computed piece by piece during signing equals the hash computed from the complete structure, for every number of inputs, outputs and range proofs and in every signature type.", "quantifier": "all transactions, all batchings", "why_tests_cant": "All sizes and orders.", "anchors": ["monero_glue/xmr/sub/mlsag_hasher.py: PreMlsagHasher", "monero_glue/xmr/monero.py: get_pre_mlsag_hash"]}
{"id": "C28", "title": "Keccak streaming", "statement": "Feeding data to the Keccak hasher in any chunks gives the digest of the concatenation; digesting does not disturb the running state.", "quantifier": "all byte strings and all ways of splitting them", "why_tests_cant": "All chunkings across the 136-byte rate.", "anchors": ["monero_glue/xmr/core/backend/keccak2.py: KeccakHash, KeccakSponge", "monero_glue/xmr/sub/keccak_hasher.py"]}
{"id": "C29", "title": "Key images are released only for the committed outputs", "statement": "In the key image sync the decryption key is released only if exactly the announced number of outputs was processed and their hash chain equals the announced hash, hence (hash injective) exactly the announced outputs in order.", "quantifier": "all message histories", "why_tests_cant": "All histories.", "anchors": ["monero_glue/protocol/key_image_sync.py: KeyImageSync", "monero_glue/xmr/key_image.py: compute_hash, generate_commitment"]}
{"id": "C30", "title": "Key image sync stops on rejection or error", "statement": "After a rejected confirmation or any error no key image and no key is released until a new init.", "quantifier": "all histories", "why_tests_cant": "All histories.", "anchors": ["monero_glue/hwtoken/token.py: key_image_sync", "monero_glue/protocol/key_image_sync.py"]}
{"id": "C31", "title": "Schnorr signature completeness", "statement": "A signature generated by generate_signature for a key pair verifies under check_signature for the same data and public key.", "quantifier": "all messages, secrets and nonces (challenge and response non-zero)", "why_tests_cant": "All scalars.", "anchors": ["monero_glue/xmr/crypto.py: generate_signature, check_signature"]}
{"id": "C32", "title": "Ring signature completeness", "statement": "A ring signature generated for any ring, any position of the real key and any randomness verifies.", "quantifier": "all ring sizes, indices, randomness", "why_tests_cant": "All ring sizes.", "anchors": ["monero_glue/xmr/ring_ct.py: generate_ring_signature, check_ring_singature, export_key_image"]}
{"id": "C33", "title": "MLSAG completeness", "statement": "An MLSAG signature generated for any key matrix, any real column and any randomness verifies; the simple and full RCT wrappers verify on what they produce.", "quantifier": "all matrix sizes, columns, randomness", "why_tests_cant": "All sizes.", "anchors": ["monero_glue/xmr/mlsag2.py: gen_mlsag_ext, ver_mlsag_ext, prove_rct_mg_simple, ver_rct_mg_simple, prove_rct_mg, ver_rct_mg"]}
{"id": "C34", "title": "CLSAG completeness", "statement": "A CLSAG signature generated for any ring, index and randomness verifies.", "quantifier": "all ring sizes, indices, randomness", "why_tests_cant": "All ring sizes.", "anchors": ["monero_glue/xmr/mlsag2.py: generate_clsag, generate_clsag_simple, verify_clsag"]}
{"id": "C35", "title": "Borromean range proof completeness", "statement": "A Borromean range proof generated for any 64-bit amount and mask verifies against the commitment to that amount, and the commitment opens to (mask, amount).", "quantifier": "all amounts < 2^64, all masks and randomness", "why_tests_cant": "2^64 amounts.", "anchors": ["monero_glue/xmr/mlsag2.py: gen_borromean, ver_borromean", "monero_glue/xmr/ring_ct.py: prove_range_orig, prove_range_mem, ver_range, d2b"]}
{"id": "C36", "title": "Bulletproof completeness", "statement": "A bulletproof produced for any batch of 64-bit amounts and masks verifies.", "quantifier": "all batches up to the maximum, all amounts < 2^64, all masks, randomness and challenge functions (non-zero challenges)", "why_tests_cant": "Algebraic identity of a multi-round protocol for all inputs.", "anchors": ["monero_glue/xmr/bulletproof.py: BulletProofBuilder.prove_batch, verify_batch, _prove_loop, _prove_phase1"]}
{"id": "C37", "title": "Batch verification agrees with single verification", "statement": "The memory-optimised single-proof path and the general batched path compute the same verdict, and a batch of honest proofs is accepted.", "quantifier": "all lists of proofs and weights", "why_tests_cant": "All lists.", "anchors": ["monero_glue/xmr/bulletproof.py: verify_batch, MultiExp, MultiExpSequential"]}
{"id": "C38", "title": "Amount hiding is invertible", "statement": "Decoding the encrypted amount (and mask) with the shared secret returns what was encoded, in both encodings.", "quantifier": "all amounts < 2^64, all masks, all secrets", "why_tests_cant": "All amounts.", "anchors": ["monero_glue/xmr/ring_ct.py: ecdh_encode, ecdh_decode", "monero_glue/xmr/monero.py: ecdh_decode_simple, ecdh_decode_rv"]}
{"id": "C39", "title": "The recipient recognises and can spend each output", "statement": "An output built for an address (main or sub) with tx key r is recognised by the recipient from the published tx key, and the one-time secret the recipient derives is the discrete log of the output key.", "quantifier": "all keys, indices, sub-addresses, output positions", "why_tests_cant": "All keys.", "anchors": ["monero_glue/xmr/core/ec_py.py: generate_key_derivation, derive_public_key, derive_secret_key", "monero_glue/xmr/monero.py: is_out_to_acc_precomp, generate_key_image_helper_precomp, derive_subaddress_public_key", "monero_glue/protocol/tsx_sign_builder.py: _s6_compute_tx_keys, _set_out_derivation, _set_out_additional_keys"]}
{"id": "C40", "title": "Sub-address table", "statement": "compute_subaddresses maps exactly the spend keys of the requested (major, minor) pairs to those pairs, and the address keys given out match the secret keys derived.", "quantifier": "all accounts and index lists", "why_tests_cant": "All index lists.", "anchors": ["monero_glue/xmr/monero.py: compute_subaddresses, generate_sub_address_keys, get_subaddress_spend_public_key, get_subaddress_secret_key"]}
{"id": "C41", "title": "Payment id encryption", "statement": "Encrypting a payment id with the sender's key and decrypting with the recipient's view key returns it; encryption is an involution on 8-byte ids and refuses other lengths.", "quantifier": "all ids and keys", "why_tests_cant": "All ids.", "anchors": ["monero_glue/xmr/sub/tsx_helper.py: encrypt_payment_id"]}
{"id": "C42", "title": "Transaction extra field round trip", "statement": "Payment id nonces and key fields written into tx_extra are found again by the parser with their kind and content.", "quantifier": "all ids, keys, numbers of additional keys", "why_tests_cant": "All lengths.", "anchors": ["monero_glue/xmr/sub/tsx_helper.py: add_extra_nonce_to_tx_extra, set_payment_id_to_tx_extra_nonce, set_encrypted_payment_id_to_tx_extra_nonce, has_payment_id, has_encrypted_payment_id, add_tx_pub_key_to_extra, add_additional_tx_pub_keys_to_extra"]}
{"id": "C43", "title": "Limb representations", "statement": "Converting field elements and scalars to and from the limb formats used by the firmware is lossless.", "quantifier": "all field elements < 2^255, all scalars < 2^256", "why_tests_cant": "All bit patterns.", "anchors": ["monero_glue/xmr/core/ec_base.py: encode_ed25519, decode_ed25519, encode_modm, decode_modm"]}
{"id": "C44", "title": "Modular inverse", "statement": "The extended gcd returns Bezout coefficients and the modular inverse returns the inverse for every invertible argument, and fails otherwise.", "quantifier": "all integers", "why_tests_cant": "All integers.", "anchors": ["monero_glue/xmr/core/ec_py.py: extended_gcd, modinv"]}
{"id": "C45", "title": "Curve arithmetic stays on the curve and agrees with the affine law", "statement": "The projective add, double and scalar multiplication routines map curve points to curve points and compute the affine Edwards law; double and add agree; compress/decompress of a curve point is lossless.", "quantifier": "all curve points and scalars", "why_tests_cant": "All points.", "anchors": ["monero_glue/xmr/core/backend/ed25519_2.py", "monero_glue/xmr/core/backend/ed25519ietf.py", "monero_glue/xmr/core/backend/ed25519.py"]}
{"id": "C46", "title": "Scalar encoding", "statement": "decodeint(encodeint(s)) = s for each reduced scalar, the encoding is 32 bytes, and decodeint of any 32 bytes is the value reduced modulo the group order.", "quantifier": "all scalars, all byte strings", "why_tests_cant": "All scalars.", "anchors": ["monero_glue/xmr/core/ec_py.py: encodeint, decodeint, sc_check, sc_reduce32"]}
{"id": "C47", "title": "Deterministic generator", "statement": "The deterministic generator returns the requested number of bytes, depends only on the seed and the position, and reset/rewind reproduces the sequence.", "quantifier": "all seeds and request sequences", "why_tests_cant": "All sequences of requests.", "anchors": ["monero_glue/xmr/core/ec.py: PRNG", "monero_glue/xmr/bulletproof.py: KeyVPrngMask"]}
{"id": "C48", "title": "BIP39 index packing", "statement": "Packing a seed with its checksum byte into 11-bit word indices and unpacking is lossless for the seed sizes used.", "quantifier": "all byte strings of each length class", "why_tests_cant": "All bit patterns.", "anchors": ["monero_glue/misc/bip/bip32.py: bytes_to_indices, indices_to_bytes"]}
{"id": "C49", "title": "Restore height search", "statement": "The date-to-height search terminates for every chain and returns a height whose block is not later than the requested date (or 0), within a bounded window of the first later block.", "quantifier": "all chains with monotone or arbitrary timestamps, all dates", "why_tests_cant": "All chains.", "anchors": ["monero_glue/xmr/wallet.py: Wallet.get_blockchain_height_by_date"]}
{"id": "C50", "title": "Lite protocol blinding and commitment control", "statement": "unblind inverts blind, and the lite device finalises a prehash only if the amounts it was shown open the commitments hashed.", "quantifier": "all amounts, masks, command sequences", "why_tests_cant": "All command sequences.", "anchors": ["monero_glue/protocol_lite/lite.py: blind, unblind, mlsag_prehash_init, mlsag_prehash_update, mlsag_prehash_finalize"]}
{"id": "C51", "title": "Range proof serialisation", "statement": "The flattened range signature and the dumped bulletproof parse back to the same components.", "quantifier": "all signatures, any number of rounds", "why_tests_cant": "All sizes.", "anchors": ["monero_glue/xmr/sub/recode_ext.py: flatten_rsig, inflate_rsig", "monero_glue/hwtoken/misc.py: dump_rsig_bp", "monero_glue/protocol/tsx_sign_builder.py: _s6_dump_rsig_bp"]}
{"id": "C52", "title": "Authenticated containers", "statement": "Decrypting a pack made by the encrypt routines with the same key returns the plaintext; a container with a changed nonce, text or signature is rejected unless the primitive is broken.", "quantifier": "all keys and plaintexts", "why_tests_cant": "All plaintext lengths.", "anchors": ["monero_glue/xmr/enc/chacha_poly.py: encrypt_pack, decrypt_pack", "monero_glue/xmr/enc/chacha.py: encrypt_xmr, decrypt_xmr"]}
{"id": "C53", "title": "Transaction key recovery", "statement": "The tx secret keys handed out encrypted in the final acknowledgement are recovered by the owner of the wallet from the stored salts and the prefix hash.", "quantifier": "all keys, salts, numbers of additional keys", "why_tests_cant": "All sizes.", "anchors": ["monero_glue/protocol/tsx_sign_builder.py: final_msg", "monero_glue/hwtoken/misc.py: compute_tx_key", "monero_glue/agent/agent_lite.py: get_tx_key"]}
{"id": "C54", "title": "Sub-address flag of an address record", "statement": "An address record is marked as sub-address exactly when its index is not (0,0), and the printed address carries the matching prefix.", "quantifier": "all index pairs", "why_tests_cant": "All index pairs.", "anchors": ["monero_glue/xmr/sub/addr.py: AddrInfo.recompute_sub", "monero_glue/xmr/monero.py: build_address_info"]}
{"id": "C55", "title": "Destination classification", "statement": "classify_subaddresses counts distinct non-change destinations by kind and reports the single sub-address destination exactly when there is one; the tx key is published relative to that sub-address exactly then.", "quantifier": "all destination lists", "why_tests_cant": "All lists and duplicates.", "anchors": ["monero_glue/xmr/sub/addr.py: classify_subaddresses, addr_eq", "monero_glue/protocol/tsx_sign_builder.py: init_transaction"]}
{"id": "C56", "title": "Address parsing keeps the whole address", "statement": "Every address text accepted by decode_addr is the text that encoding the returned record produces.", "quantifier": "all strings", "why_tests_cant": "All strings.", "anchors": ["monero_glue/xmr/sub/addr.py: decode_addr, encode_addr, public_addr_encode"]}
{"id": "C57", "title": "Change output position", "statement": "The change index is the position of the last output equal in address and amount to the declared change entry, none exists exactly when no output equals it, and a change entry of amount zero never matches.", "quantifier": "all output lists and change entries", "why_tests_cant": "All lists.", "anchors": ["monero_glue/xmr/sub/addr.py: get_change_addr_idx"]}
{"id": "C58", "title": "A truncated protobuf message is refused", "statement": "Cutting the encoding of a message inside a field value makes load_message raise instead of returning a different message.", "quantifier": "all schemas, messages and cut points", "why_tests_cant": "All cut points.", "anchors": ["monero_glue/protobuf.py: load_message, load_uvarint, LimitedReader"]}
{"id": "C59", "title": "Mnemonic decoding is canonical", "statement": "Every accepted list of 3k dictionary words is the list the encoder produces for the decoded seed, so two different mnemonics never open the same wallet.", "quantifier": "all lists of 3k dictionary words", "why_tests_cant": "1626^24 word lists; the overflowing triples are a 0.1% corner.", "anchors": ["monero_glue/xmr/core/mnemonic.py: mn_decode, mn_encode"]}
{"id": "C60", "title": "Chunking loses nothing", "statement": "Splitting a list into chunks of a positive size gives full chunks followed by one shorter (possibly empty) chunk, and joining them gives the list back in order.", "quantifier": "all lists and all positive chunk sizes", "why_tests_cant": "Boundary at exact multiples for every length and size.", "anchors": ["monero_glue/xmr/common.py: chunk", "monero_glue/agent/agent_lite.py: import_outputs"]}
{"id": "C61", "title": "The signed message is the transaction that was described", "statement": "The message every released signature is made for is the hash of exactly the transaction described by the session's messages and answers: unlock time, inputs, outputs, extra, type, fee, encrypted amounts, commitments, range proofs.", "quantifier": "all histories, any number of inputs and outputs, all batchings", "why_tests_cant": "The hash is built incrementally across messages; every interleaving and content matters.", "anchors": ["monero_glue/protocol/tsx_sign_builder.py: _tprefix_update, all_out1_set, tsx_mlsag_out_pk, sign_input", "monero_glue/xmr/sub/mlsag_hasher.py: PreMlsagHasher", "monero_glue/agent/agent_lite.py: sign_transaction_data"]}
{"id": "C62", "title": "Random mask vector is a function of the index", "statement": "Reading element i of the seeded random vector returns the same value, the i-th block of the generator reduced modulo the group order, whatever elements were read before.", "quantifier": "all seeds, sizes and read orders", "why_tests_cant": "The value depends on hidden generator state left by the whole history of earlier reads.", "anchors": ["monero_glue/xmr/bulletproof.py: KeyVPrngMask", "monero_glue/xmr/core/ec.py: PRNG"]}
{"id": "C63", "title": "Honest key image sync returns every key image", "statement": "The host's import of a list of its own outputs completes and returns, for each output in order, its key image and signature.", "quantifier": "all lists of outputs, any number of them, all device randomness", "why_tests_cant": "Batching boundaries and the announced count interact; tests use one or two list lengths.", "anchors": ["monero_glue/agent/agent_lite.py: import_outputs", "monero_glue/xmr/common.py: chunk", "monero_glue/protocol/key_image_sync.py: KeyImageSync"]}
{"id": "C64", "title": "The elliptic curve backend implements the Ed25519 group", "statement": "The base point has order exactly l; every point of the curve is annihilated by 8*l; the hash-to-point routine returns, for every input, a point of the curve in the subgroup of order l; the second generator H is 8 times the point decoded from the hash of the encoded base point; and the routines on coordinates together with Keccak-256 satisfy every law the signature, commitment and wallet theorems assume of their group, so those theorems hold of the real curve.", "quantifier": "every curve point, every hash input, every scalar", "why_tests_cant": "Group order, associativity and the subgroup of every hashed point are facts about 2^255 points; tests sample a handful", "anchors": ["monero_glue/xmr/core/ec_base.py:hash_to_point", "monero_glue/xmr/core/backend/ed25519_2.py", "monero_glue/xmr/core/backend/ed25519_ietf.py"]}
{"id": "C65", "title": "A range proof hides the mask and the amount", "statement": "The bytes of a range proof do not let anyone who knows the code compute the mask of the commitment they prove, nor compute a value that depends on the amounts alone and so lets guesses of them be tested.", "quantifier": "every amount, mask and number of proofs made before", "why_tests_cant": "Statements about what can be computed from a proof range over all algorithms and all proofs; a test only sees that proofs verify", "anchors": ["monero_glue/xmr/bulletproof.py: crypto.prng(_ZERO), _sc_gen, BulletProofBuilder.prove_batch"]}
{"id": "C66", "title": "Secrets encrypted for the host stay secret", "statement": "The lite device hands the host its secret scalars only encrypted under a session key; no sequence of commands lets the host compute such a scalar.", "quantifier": "all command sequences", "why_tests_cant": "A test only exercises the intended sequence; secrecy is about every sequence", "anchors": ["monero_glue/protocol_lite/lite.py: mlsag_hash, mlsag_sign, mlsag_prepare"]}
{"id": "C67", "title": "The transaction the agent returns is the one it was asked to make", "statement": "Whenever signing ends without an error, the returned transaction spends every given source exactly once, each with a signature by that source's key over the hash of the returned fields; it pays every given destination at its position, to the key derived for it; amounts balance with the reported fee both in the clear and in the commitments; and range proofs made or verified by the device cover all outputs.", "quantifier": "every list of sources and destinations, every earlier state of the device, every client version and fork for which the pseudo outputs stay as sent", "why_tests_cant": "Holds of all sizes, permutations and batchings; a test checks one returned transaction", "anchors": ["monero_glue/agent/agent_lite.py: sign_transaction_data", "monero_glue/protocol/tsx_sign_builder.py: TTransactionBuilder"]}
{"id": "C68", "title": "Every recipient can find and open its output", "statement": "For every completed signing session, the holder of the view secret of a destination's address can compute, from the extra field the device returned and the position of the output alone, a shared secret under which the output's one-time key belongs to the destination's spend key, and from which the encoded amount and (in the deterministic-mask mode) the commitment mask are derived. This holds for standard addresses, a single sub-address, mixtures that use additional transaction keys, repeated addresses and the change.", "quantifier": "all devices, credentials, transaction requests, message sequences, random choices and destinations; all key-agreement primitives satisfying the Diffie-Hellman laws", "why_tests_cant": "Which transaction key is published depends on the classification of all destinations, and which secret is used depends on the change address and the sub-address flag of each; the combinations and the number of outputs are unbounded, and a mistake loses money without any error being raised.", "anchors": ["monero_glue/protocol/tsx_sign_builder.py:init_transaction", "monero_glue/protocol/tsx_sign_builder.py:_s6_set_out_additional_keys", "monero_glue/protocol/tsx_sign_builder.py:_s6_set_out_derivation", "monero_glue/protocol/tsx_sign_builder.py:add_additional_tx_pub_keys_to_extra", "monero_glue/xmr/sub/addr.py:classify_subaddresses"]}
{"id": "C69", "title": "What an accepted ring signature or range proof means", "statement": "The ring signature verifiers (one input, all inputs together, CLSAG) accept exactly the signatures whose chain of challenges over the ring returns to the first challenge, with the points computed from the decoded ring keys, the commitments minus the pseudo output (or inputs minus outputs minus fee), and the key images; the range proof verifier accepts a proof for a commitment exactly if the 64 bit commitments add up to it and the rings close. A signature accepted for two messages of one length exhibits a hash collision.", "quantifier": "all messages, key matrices, signatures and proofs, also malformed ones", "why_tests_cant": "completeness tests run honest signers; that nothing else is accepted needs a statement about all inputs", "anchors": ["monero_glue/xmr/mlsag2.py: ver_mlsag_ext, ver_rct_mg, ver_rct_mg_simple, verify_clsag, ver_borromean", "monero_glue/xmr/ring_ct.py: ver_range"]}
{"id": "C70", "title": "Signatures prove knowledge of keys; key images are unique; nonces must not repeat", "statement": "Two answers to different challenges for the same commitments reveal the secret: of a Schnorr signature, of every key of a ring column together with its key images, of the CLSAG aggregate, and of a range proof an opening to an amount below 2^64 (or a hash collision). For one input this gives a pseudo output committing to the amount of the spent output, and two spends of a one-time key carry the same key image. Signing twice with one nonce gives the key away.", "quantifier": "all groups satisfying the laws and Ed25519 itself; all challenges, responses and points of the subgroup", "why_tests_cant": "soundness is about every possible prover", "anchors": ["monero_glue/xmr/crypto.py: generate_signature, check_signature", "monero_glue/xmr/mlsag2.py: ver_mlsag_ext, ver_rct_mg_simple, verify_clsag, ver_borromean", "monero_glue/xmr/ring_ct.py: ver_range"]}
{"id": "C71", "title": "Wallet trees derive the keys of BIP-0032 and SLIP-0010", "statement": "The master wallet of a seed and the wallet at a written path hold exactly the private key, public key, chain code, depth, child number and parent fingerprint that BIP-0032 prescribes, whatever spelling of the hardening mark and of the leading m is used; a path ending in .pub gives the public wallet. For the Ed25519 curve they are those of SLIP-0010 and only hardened children exist. The base58 text of a wallet reads back as the same wallet on its own network and is refused on every other one. A public wallet and a private non-hardened child give back the parent's private key. Memoized calls return what a direct call returns.", "quantifier": "all seeds, all written paths with indices up to 2^31, all networks, all wallets up to the depth a byte can hold, all histories of memoized calls; HMAC, hashes and the curve group are any functions with the group laws", "why_tests_cant": "test vectors cover a handful of paths; the claim is about every seed, path and history of calls", "anchors": ["monero_glue/misc/bip/bip32.py: Wallet.from_master_secret, get_child, get_child_for_path, serialize, deserialize, crack_private_key, public_copy", "monero_glue/misc/bip/utils.py: memoize, long_to_hex", "monero_glue/misc/bip/keys.py: PrivateKey"]}
{"id": "C72", "title": "Wallet keys follow from the seed alone and restoring gives the same wallet", "statement": "For every way of creating a wallet (master secret, word list, BIP-44 path, SLIP-0010 path) the spend key is the seed reduced below the group order, the view key is the reduced hash of the spend key, and the public keys are their multiples of the base point. The word list of a wallet restores the same seed and keys, and the two hierarchical derivations take the seed from the wallet node at the path the caller gave, by default m/44'/128'/0'/0/0 and m/44'/128'/0'.", "quantifier": "all master secrets of 32 bytes, all seeds and paths, any hash functions and curve operations satisfying the laws", "why_tests_cant": "restoring must work for every wallet ever created, not for sample ones", "anchors": ["monero_glue/xmr/sub/seed.py: SeedDerivation", "monero_glue/xmr/monero.py: generate_monero_keys, generate_keys", "monero_glue/misc/bip/bip32.py: Wallet"]}
{"id": "C73", "title": "A node accepts the transactions the agent returns", "statement": "Whenever signing with the modelled elliptic-curve primitives ends without an error, the checks of a verifying node pass on the returned transaction: inputs are in descending order of their key images, commitments of inputs equal those of outputs plus the fee, every output commitment is covered by a range proof that verifies, and every input carries a key image of the prime-order group and a ring signature over the hash of the returned fields that verifies for its ring and pseudo output.", "quantifier": "every request, every earlier state of the device, every choice of random scalars; the verifier's weights are arbitrary up to two outputs, and those of the device for more", "why_tests_cant": "Holds for all sizes and randomness of the whole composition of device, agent, range proofs and ring signatures; tests verify single transactions", "anchors": ["monero_glue/agent/agent_lite.py: sign_transaction_data", "monero_glue/protocol/tsx_sign_builder.py: TTransactionBuilder", "monero_glue/xmr/mlsag2.py: ver_rct_mg_simple", "monero_glue/xmr/bulletproof.py: verify_batch"]}
{"id": "C74", "title": "Vectors of keys behave as arrays", "statement": "A vector of keys behaves as an array of 32-byte keys that starts with zeros: a read, directly or through a window, returns what was last written at that position, negative positions count from the end, positions outside are refused, shrinking keeps the remaining keys, growing adds zero keys, copying a part of another vector gives exactly that part, and a saved and loaded vector is the same.", "quantifier": "all sizes and all histories of reads, writes, windows, resizes and reallocations, for the flat and the chunked storage", "why_tests_cant": "The storage changes form with the size and the history; only an argument over all histories shows that no key is lost or moved", "anchors": ["monero_glue/xmr/bulletproof.py: KeyV, KeyVSliced"]}
{"id": "C75", "title": "Lazily evaluated vectors return the values they stand for", "statement": "Element i of the vector of powers of x is x to the i modulo the group order, element i of the vector r0 of the prover is its defining expression, and the sum of the first n powers of x is that sum; for every order of accesses the vector does not refuse.", "quantifier": "all scalars, sizes and histories of accesses, rewinds and restored states", "why_tests_cant": "The values are computed incrementally from the previous access, so each depends on the whole history", "anchors": ["monero_glue/xmr/bulletproof.py: KeyVPowers, KeyR0, _vector_power_sum"]}
{"id": "C76", "title": "Shared registers and buffers do not disturb a range proof", "statement": "The inner product argument of a range proof runs in global working registers shared by all functions of the module, folds its vectors in place and evaluates generators on demand with register writes of their own. Whatever those registers held before, and for vectors of every length, the points of every round and the final scalars returned are those of the mathematical algorithm; a zero challenge is refused in the same cases.", "quantifier": "all contents of the working registers, all vectors l and r of length 2^k for every k, all challenges", "why_tests_cant": "aliasing bugs depend on the order of register writes, on which evaluation is interleaved with which and on sizes (more than 256 generators, more than 32 keys); a test sees one interleaving from one initial state", "anchors": ["monero_glue/xmr/bulletproof.py: _prove_loop", "monero_glue/xmr/bulletproof.py: _phase2_loop_body", "monero_glue/xmr/bulletproof.py: _hadamard_fold", "monero_glue/xmr/bulletproof.py: _vector_exponent_custom", "monero_glue/xmr/bulletproof.py: KeyVEval, KeyVPrecomp, KeyVPowers"]}
{"id": "C77", "title": "Generated transaction data is what was asked for and can be signed", "statement": "For every sequence of calls that add inputs, outputs and change to the transaction builder, and whatever its random numbers, the builder holds exactly the inputs, outputs and change asked for: each input is a ring with a real member paid to the given sub-address of the wallet, which the wallet can spend with the noted key image; each output has the keys and the address text of its destination; the change makes inputs equal outputs plus fee, and the only refusal is of a negative change. The request built from it is signed by the agent and accepted by a node.", "quantifier": "all wallets, accounts, fees, ring sizes, amounts, sub-addresses, random numbers and sequences of calls", "why_tests_cant": "The data is random and depends on the order of all earlier calls (the change uses the totals so far); a test sees one draw of one sequence", "anchors": ["monero_glue/xmr/transaction_builder.py: TransactionBuilder (gen_input, gen_output, gen_change, build, check_input)"]}
{"id": "C78", "title": "Secrets the lite device hands out work when handed back", "statement": "The lite device never gives derived secrets to its host in clear: it hands them out encrypted under its session key, and the host hands them back in later commands. A secret handed back means the secret that was handed out, so that the chain of key commands (derivation, scalar, one-time public and secret key, key image, public key of a secret) computes the wallet's own values for every output, whatever commands succeeded or failed in between; nothing but PUT_KEY changes the keys; PUT_KEY and VERIFY_KEY treat secret and public keys as pairs that belong together.", "quantifier": "all wallet keys, session keys, block ciphers, transaction keys, output indices and histories of commands in between", "why_tests_cant": "the values pass through a cipher with different modes in the two directions and through any commands in between; one command at a time looks right", "anchors": ["monero_glue/protocol_lite/lite.py: key commands, _fetch_decrypt, _insert_encrypt, dispatch", "monero_glue/xmr/enc/aescbc.py: encrypt, decrypt"]}
{"id": "C79", "title": "A wallet written down as BIP-0039 words is restored from them", "statement": "The words returned for a wallet made from a secret of 4 to 32 bytes (a multiple of 4) are the sentence BIP-0039 defines: the secret followed by the first bits of its SHA-256, 11 bits a word. Given back to be read as numbers, in any grouping into lines and in small or capital letters, they restore the wallet of that secret; an unknown word, a passphrase or a wrong checksum is refused. Read as a sentence they give the seed BIP-0039 defines: PBKDF2 with 2048 rounds of HMAC-SHA512 and the salt 'mnemonic' and the passphrase, however the words are grouped.", "quantifier": "every secret, every grouping of the words into lines, every mixture of small and capital letters, every passphrase and derivation path, arbitrary hash functions", "why_tests_cant": "The cases are all secrets of eight lengths and all ways to type the words; a test of one 16-byte secret passes while every 32-byte secret is restored as another wallet.", "anchors": ["monero_glue/misc/bip/bip32.py: Wallet.to_seed_words, bytes_to_indices, indices_to_bytes", "monero_glue/xmr/sub/seed.py: SeedDerivation.from_mnemonics, clean_input", "monero_glue/misc/bip/bip39_deriv.py: mnemonics_to_seed", "monero_glue/misc/bip/bip39.py: english_words"]}
{"id": "C80", "title": "Files exchanged with the desktop wallet are read back as written", "statement": "An unsigned transaction set or an export of outputs, written with a key, is read back with that key as the same data (and the public keys of the wallet that wrote the outputs). A file with another header or version, or of another kind, is refused. A keys file written with a password is read back with it as the same settings and key data, and the same object can be written again.", "quantifier": "every transaction set, list of outputs, settings, key data, key, password, nonce and every byte string offered as a file; arbitrary serialisation libraries that read what they write", "why_tests_cant": "A test writes and reads one file; key data that contains a quote and a comma next to each other, about one wallet in some hundreds, is what breaks the keys file, and only the second write of an object fails.", "anchors": ["monero_glue/xmr/wallet.py: load_unsigned_tx, dump_unsigned_tx, dump_signed_tx, load_exported_outputs, save_exported_outputs, load_keys_data, gen_keys_file, WalletKeyFile", "monero_glue/xmr/enc/chacha.py: encrypt_xmr, decrypt_xmr, encrypt, decrypt"]}
{"id": "C81", "title": "The agent believes a key image from the device only with a proof that it belongs to the output", "statement": "During live refresh the agent returns a key image for an output only if the device's answer decrypts under the key shared for that output and carries a valid proof that the key image and the output's one-time key have the same secret; every other answer raises. The answer of a device that holds the secret is accepted and gives the output's key image. A device cannot get any other point accepted, except by hitting one value of the hash per attempt. Derivations asked for are returned exactly as the device sent them; an answer that does not decrypt or is not a whole number of 32-byte values raises.", "quantifier": "every view key, output key, salt, byte string offered as an answer, secret, nonce, list of derivations; every group with the stated laws and every hash, HMAC and authenticated cipher that decrypts what it encrypted", "why_tests_cant": "A test plays one honest device; what a dishonest one can get accepted is a statement about all answers.", "anchors": ["monero_glue/agent/agent_lite.py: live_refresh, _compute_ki_enc_key_host, get_tx_deriv, _get_tx_key_intern", "monero_glue/xmr/ring_ct.py: check_ring_singature, generate_ring_signature"]}
