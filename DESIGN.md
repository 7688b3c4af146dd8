# Formal model of ph4r05/monero-agent in Rocq (Coq 8.16.1)

This document is the plan and the record of the trusted base. Properties are in
`properties.jsonl`, their status and theorem names in `MANIFEST.json`.

## Layout

All Coq sources are in `rocq/theories`, logical name `Verif`.

* `*_model.v`: Gallina models of the Python functions, one definition per
  function, with a comment citing file and lines. No proofs.
* `*_spec.v`: small specifications written without the model's helpers.
* `*_proof.v`: lemmas.
* `Prop_*.v`: the property theorems, with `Print Assumptions` and non-vacuity
  `Example`s beside them.

## Modelling conventions

* Python `int` is `Z`; `bytes`/`bytearray` is `list Z` with all entries in 0..255
  (predicate `bytes_ok`); lengths and positions are `nat` or `Z`.
* An exception is a value: functions that can raise return `res` (`Ok v` or `Err e`
  with the kind of exception).
* Loops are structural recursion or recursion on explicit fuel; running out of
  fuel is a separate error value which the theorems exclude.
* Curve points are elements of an abstract commutative group with a scalar
  action of `Z` (record of operations plus a record of laws that is an explicit
  hypothesis of the theorems). Hash functions are arbitrary functions. Nothing
  is an axiom; each such theorem is quantified over every instance of the record
  and instantiated by a concrete instance to show that the laws are satisfiable.
* HMAC unforgeability and hash collision resistance are never assumed: theorems
  that need them conclude "... or a collision/forgery is exhibited".

## Plan per property

| id | model | how it is proved, or why not |
|----|-------|-----------|
| C01, C02 | `b58_mnr.py` block coder over Z (B58Mnr_model) | positional notation, per-block round trip, induction over blocks; C02 refuted at 2^64, partial without it |
| C03, C04 | `addr.py`, `xmr_net.py`, `crypto.py` check coder, arbitrary checksum hash (Addr_model) | corollary of C01, finite table |
| C05 | `b58.py` (B58Btc_model) | positional notation with leading zeros |
| C06, C07, C08, C58 | `protobuf.py` on byte lists with a reader position (Protobuf_model) | induction on value / schema and message; C58 refuted for truncated numbers |
| C09, C10, C59 | `mnemonic.py` with an arbitrary duplicate-free word list of the right size | modular arithmetic per 3 words; C10, C59 refuted; the checksum word is the one CRC-32 picks (Crc_spec) |
| C11, C12-C14, C57, C60 | `common.py`, `tsx_helper.py`, `agent_lite.py` list functions (Lists_model) | cycle-walk invariant, induction |
| C15-C25, C61 | device session as `step : state -> msg -> state * response` mirroring `tsx_sign*.py` (Signer_model); a history is any list of messages | inductive invariants over histories (Signer_inv*); refinement to a small protocol automaton; refutations by concrete runs |
| C25 | honest agent driving the device (Agent_model) | simulation, step by step (Complete_proof*) |
| C26 | key buffer construction (KeySep_model) | injectivity of layout; device theorems from the session invariants |
| C27, C28 | hashers as state machines over absorbed bytes; Keccak-f on 64-bit lanes (MlsagHasher_model, Keccak_model) | refinement to concatenation / to the sponge |
| C29, C30, C63 | `key_image_sync.py` session (KeyImageSync_model) | invariant over histories |
| C31-C35, C38, C39 | algebra over an abstract group (Ec_model, Sigs_model, Mlsag_model, Borromean_model, Wallet_model) | linear algebra mod l, induction on ring size; instances on Ed25519 |
| C36, C37, C65 | bulletproof prover and verifier over vectors (Bp_model) | vector algebra, induction on rounds; C65 refuted |
| C40-C42, C46, C47, C51-C56, C62 | direct | direct |
| C43, C44 | integer functions (Ints_model) | positional notation, gcd |
| C45, C64 | `ed25519_2.py`, `ed25519ietf.py`, `ed25519.py` over Z mod 2^255-19 (Ed25519_model) | Pocklington certificates, completeness of the Edwards law, field algebra |
| C48, C49 | bit packing, block search loop | value invariant of the carry loop; loop invariant and measure |
| C50, C66 | `protocol_lite/lite.py` command by command (Lite_model) | invariants over command lists from any state; refutations |
| C67 | honest agent, any device answers | every returned transaction is inspected (Sound_proof*) |
| C68, C53 | agent, device and recipient together | session invariants, Diffie-Hellman laws |
| C69, C70 | verifiers of Mlsag_model, Borromean_model | equivalence with the equations; special soundness (rewinding itself is not formalised) |
| C71 | bip32.py, keys.py, utils.py (Bip32_model) over a record of HMAC, hash and group operations | refinement to BIP-0032 / SLIP-0010 written separately (Bip32_spec), induction on paths; text round trip; invariant of the memo table |
| C72 | sub/seed.py, key generation of monero.py (Seed_model) | composition of C71 and the word list round trip |
| C74, C75 | vectors of keys, their windows, powers and `KeyR0` as state machines (Keyv_model); plain arrays and sums (Keyv_spec) | simulation over all histories of operations |
| C76 | the loop of the inner product argument with its ten global registers, in-place folds and generators evaluated on demand (Regs_model) | simulation of the loop of Bp_model: per-function lemmas saying which registers survive, induction on rounds |
| C77 | the transaction builder over draws of random numbers (Builder_model); the plan a history of calls asks for, and received outputs (Builder_spec) | invariant over histories of calls; the request meets the hypotheses of C25 |
| C78 | the key commands of `protocol_lite/lite.py` (Lite_model) over `xmr/enc/aescbc.py` with an arbitrary block cipher (LiteKeys_model); what a host expects (LiteKeys_spec) | frame over all commands, then command by command from any later state; refutation for every block cipher |
| C79 | `to_seed_words`, `from_mnemonics`, `bip39_deriv.py` and the word list (Bip39_words copied mechanically, Bip39_model); PBKDF2 is arbitrary; what a sentence is (Bip39_spec) | the list is strictly increasing, so words and numbers correspond; the packing theorems of C48; cleaning of lines by induction |
| C80 | headers, encryption, the loader's regular expression and the keys file object of `xmr/wallet.py` (Files_model); archives, JSON and escaping are arbitrary with laws (Files_spec) | containers by C52; the literal occurs once in the text because escaped quotes follow a backslash; the lazy group ends at the first quote and comma |
| C81 | `live_refresh` and `get_tx_deriv` of `agent/agent_lite.py` on an arbitrary answer of the device (LiveRefresh_model) | acceptance is an equivalence (ring of one member, C32); two challenges for one pair of points extract the secret (C70), so a wrong key image answers one at most |
| C73, C25 | device operations made of the modelled curve, ring signatures and bulletproofs (Real_model); the checks of a node (Node_spec); requests in terms of keys (Request_spec) | C67 with the primitives opened; C33 and C36 for completion |

## Layers

* Primes: 2^255-19 and the order l are proved prime by Pocklington certificates
  computed in the kernel (Primes.v). The curve equation, the completeness of the
  addition law, the group laws, point encoding and the exact order of the base
  point are proved for the Z arithmetic of the code (Curve*.v, Ed25519_*.v).
* Group layer: `ecops` (operations) and `ec_laws` (laws, a hypothesis). Two
  instances: `toy` (Z mod l, used to run examples) and `ed25519` (the modelled
  backend with the modelled Keccak), for which `ed25519_laws` is a theorem.
* Signer layer: the session model uses a record `ops` of primitives (hash, HMAC,
  AEAD, commitments, range proofs, ring signatures). `codec_laws`, `prim_laws`
  and `dh_laws` are hypotheses where needed; `toy_ops` satisfies all of them, and so do the
  operations made of the modelled primitives (`real_ops`; `prim_laws` if no hash is zero).
* A session is a history of any messages from any host, starting in any device
  state; failed messages have the effect the Python exception handler gives them.

## Trusted base

* Coq 8.16.1's kernel, including its virtual machine (`vm_compute`).
* `Print Assumptions` prints "Closed under the global context" for every theorem
  named in `MANIFEST.json`: no axiom, also none of the standard library. (The
  build check lists seven axioms of `Coq.ssr.ssrunder`, which come with the
  `ssreflect` plugin file of the standard distribution; no theorem uses them.)
* The tie between model and code is by reading only: the code was not run. Every
  model definition cites file and lines; simplifications are in the comments.
* Python semantics taken for granted: unbounded integers, `//` and `%` flooring,
  negative indices and slices of lists and bytes (modelled in Py.v), exceptions
  stopping a function at the point where they are raised.

### Modelled

`misc/b58.py`, `misc/b58_mnr.py`, `protobuf.py`, `xmr/core/mnemonic.py`,
`xmr/common.py`, `xmr/sub/{addr,xmr_net,tsx_helper,recode_ext,mlsag_hasher,keccak_hasher}.py`,
`xmr/{crypto,monero,ring_ct,mlsag2,key_image}.py`, the prover and verifier of
`xmr/bulletproof.py`, `xmr/core/{ec_py,ec_base,ec}.py`,
`xmr/core/backend/{ed25519,ed25519_2,ed25519ietf,keccak2}.py`,
`xmr/enc/{chacha,chacha_poly,aescbc}.py` (ciphers abstract), `hwtoken/{token,misc}.py`,
`protocol/{tsx_sign,tsx_sign_builder,tsx_sign_state,tsx_sign_state_holder,key_image_sync}.py`,
`agent/agent_lite.py` (signing, key image import, list helpers, live refresh, derivations),
`protocol_lite/lite.py`, `misc/bip/{bip32,bip39,bip39_deriv,keys,utils,network}.py`, `xmr/sub/seed.py`,
files and integer parts of `xmr/wallet.py`, inputs, outputs, change and request of
`xmr/transaction_builder.py`.

### Not modelled

* ChaCha20, Poly1305, AES, PBKDF2, SHA-256 and HMAC: arbitrary functions with the
  laws stated where used.
* `ec_trezor.py`, `bulletproof_cl.py`, `trezor_unused/`, WIF export and addresses of other coins in `bip/`:
  bindings to a native library, an OpenCL port, dead code and other coins.
* Of `transaction_builder.py`: `describe`, serialization of the unsigned transaction, and payment ids other than in addresses. Wallet and daemon RPC, `monero_poc/` (command line
  front ends), the message classes (only their schemas, as data).
* The user interface: `confirm_*` is a step whose answer is an input.
* Memory layout, timing, garbage collection, progress reporting.
* Bulletproofs: the variant `prove_batch_` and the precomputed generator tables. In
  Bp_model the memory saving vector classes are the lists they denote; the classes
  themselves are in Keyv_model (C74, C75) and Ints_model (the mask vector, C62). The global registers and
  in-place folds of the second phase are in Regs_model (C76); those of the first phase, and the aliasing of
  buffers returned by iterating a chunked vector, are not modelled.
* `extra` fields other than the public keys, additional keys and nonces.

## Findings

Statements that are false of the code as modelled. Those marked with an id have a
machine-checked witness (`..._refuted` or a theorem of that property).

Signing protocol:
* C20: the device never checks that the permutation is one
  (`tsx_sign_builder.py:722-739`), so one input can be signed twice.
* C23: the last offloaded range proof can be skipped and the grouping is not
  checked to cover the outputs: a signature is produced without a range proof.
* C15: an offloaded-proof message is acknowledged out of order.
* C25: client version 0 fails with the newer proof type and more than two
  outputs, and with more than 16 outputs.
* C67: client version 0 with a fork of 10 or more returns an unbalanced transaction,
  because the agent ignores the adjusted pseudo output (`agent_lite.py:539`).
* C68: for a request with change amount 0 and two destinations the change address
  is not checked (`tsx_sign_builder.py:201-212`); a recipient at that address
  cannot find its output.
* Only change or no destination, without payment id: a dummy payment id is made
  with a NULL view key and raises.
* The HMAC of an input covers `dump(src) ++ vini` without a boundary.
* The zero mask is not returned in deterministic / offloaded mode; `ecdh` info of
  forks below 9 is parsed oddly.
* C26: `enc_key_cout()` without an index equals the key of index 0.
* C27: `PreMlsagHasher` needs at least one output.

Key images:
* C29: lengths are not part of the commitment, so the boundary between entries
  is ambiguous. C63: importing a number of outputs that is a multiple of ten fails (an empty last batch is refused).

Encodings:
* C02, C56, C54, C58, C59, C10: non-canonical base58, trailing data in addresses,
  sub-address flag, truncated protobuf numbers, non-canonical and unchecked
  mnemonics.
* C41: `encrypt_payment_id` leaves the tail of long ids in clear. C42: an extra
  nonce of 128 to 255 bytes cannot be read back. C48: `bytes_to_indices` drops
  bits of the last byte. C52: `decrypt_pack` ignores the associated data; the
  signature of `decrypt_xmr` is malleable. `dump_rsig_bp` sizes its buffer by
  `len(L)` only. `add_additional` with an empty encoder raises TypeError.

Randomness:
* C65: bulletproofs use a PRNG with a constant seed (`bulletproof.py:50`,
  1968-1982, 2346): masks follow from the proof. The blinding vectors have the constant seeds
  0 and 1, so with good randomness elsewhere too, a proof reveals a function of the
  amounts alone (C65_masks_refuted), on which guesses can be tested. C47: unaligned reads of the PRNG
  drop the rest of a block; `rewind` moves forward. C62: the first read of the
  mask vector at an index other than 0 is off by one.

Ring signatures, range proofs:
* `generate_clsag_simple` overwrites the caller's keys with None; the condition on
  kLRki in `prove_rct_mg` can never hold; ring and Schnorr checks refuse zero
  components; `ecdh_decode` with a receiver key always raises; `prove_range`
  with decoding inflates twice (`ring_ct.py:231-234`); `prove_range_chunked` uses
  the low 64 bits while the others raise; `verify` uses a non-existing
  `RctType.FullBulletproof` (`monero.py:354-355`); Borromean proofs are never
  accepted by the device in step 4.
* Bulletproofs: `prove_batch_` is broken (2115); zero challenges return `(0,)`
  which `_prove_batch_main` ignores and a zero `w_round` loops; more than 32
  values give M = 32; the limit of 16 is not enforced; multiplying weights by 8
  mod l does not clear torsion; `_vector_power_sum` with n = 1 and
  `_get_chunk(0)` are wrong.

Lite protocol:
* C50: a key sent before the outputs is hashed although never opened; a prehash
  made in fake mode can be signed in real mode without confirmation. C66: nonce
  ciphertexts can be replayed, which reveals secrets. `verify_key` with p1 = 1 or
  2 never verifies; TLV lengths below 128 break; `_idx_parse` always raises.
* C78: `aescbc.py` encrypts in ECB mode with an iv and decrypts in CBC mode. pycryptodome, which
  `setup.py` requires, refuses the iv, so no command that hands out a secret succeeds; with a library
  that ignores it, the second half of every secret of 32 bytes comes back xored with the first ciphertext block.
  PUT_KEY replaces the secret keys but not the public keys and the address, and replaces the view key even if it
  refuses the second pair. GET_KEY 2 returns the view key without confirmation. A ciphertext equal to
  32 zero (or 255) bytes would be taken for the view (or spend) key.

Seed words:
* C79: `indices_to_bytes` drops the checksum only because it does not fill a byte. With 24 words it does,
  so the words of every 32-byte secret restore the wallet of 33 bytes. The checksum is not compared. One string with
  all the words is looked up as one word and refused; in the other mode it is accepted, but a doubled blank in a line
  stays in the password of PBKDF2.

Wallet files:
* C80: the loader of keys files ends the key data at the first quote followed by a comma, also when the quote is
  escaped, so key data with these two bytes cannot be read back. This takes for granted that the escaping library,
  which is not in the repository, writes a quote as backslash and quote. `gen_keys_file` deletes the key data of the
  object it is given (`wallet.py:152`), so a second call raises.

Live refresh:
* C81: live refresh does not check that the key image it is given has order `l`. A device can add a point of order 2, 4 or
  8 to the key image and draw nonces until the challenge is a multiple of 8; the agent accepts the result
  (`C81_wrong_image_refuted`, shown on a group with a point of order two). Bytes after the first 96 of the answer are
  ignored (`C81_honest`, `tail`).

Transaction builder:
* C77: the request lists the account numbers of the inputs as sub-address numbers
  (`transaction_builder.py:401`), so an input at another sub-address of the account is not signed.
* `shuffle_outputs` shuffles a `zip` object and always raises; `describe` without
  sub-addresses iterates over pairs and raises; `set_payment_id` writes the id as a nonce
  without its tag; the payment id of an integrated address does not reach the request; a
  request without change makes the agent read an attribute of None; multisig data of a
  source is not copied into the message; `random_scalar` writes big-endian and
  reads little-endian (harmless).

Vectors of keys:
* C74: growing a flat vector loses its keys; an index below minus the length reads and
  writes outside a window; copying a chunked vector into a flat one copies nothing.
* C75: powers are wrong after an access that raised and was caught, and when `rewind` comes
  before the first access; a reloaded `KeyR0` has lost its value; `_vector_power_sum` with
  n = 1 returns 1 + x.
* `_vector_z_two`, `_vector_scalar` and `_vector_scalar2` write into a temporary
  copy when the destination is chunked (unused code).

Curve backends:
* C45: the decoder accepts non-canonical y and x = 0 with sign 1; `ed25519.py`
  `decodepoint` does not check the curve and d is not reduced; `fe_divpowm1` uses
  xor and float division; `fe_isnegative` is never true;
  `ge_frombytes_vartime_check` is vacuous; `point_eq` against other types returns
  None; `compute_H` calls `scalarmult_base(1)` with an int.

Wallet trees and seeds:
* C71: `get_child` of a public wallet always raises (`PrivateKey(None)`,
  `bip32.py:448`). `memoize` keys on the names of keyword arguments only, so
  `get_child(i, is_prime=True)` after `is_prime=False` returns the wrong child.
  Children's keys carry the Bitcoin network: a wallet differs from the one read from its
  own text, and `crack_private_key` asserts on other networks. Depth 256 and more
  has no base58 text. An Ed25519 master that is 0 or at least the secp256k1 order is
  refused, although SLIP-0010 has a master for every seed.
* C72: `from_monero_mnemonics` with one string raises ZeroDivisionError; the
  checksum word is ignored.
* `public_copy` of an Ed25519 wallet raises; `is_hex_string` accepts all bytes; the branch
  `child_number >= boundary` cannot be reached; `create_new_address_for_user`
  accepts an identifier for which the derivation raises.

## Testing the theorems

`seeded/LOG.jsonl` records every edit of the model made in a scratch copy, the
claim it breaks, the theorems that failed and what was tightened.
